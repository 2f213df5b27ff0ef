(** Further lemmas used by the property files of the utility modules. *)
From Coq Require Import String.
From Verif Require Import Base BaseProofs Hash HashProofs Dict DictProofs Stack StackProofs
  Str StrProofs Eol EolProofs MemTrack MemTrackProofs Err ErrProofs.
Open Scope string_scope.
Open Scope list_scope.
Open Scope Z_scope.
Ltac Zify.zify_post_hook ::= Z.div_mod_to_equations.

(** three-letter keys for tests *)
Definition key3 (n : Z) : cstr := [97 + n / 676; 97 + (n / 26) mod 26; 97 + n mod 26].
Fixpoint upto_aux (n : nat) (acc : list Z) : list Z :=
  match n with O => acc | S n' => upto_aux n' (Z.of_nat n' :: acc) end.
Definition upto (n : nat) : list Z := upto_aux n [].

(** decidable version of [fresh_ops] on a list of present keys *)
Fixpoint freshb_aux {V} (present : list (list Z)) (ops : list (dop (V:=V))) : bool :=
  match ops with
  | [] => true
  | DInsert k _ :: ops' => negb (existsb (streq (map tolower k)) present) && freshb_aux (map tolower k :: present) ops'
  | DDelete k :: ops' => freshb_aux (filter (fun q => negb (streq (map tolower k) q)) present) ops'
  end.
Definition freshb {V} (ops : list (dop (V:=V))) : bool := freshb_aux [] ops.

Lemma freshb_fresh {V} (ops : list (dop (V:=V))) : forall present m,
  (forall q, m q <> None -> In q present) -> freshb_aux present ops = true -> fresh_ops m ops.
Proof.
  induction ops as [|[k v|k] ops IH]; intros present m H; cbn [freshb_aux fresh_ops]; [trivial| |].
  - intros E. apply andb_true_iff in E as [E1 E2]. split.
    + destruct (m (map tolower k)) eqn:Em; [|reflexivity]. exfalso.
      assert (In (map tolower k) present) as HI by (apply H; congruence).
      assert (existsb (streq (map tolower k)) present = true) as X
        by (apply existsb_exists; exists (map tolower k); split; [exact HI|now apply streq_eq]).
      rewrite X in E1. discriminate.
    + apply IH with (2 := E2). intros q. cbn [astep].
      destruct (list_eq_dec Z.eq_dec (map tolower k) q) as [->|]; [now left|]. intros Hq. right. now apply H.
  - intros E. split; [exact I|]. apply IH with (2 := E). intros q. cbn [astep].
    destruct (list_eq_dec Z.eq_dec (map tolower k) q) as [->|Hne]; [congruence|]. intros Hq. apply filter_In.
    split; [now apply H|]. destruct (streq (map tolower k) q) eqn:X; [apply streq_eq in X; congruence|reflexivity].
Qed.

Lemma hash_respects_stricmp a b : valids a -> valids b -> stricmp a b = 0 ->
  hash_function a = hash_function b /\ 0 <= hash_function a < 2 ^ 32.
Proof.
  intros Ha Hb H. split; [|apply hash_function_range]. apply hash_function_fold. now apply stricmp_0_iff.
Qed.

Lemma stricmp_pointwise a b : valids a -> valids b ->
  (stricmp a b = 0 <->
   (List.length a = List.length b /\ forall i x y, nth_error a i = Some x -> nth_error b i = Some y -> tolower x = tolower y)).
Proof.
  intros Ha Hb. rewrite stricmp_0_iff by assumption. clear. revert b. induction a as [|x a IH]; intros [|y b]; cbn [map List.length].
  - split; [intros _; split; [reflexivity|intros [|i]; discriminate]|reflexivity].
  - split; [discriminate|intros [? _]; discriminate].
  - split; [discriminate|intros [? _]; discriminate].
  - split.
    + intros [= E1 E2]. apply IH in E2 as [E2 E3]. split; [lia|]. intros [|i] u v; cbn [nth_error]; [congruence|apply E3].
    + intros [E2 E3]. f_equal; [now apply (E3 0%nat)|]. apply IH. split; [lia|]. intros i. apply (E3 (S i)).
Qed.

Definition records {V} (s : @dict * heap (V:=V)) (k : cstr) : list (option V) := vals (snd s) (stackof (fst s) k).

Lemma step_records {V} (s : @dict * heap (V:=V)) o k : WF (fst s) (snd s) -> valids (dop_key o) ->
  let old := records s k in
  let new := match o with
             | DInsert k1 v => if lzeqb (map tolower k1) (map tolower k) then Some v :: old else old
             | DDelete k1 => if lzeqb (map tolower k1) (map tolower k) then tl old else old
             end in
  records (dstep s o) k = if grows s o then rev new else new.
Proof. intros H Hk. exact (step_stack s o k H Hk). Qed.

Definition validsb (s : cstr) : bool := forallb (fun c => (-128 <=? c) && (c <=? 127) && negb (c =? 0)) s.
Lemma validsb_ok s : validsb s = true -> valids s.
Proof.
  intros H. unfold validsb in H. rewrite forallb_forall in H. apply Forall_forall. intros c Hc. specialize (H c Hc).
  unfold validc. lia.
Qed.
Lemma valid_ops_ok {V} (ops : list (dop (V:=V))) : forallb (fun o => validsb (dop_key o)) ops = true ->
  Forall (fun o => valids (dop_key o)) ops.
Proof. intros H. rewrite forallb_forall in H. apply Forall_forall. intros o Ho. now apply validsb_ok, H. Qed.

Definition dup_ops : list (dop (V:=Z)) :=
  [DInsert (cs "dup") 1; DInsert (cs "dup") 2] ++ map (fun n => DInsert (key3 n) 0) (upto 920).

Lemma dict_most_recent_refuted : exists (ops : list (dop (V:=Z))) k,
  Forall (fun o => valids (dop_key o)) ops /\ valids k /\
  fold_left sstep ops (fun _ => []) (map tolower k) = [2; 1] /\ dlookup (drun ops) k = Some 1.
Proof.
  exists dup_ops, (cs "dup"). split; [|split; [|split]].
  - apply valid_ops_ok. vm_compute. reflexivity.
  - apply validsb_ok. reflexivity.
  - vm_compute. reflexivity.
  - vm_compute. reflexivity.
Qed.

Lemma dict_invariant {V} (ops : list (dop (V:=V))) : Forall (fun o => valids (dop_key o)) ops ->
  let d := fst (drun ops) in
  dcount d = Z.of_nat (List.length (concat (dtable d))) /\
  (exists p : nat, dsize d = 1024 * 2 ^ Z.of_nat p) /\
  List.length (dtable d) = Z.to_nat (dsize d) /\
  (forall n b e, nth_error (dtable d) n = Some b -> In e b -> hash_function (fst e) mod dsize d = Z.of_nat n) /\
  10 * dcount d < 9 * dsize d.
Proof.
  intros H d. destruct (run_wf ops H) as [W L]. fold d in W, L. pose proof (dsize_pos _ _ W) as HP.
  split; [apply (wf_cnt _ _ W)|]. split; [apply (wf_pow _ _ W)|]. split; [apply (wf_len _ _ W)|]. split; [|lia].
  intros n b e Hn He. pose proof (wf_elem _ _ W n b Hn) as HF. rewrite Forall_forall in HF.
  destruct (HF e He) as (_ & _ & E). rewrite <- E. pose proof (Z.mod_pos_bound (hash_function (fst e)) (dsize d) HP). lia.
Qed.

Lemma item_at_dead : exists ops s i (x : Z),
  srun ops create_stack = Some ([7], s) /\ sidx s < i /\ item_at s i = Some (Some x).
Proof. exists [SPush 7; SPop]. eexists. exists 0, 7. vm_compute. repeat split; reflexivity. Qed.

Lemma hex_pairs_run bs s : Forall (fun b => 0 <= b < 256) bs ->
  match s with [] => True | c :: _ => isxdigit c = false end ->
  hex_pairs (concat (map (fun b => [hexdigit (b / 16); hexdigit (b mod 16)]) bs) ++ s) = (map sbyte bs, s).
Proof.
  intros HF Hs. induction HF as [|b bs Hb HF IH]; [cbn [map concat app]; now apply hex_pairs_stop|].
  cbn [map concat app hex_pairs].
  destruct (hexdigit_ok (b / 16) ltac:(lia)) as [X1 X2]. destruct (hexdigit_ok (b mod 16) ltac:(lia)) as [Y1 Y2].
  rewrite X1, Y1. cbn [andb]. rewrite IH, X2, Y2. f_equal. f_equal. unfold to_char, sbyte. rewrite <- Z.div_mod by lia. reflexivity.
Qed.

Lemma sanitize_hex_run bs s : Forall (fun b => 0 <= b < 256) bs -> bs <> [] ->
  match s with [] => True | c :: _ => isxdigit c = false end ->
  sanitize_string ([92; 120] ++ concat (map (fun b => [hexdigit (b / 16); hexdigit (b mod 16)]) bs) ++ s) =
  sapp (map sbyte bs) (sanitize_string s).
Proof.
  intros HF Hn Hs. cbn [app]. change 92 with BSL. rewrite sanitize_hex; [|reflexivity|destruct bs; [congruence|discriminate]].
  rewrite hex_pairs_run by assumption. reflexivity.
Qed.

Lemma sanitize_overread : exists s, valids s /\ sanitize_string s = SUB.
Proof. exists [65; 92]. split; [repeat constructor; vm_compute; discriminate|reflexivity]. Qed.

Lemma sanitize_defined_example : ~ ends_bad [65; 92; 110] /\ sanitize_string [65; 92; 110] = SOk [65; 10] 0 /\ ends_bad [65; 92; 120].
Proof.
  split; [|split; [reflexivity|right; left; now exists [65]]].
  intros [[p E]|[[p E]|[p E]]]; destruct p as [|? [|? [|? [|? p]]]]; cbn in E; try discriminate.
Qed.

Lemma eol_all_conventions ls tail : Forall line_ok ls -> line_ok tail ->
  replace_eol (join [10] ls ++ tail) = join [10] ls ++ tail /\
  replace_eol (join [13] ls ++ tail) = join [10] ls ++ tail /\
  replace_eol (join [13; 10] ls ++ tail) = join [10] ls ++ tail.
Proof.
  intros H1 H2. unfold replace_eol. split; [apply eol_lf; auto|]. split; [apply eol_cr; auto|apply eol_crlf; auto].
Qed.

Lemma eol_idempotent s : replace_eol (replace_eol s) = replace_eol s.
Proof. unfold replace_eol. apply eol_lf_fix; [apply eol_no_cr|auto]. Qed.

Lemma eol_preserves s :
  filter (fun c => negb ((c =? 13) || (c =? 10))) (replace_eol s) = filter (fun c => negb ((c =? 13) || (c =? 10))) s /\
  ~ In 13 (replace_eol s).
Proof. split; [apply (eol_strip s 0 0)|apply eol_no_cr]. Qed.

Lemma eol_mixed_refuted : exists s, s = [13] ++ [13; 10] /\ replace_eol s = [10; 10; 10].
Proof. eexists. split; [reflexivity|]. vm_compute. reflexivity. Qed.

Lemma mem_moved_refuted : exists p q m, p <> q /\
  mem_run mem0 [MMalloc 10 p; MRealloc p 20 q; MFree q] = Some m /\ m_total m = 20 /\ m_errors m = 1.
Proof. exists 100, 200. eexists. split; [discriminate|]. vm_compute. repeat split; reflexivity. Qed.

Lemma error2_long : exists n p e, 0 < n < 49 /\ err_count e = 0 /\
  exists e', error2 n p e = Some e' /\ err_count e' = 2 /\ e_out e' = [msg n; e_buf e].
Proof.
  exists error_cant_open_include_file, (repeat 65 2040), (mkErr 0 0 [] (cs "stale text")).
  split; [vm_compute; split; reflexivity|]. split; [reflexivity|]. eexists. split; [vm_compute; reflexivity|]. split; vm_compute; reflexivity.
Qed.

Fixpoint nodupb (l : list cstr) : bool :=
  match l with [] => true | x :: l' => negb (existsb (streq x) l') && nodupb l' end.
Lemma nodupb_ok l : nodupb l = true -> NoDup l.
Proof.
  induction l as [|x l IH]; cbn [nodupb]; [constructor|]. intros H. apply andb_true_iff in H as [H1 H2].
  constructor; [|now apply IH]. intros HI. assert (existsb (streq x) l = true) as X.
  { apply existsb_exists. exists x. split; [exact HI|now apply streq_eq]. }
  rewrite X in H1. discriminate.
Qed.

Lemma errors_table : List.length errors = Z.to_nat error_max /\ NoDup errors /\
  (forall n, 0 < n < error_max -> msg n <> []).
Proof.
  split; [reflexivity|]. split; [apply nodupb_ok; vm_compute; reflexivity|].
  intros n Hn. unfold msg. assert (forallb (fun m => negb (streq m [])) (tl errors) = true) as H by (vm_compute; reflexivity).
  rewrite forallb_forall in H. destruct (Z.to_nat n) as [|k] eqn:E; [lia|].
  assert (nth (S k) errors [] = nth k (tl errors) []) as -> by reflexivity.
  assert (In (nth k (tl errors) []) (tl errors)) as HI.
  { apply nth_In. change (List.length (tl errors)) with 48%nat. unfold error_max in Hn. lia. }
  specialize (H _ HI). intros X. rewrite X in H. discriminate.
Qed.

Lemma handle_stable {V} (s : @dict * heap (V:=V)) k a o :
  WF (fst s) (snd s) -> valids k -> dict_search (fst s) k = Some a -> valids (dop_key o) ->
  map tolower (dop_key o) <> map tolower k -> grows s o = false ->
  dict_search (fst (dstep s o)) k = Some a /\ nth_error (snd (dstep s o)) a = nth_error (snd s) a.
Proof.
  intros H Hk Hs Ho Hne HG. pose proof H as [W L].
  assert (HL : lzeqb (fk (dop_key o)) (fk k) = false).
  { destruct (lzeqb (fk (dop_key o)) (fk k)) eqn:X; [|reflexivity]. apply streq_eq in X. contradiction. }
  rewrite (dict_search_stack _ _ _ W Hk) in Hs.
  destruct o as [k1 v|k1]; cbn [dstep dop_key grows] in *.
  - destruct (dict_insert (fst s) (snd s) k1 v) as [[d' h'] r] eqn:E. cbn [fst snd].
    unfold dict_insert in E. destruct (dict_insert_raw (fst s) (snd s) k1 v) as [[d1 h1] a1] eqn:E1.
    destruct (insert_raw_wf _ _ _ _ _ _ _ W Ho E1) as (H1 & Hc & Hz).
    replace (over_load d1) with false in E by (unfold over_load; rewrite Hz, Hc; symmetry; exact HG).
    injection E as <- <- <-. rewrite (dict_search_stack _ _ _ H1 Hk), (insert_raw_stack _ _ _ _ _ _ _ k W Ho E1), HL.
    split; [exact Hs|]. unfold dict_insert_raw in E1. injection E1 as _ <- _.
    apply nth_error_app1. destruct (stackof (fst s) k) as [|[k2 a2] t] eqn:ES; [discriminate|]. injection Hs as ->.
    pose proof (concat_ok _ _ W) as HC. rewrite Forall_forall in HC.
    apply (HC (k2, a)). assert (In (k2, a) (stackof (fst s) k)) as HI by (rewrite ES; now left).
    now apply filter_In in HI.
  - cbn [fst snd]. split; [|reflexivity]. destruct (delete_spec _ _ k1 H Ho) as ([W' _] & _ & HS).
    rewrite (dict_search_stack _ _ _ W' Hk), HS, HL. exact Hs.
Qed.

Lemma handle_refuted : exists (ops : list (dop (V:=Z))) o k a b,
  dict_search (fst (drun ops)) k = Some a /\ stricmp (dop_key o) k <> 0 /\
  dict_search (fst (drun (ops ++ [o]))) k = Some b /\ a <> b.
Proof.
  exists (DInsert (cs "zzzz") 1 :: map (fun n => DInsert (key3 n) 0) (upto 919)), (DInsert (cs "last") 5), (cs "zzzz"), 0%nat.
  eexists. split; [vm_compute; reflexivity|]. split; [vm_compute; discriminate|]. split; [vm_compute; reflexivity|]. discriminate.
Qed.
