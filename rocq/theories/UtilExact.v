(** Exact behaviour of the utility modules where the expected behaviour fails. *)
From Coq Require Import String.
From Verif Require Import Base BaseProofs Hash HashProofs Dict DictProofs DictMore Stack StackProofs
  Str StrProofs Eol EolProofs MemTrack MemTrackProofs Err ErrProofs File FileProofs Opcodes OpcodesProofs OpcodesMore IfDef IfDefProofs.
Open Scope string_scope.
Open Scope list_scope.
Open Scope Z_scope.
Ltac Zify.zify_post_hook ::= Z.div_mod_to_equations.

(** ** Duplicate keys *)
Section Dup.
Context {V : Type}.
(** Specification: for every (folded) key the values inserted and not deleted; the table has [size] slots, holds [count]
    records, and is doubled when it becomes nine tenths full, which turns every one of these lists round *)
Record ospec := mkO { o_size : Z; o_count : Z; o_vals : list Z -> list V }.
Definition ostep (q : ospec) (o : dop (V:=V)) : ospec :=
  match o with
  | DInsert k v =>
      let m := fun x => if list_eq_dec Z.eq_dec (map tolower k) x then v :: o_vals q x else o_vals q x in
      if 9 * o_size q / 10 <=? o_count q + 1 then mkO (2 * o_size q) (o_count q + 1) (fun x => rev (m x))
      else mkO (o_size q) (o_count q + 1) m
  | DDelete k =>
      mkO (o_size q) (match o_vals q (map tolower k) with [] => o_count q | _ => o_count q - 1 end)
          (fun x => if list_eq_dec Z.eq_dec (map tolower k) x then tl (o_vals q x) else o_vals q x)
  end.
Definition orel (s : @dict * heap (V:=V)) (q : ospec) : Prop :=
  dsize (fst s) = o_size q /\ dcount (fst s) = o_count q /\ srel s (o_vals q).

Lemma delete_count d (h : heap (V:=V)) k : WF d h -> valids k ->
  dcount (dict_delete d k) = match stackof d k with [] => dcount d | _ => dcount d - 1 end.
Proof.
  intros [W L] Hk. unfold dict_delete. pose proof (del_chain_spec (chain d (slot d k)) k Hk (chain_valid_keys _ _ _ W)) as D.
  rewrite (stackof_chain _ _ _ W). destruct (del_chain (chain d (slot d k)) k).
  - destruct D as (_ & _ & _ & N & _). cbn [dcount]. destruct (filter _ _); [congruence|reflexivity].
  - rewrite D. reflexivity.
Qed.
Lemma step_orel s q o : WF (fst s) (snd s) -> orel s q -> valids (dop_key o) -> orel (dstep s o) (ostep q o).
Proof.
  intros W (Es & Ec & R) Ho. pose proof (fun k => step_stack s o k W Ho) as SS. destruct o as [k v|k]; cbn [dop_key] in Ho.
  - cbn [ostep]. destruct (dict_insert (fst s) (snd s) k v) as [[d' h'] r] eqn:E.
    assert (ED : dstep s (DInsert k v) = (d', h')) by (cbn [dstep]; rewrite E; reflexivity). rewrite ED in SS |- *. cbn [fst snd] in SS.
    assert (EB : (9 * o_size q / 10 <=? o_count q + 1) = grows s (DInsert k v)) by (cbn [grows]; rewrite Es, Ec; f_equal; f_equal; lia).
    rewrite EB. destruct (insert_grows_iff _ _ _ _ _ _ _ W Ho E) as [(B & Z1 & Z2 & _)|(B & Z1 & Z2 & _)].
    + assert (G : grows s (DInsert k v) = false) by (cbn [grows]; lia). rewrite G in *. split; [cbn [fst o_size o_count]; lia|]. split; [cbn [fst o_size o_count]; lia|].
      intros k'. cbn [fst snd o_vals]. rewrite SS. cbn zeta. rewrite (R k'), lzeqb_dec. fold (fk k). destruct (list_eq_dec _ _ _); reflexivity.
    + assert (G : grows s (DInsert k v) = true) by (cbn [grows]; lia). rewrite G in *. split; [cbn [fst o_size o_count]; lia|]. split; [cbn [fst o_size o_count]; lia|].
      intros k'. cbn [fst snd o_vals]. rewrite SS. cbn zeta. rewrite (R k'), lzeqb_dec, map_rev. fold (fk k). f_equal. destruct (list_eq_dec _ _ _); reflexivity.
  - cbn [ostep]. cbn [dstep] in *. destruct (delete_spec _ _ k W Ho) as (_ & Z1 & _).
    split; [cbn [fst o_size o_count]; lia|]. split.
    + cbn [fst o_count]. rewrite (delete_count _ _ _ W Ho), Ec. pose proof (R k) as Rk. unfold fk in Rk. destruct (o_vals q (map tolower k)), (stackof (fst s) k); cbn in Rk; try discriminate; reflexivity.
    + intros k'. rewrite (SS k'). cbn zeta. cbn [grows]. rewrite (R k'), lzeqb_dec. fold (fk k). cbn [o_vals]. destruct (list_eq_dec _ _ _); [|reflexivity]. destruct (o_vals q (fk k')); reflexivity.
Qed.
Lemma fold_orel ops : forall s q, WF (fst s) (snd s) -> orel s q -> Forall (fun o => valids (dop_key o)) ops ->
  orel (fold_left dstep ops s) (fold_left ostep ops q).
Proof.
  induction ops as [|o ops IH]; intros s q W R H; cbn [fold_left]; [exact R|]. apply IH; [apply step_wf; [exact W|exact (Forall_inv H)]|apply step_orel; [exact W|exact R|exact (Forall_inv H)]|exact (Forall_inv_tail H)].
Qed.
Lemma dict_exact ops k : Forall (fun o => valids (dop_key o)) ops -> valids k ->
  dlookup (drun ops) k = hd_error (o_vals (fold_left ostep ops (mkO 1024 0 (fun _ => []))) (map tolower k)).
Proof.
  intros H Hk. unfold drun. pose proof (fold_wf ops (dict_create, []) init_wf H) as W.
  destruct (fold_orel ops (dict_create, []) (mkO 1024 0 (fun _ => [])) init_wf) as (_ & _ & R); [|exact H|].
  - split; [reflexivity|]. split; [reflexivity|]. intros k'. unfold srel. cbn [fst snd]. unfold dict_create. rewrite stackof_create. reflexivity.
  - rewrite (dlookup_stack _ _ W Hk), (R k). unfold fk. destruct (o_vals _ _); reflexivity.
Qed.
End Dup.

(** ** Record handles *)
Lemma reinsert_fresh {V} es : forall d (h : heap (V:=V)) d' h', reinsert es d h = (d', h') ->
  (forall e, In e (concat (dtable d')) -> In e (concat (dtable d)) \/ (length h <= snd e)%nat) /\ (length h <= length h')%nat.
Proof.
  induction es as [|[k a] es IH]; intros d h d' h' E; cbn [reinsert] in E.
  - injection E as <- <-. auto.
  - destruct (nth_error h a) as [v|] eqn:Ea; [|apply IH; exact E].
    destruct (dict_insert_raw d h k v) as [[d1 h1] a1] eqn:E1. apply IH in E. destruct E as [E Eh]. unfold dict_insert_raw in E1. injection E1 as <- <- <-.
    rewrite app_length in *. cbn [length] in *. split; [|lia]. intros e He. destruct (E e He) as [H|H]; [|right; lia].
    cbn [dtable] in H. apply in_concat in H. destruct H as (c & Hc & He').
    apply In_nth_error in Hc. destruct Hc as (n & Hn). destruct (Nat.eq_dec (slot d k) n) as [<-|N].
    + destruct (Nat.lt_ge_cases (slot d k) (length (dtable d))) as [L|L].
      * rewrite upd_nth_eq in Hn by exact L. injection Hn as <-. destruct He' as [<-|He']; [right; cbn; lia|]. left.
        apply in_concat. exists (chain d (slot d k)). split; [unfold chain; apply nth_In; exact L|exact He'].
      * exfalso. assert (nth_error (upd (slot d k) ((k, length h) :: chain d (slot d k)) (dtable d)) (slot d k) <> None) as X by congruence.
        apply nth_error_Some in X. rewrite upd_length in X. lia.
    + rewrite upd_nth_ne in Hn by exact N. left. apply in_concat. exists c. split; [exact (nth_error_In _ _ Hn)|exact He'].
Qed.
(** a record found again after a growth is a copy at an address not used before: the old address is never handed out again *)
Lemma handle_moves {V} (s : @dict * heap (V:=V)) o k b : WF (fst s) (snd s) -> valids k -> valids (dop_key o) ->
  grows s o = true -> dict_search (fst (dstep s o)) k = Some b ->
  (length (snd s) < b)%nat /\ nth_error (snd (dstep s o)) b = hd None (records (dstep s o) k).
Proof.
  intros W Hk Ho G E. pose proof (step_wf s o W Ho) as [W' _]. rewrite (dict_search_stack _ _ _ W' Hk) in E. unfold records, vals.
  destruct (stackof (fst (dstep s o)) k) as [|[k1 a1] t] eqn:ES; [discriminate|]. injection E as ->. split; [|reflexivity].
  assert (I : In (k1, b) (concat (dtable (fst (dstep s o))))).
  { assert (X : In (k1, b) (stackof (fst (dstep s o)) k)) by (rewrite ES; left; reflexivity). apply filter_In in X. tauto. }
  destruct o as [k0 v|]; [|discriminate]. cbn [dstep] in I. destruct (dict_insert (fst s) (snd s) k0 v) as [[d' h'] r] eqn:E. cbn [fst] in I.
  unfold dict_insert in E. destruct (dict_insert_raw (fst s) (snd s) k0 v) as [[d1 h1] a0] eqn:E1. destruct W as [W _].
  destruct (insert_raw_wf _ _ _ _ _ _ _ W Ho E1) as (_ & Hc & Hz).
  replace (over_load d1) with true in E by (unfold over_load; rewrite Hz, Hc; symmetry; exact G).
  destruct (dict_grow d1 h1) as [d2 h2] eqn:E2. injection E as <- <- _. unfold dict_grow in E2. apply reinsert_fresh in E2. destruct E2 as [F _].
  destruct (F _ I) as [X|X].
  - exfalso. unfold dict_create_sz in X. cbn [dtable] in X. rewrite concat_repeat_nil in X. destruct X.
  - unfold dict_insert_raw in E1. injection E1 as _ <- _. rewrite app_length in X. cbn in X. lia.
Qed.

(** ** The stack *)
(** item_at after any operations: live elements are the right ones; dead cells below the capacity are handed out *)
Lemma item_at_exact {A} (ops : list (sop (A:=A))) out l : lrun ops [] = Some (out, l) ->
  exists s, srun ops create_stack = Some (out, s) /\
    (forall i x, nth_error (rev l) i = Some x -> item_at s (Z.of_nat i) = Some (Some x)) /\
    (forall i, item_at s i = None <-> (i < 0 \/ ssize s <= i)) /\ Z.of_nat (List.length l) <= ssize s.
Proof.
  intros E. pose proof (srun_lrun ops _ _ create_repr) as H. rewrite E in H. destruct H as (s & E1 & R). exists s. split; [exact E1|].
  split; [intros i x Hx; exact (item_at_repr _ _ _ _ R Hx)|]. split.
  - intros i. unfold item_at, ssize. destruct ((0 <=? i) && (i <? Z.of_nat (List.length (sarr s)))) eqn:B.
    + rewrite nth_error_None. lia.
    + split; [lia|reflexivity].
  - destruct R as (_ & R & _). unfold ssize. lia.
Qed.

(** ** Escapes *)
Fixpoint dangles (s : cstr) : bool :=
  match s with
  | [] => false
  | c :: s1 =>
      if c =? 92 then
        match s1 with
        | [] => true
        | e :: s2 => ((tolower e =? 120) && match s2 with [] => true | _ => false end) || dangles s2
        end
      else dangles s1
  end.
Lemma hexdig_no_bsl c : isxdigit c = true -> (c =? 92) = false.
Proof. unfold isxdigit, isdigit. intros H. apply orb_true_iff in H. lia. Qed.
Lemma dangles_hex s : dangles (snd (hex_pairs s)) = dangles s.
Proof.
  revert s. apply (len_ind (fun s => dangles (snd (hex_pairs s)) = dangles s)). intros s IH. destruct s as [|a [|b s]]; try reflexivity.
  cbn [hex_pairs]. destruct (isxdigit a && isxdigit b) eqn:E; [|reflexivity]. destruct (hex_pairs s) as [o r] eqn:Eh. cbn [snd].
  apply andb_true_iff in E. destruct E as [Ea Eb]. specialize (IH s ltac:(cbn; lia)). rewrite Eh in IH. cbn [snd] in IH. rewrite IH.
  change (dangles (a :: b :: s)) with (if a =? 92 then (((tolower b =? 120) && match s with [] => true | _ => false end) || dangles s) else if b =? 92 then match s with [] => true | e :: s2 => ((tolower e =? 120) && match s2 with [] => true | _ => false end) || dangles s2 end else dangles s).
  rewrite (hexdig_no_bsl _ Ea), (hexdig_no_bsl _ Eb). reflexivity.
Qed.
Lemma sanitize_dangles s : sanitize_string s = SUB <-> dangles s = true.
Proof.
  revert s. apply (len_ind (fun s => sanitize_string s = SUB <-> dangles s = true)). intros s IH. destruct s as [|c s]; [cbn; split; discriminate|].
  cbn [dangles]. destruct (c =? 92) eqn:Ec.
  - apply Z.eqb_eq in Ec. subst c. destruct s as [|e s]; [vm_compute; tauto|]. destruct (Z.eq_dec (tolower e) 120) as [Ex|Ex].
    + rewrite (proj2 (Z.eqb_eq _ _) Ex). destruct s as [|x s].
      * split; [reflexivity|]. intros _. unfold sanitize_string. cbn [san length]. rewrite Ex. reflexivity.
      * rewrite sanitize_hex by (try exact Ex; discriminate). cbn [andb orb].
        pose proof (IH (snd (hex_pairs (x :: s)))) as I. rewrite dangles_hex in I.
        destruct (hex_pairs (x :: s)) as [o r] eqn:Eh. cbn [fst snd] in *. pose proof (hex_pairs_len _ _ _ Eh). cbn [length] in *. specialize (I ltac:(lia)).
        rewrite <- I. destruct (sanitize_string r); cbn; split; congruence.
    + rewrite (proj2 (Z.eqb_neq _ _) Ex). cbn [andb orb]. rewrite sanitize_esc by exact Ex. rewrite <- (IH s ltac:(cbn; lia)). destruct (sanitize_string s); cbn; split; congruence.
  - rewrite sanitize_plain by (unfold BSL; lia). rewrite <- (IH s ltac:(cbn; lia)). destruct (sanitize_string s); cbn; split; congruence.
Qed.
Lemma tolower_x e : tolower e = 120 <-> e = 120 \/ e = 88.
Proof. unfold tolower. if_lia. Qed.
(** the text ends in an odd number of backslashes, or in an odd number of them and an x *)
Definition unfinished (s : cstr) : Prop :=
  exists p n t, s = p ++ repeat 92 n ++ t /\ Nat.Odd n /\ (forall q, p <> q ++ [92]) /\ (t = [] \/ t = [120] \/ t = [88]).
Lemma last_cons (c : Z) (p : cstr) : (forall q, c :: p <> q ++ [92]) -> (forall q, p <> q ++ [92]).
Proof. intros H q ->. exact (H (c :: q) eq_refl). Qed.
Lemma dangles_unfinished s : dangles s = true <-> unfinished s.
Proof.
  split.
  - revert s. apply (len_ind (fun s => dangles s = true -> unfinished s)). intros s IH D. destruct s as [|c s]; [discriminate|]. cbn [dangles] in D.
    destruct (c =? 92) eqn:Ec.
    + apply Z.eqb_eq in Ec. subst c. destruct s as [|e s].
      * exists [], 1%nat, []. split; [reflexivity|]. split; [exists 0%nat; reflexivity|]. split; [intros [|]; discriminate|auto].
      * apply orb_true_iff in D. destruct D as [D|D].
        -- apply andb_true_iff in D. destruct D as [D1 D2]. destruct s; [|discriminate]. apply Z.eqb_eq, tolower_x in D1.
           exists [], 1%nat, [e]. split; [reflexivity|]. split; [exists 0%nat; reflexivity|]. split; [intros [|]; discriminate|]. destruct D1 as [->| ->]; auto.
        -- destruct (IH s ltac:(cbn; lia) D) as (p & n & t & -> & O & P & T). destruct p as [|p0 p].
           ++ destruct (Z.eq_dec e 92) as [->|N].
              ** exists [], (S (S n)), t. split; [reflexivity|]. split; [destruct O as [m ->]; exists (S m); lia|]. split; [intros [|]; discriminate|exact T].
              ** exists [92; e], n, t. split; [reflexivity|]. split; [exact O|]. split; [|exact T]. intros [|q0 [|q1 [|q2 q]]] X; cbn in X; congruence.
           ++ exists (92 :: e :: p0 :: p), n, t. split; [reflexivity|]. split; [exact O|]. split; [|exact T].
              intros [|q0 [|q1 q]] X; cbn in X; congruence.
    + destruct (IH s ltac:(cbn; lia) D) as (p & n & t & -> & O & P & T). exists (c :: p), n, t. split; [reflexivity|]. split; [exact O|]. split; [|exact T].
      intros [|q0 q] X; cbn in X; [injection X as -> _; discriminate Ec|]. injection X as _ X. exact (P q X).
  - intros (p & n & t & -> & O & P & T). revert P. apply (len_ind (fun p => (forall q, p <> q ++ [92]) -> dangles (p ++ repeat 92 n ++ t) = true)).
    clear p. intros p IH P. destruct p as [|c p].
    + clear IH P. destruct O as [m ->]. cbn [app]. induction m as [|m IHm].
      * destruct T as [->|[->| ->]]; reflexivity.
      * replace (2 * S m + 1)%nat with (S (S (2 * m + 1))) by lia. cbn [repeat app dangles]. cbn [Z.eqb Pos.eqb]. rewrite IHm. apply orb_true_r.
    + cbn [app dangles]. destruct (c =? 92) eqn:Ec; [|apply IH; [cbn; lia|exact (last_cons _ _ P)]].
      apply Z.eqb_eq in Ec. subst c. destruct p as [|e p]; [exfalso; exact (P [] eq_refl)|]. cbn [app].
      rewrite (IH p) by first [cbn; lia|exact (last_cons _ _ (last_cons _ _ P))]. apply orb_true_r.
Qed.
Lemma sanitize_overread_exact s : sanitize_string s = SUB <-> unfinished s.
Proof. rewrite sanitize_dangles. apply dangles_unfinished. Qed.

(** ** Line ends *)
Inductive eolk := KLf | KCr | KCrLf.
Definition eol_of (e : eolk) : list Z := match e with KLf => [10] | KCr => [13] | KCrLf => [13; 10] end.
(** lines with the way each is ended *)
Definition mixed (ls : list (list Z * eolk)) : list Z := concat (map (fun l => fst l ++ eol_of (snd l)) ls).
(** one LF for every line, two where a CR LF line comes after a line ended by a single CR *)
Fixpoint unmixed (cr : bool) (ls : list (list Z * eolk)) : list Z :=
  match ls with
  | [] => []
  | (l, KCrLf) :: ls => l ++ (if cr then [10; 10] else [10]) ++ unmixed false ls
  | (l, KCr) :: ls => l ++ [10] ++ unmixed true ls
  | (l, KLf) :: ls => l ++ [10] ++ unmixed false ls
  end.
Lemma eol_mixed ls tail : Forall (fun l => line_ok (fst l) /\ fst l <> []) ls -> line_ok tail ->
  replace_eol (mixed ls ++ tail) = unmixed false ls ++ tail.
Proof.
  intros H Ht. unfold replace_eol.
  enough (G : forall last count cr, (cr = true -> last = 13) -> (cr = false -> last = 0 \/ last = 10) ->
     eol_loop last count (mixed ls ++ tail) = unmixed cr ls ++ tail) by (apply G; [discriminate|auto]).
  induction ls as [|[l e] ls IH]; intros last count cr C1 C2.
  - cbn [mixed map concat unmixed app]. rewrite <- (app_nil_r tail) at 1. rewrite eol_loop_line by exact Ht. cbn [eol_loop]. apply app_nil_r.
  - pose proof (Forall_inv H) as [Hl Hn]. cbn [fst] in Hl, Hn. specialize (IH (Forall_inv_tail H)).
    unfold mixed. cbn [map concat fst snd]. fold (mixed ls). rewrite <- !app_assoc. rewrite eol_loop_line by exact Hl.
    destruct l as [|c0 l]; [congruence|]. remember (c0 :: l) as l' eqn:El. clear El Hn.
    destruct e; cbn [eol_of unmixed app]; rewrite <- !app_assoc; cbn [app]; f_equal; cbn [eol_loop is_eol CR LF Z.eqb Pos.eqb orb negb].
    + destruct cr.
      * rewrite (C1 eq_refl). cbn [Z.eqb Pos.eqb negb Z.add]. f_equal. apply IH; [discriminate|auto].
      * destruct (C2 eq_refl) as [->| ->]; cbn [Z.eqb Pos.eqb negb Z.add]; f_equal; (apply IH; [discriminate|auto]).
    + destruct cr.
      * rewrite (C1 eq_refl). cbn [Z.eqb Pos.eqb negb Z.add]. f_equal. apply IH; [reflexivity|discriminate].
      * destruct (C2 eq_refl) as [->| ->]; cbn [Z.eqb Pos.eqb negb Z.add]; f_equal; (apply IH; [reflexivity|discriminate]).
    + destruct cr.
      * rewrite (C1 eq_refl). cbn [Z.eqb Pos.eqb negb Z.add orb app]. do 2 f_equal. apply IH; [discriminate|auto].
      * destruct (C2 eq_refl) as [->| ->]; cbn [Z.eqb Pos.eqb negb Z.add orb app]; f_equal; (apply IH; [discriminate|auto]).
Qed.

(** ** The error counter *)
(** a parameter too long for the buffer: the message without it, then whatever the buffer held *)
Definition long (o : eop) : bool :=
  match o with EError2 n p => 2048 <=? Z.of_nat (List.length (msg n)) + Z.of_nat (List.length p) + 2 | _ => false end.
Definition ecount (o : eop) : Z := if is_err o then if long o then 2 else 1 else 0.
Definition esum (l : list Z) : Z := fold_right Z.add 0 l.
Lemma err_run_exact os : forall e, Forall (fun o => 0 < opnum o < 49) os ->
  exists e', err_run e os = Some e' /\ err_count e' = err_count e + esum (map ecount os) /\
    warn_count e' = warn_count e + Z.of_nat (List.length (filter (fun o => negb (is_err o)) os)).
Proof.
  induction os as [|o os IH]; intros e H; cbn [err_run].
  - exists e. cbn. repeat split; lia.
  - pose proof (Forall_inv H) as Ho. destruct (err_step e o) as [e1|] eqn:E1.
    + destruct (IH e1 (Forall_inv_tail H)) as (e' & E & A & B). exists e'. split; [exact E|].
      assert (S1 : err_count e1 = err_count e + ecount o /\ warn_count e1 = warn_count e + (if is_err o then 0 else 1)).
      { clear IH E A B H. destruct o as [n|n|n p]; cbn [opnum err_step] in *; unfold error2, error, warn, error_start, error_max in E1; unfold ecount, is_err, long;
          (destruct ((0 <? n) && (n <? 49)) eqn:X; [|lia]).
        - injection E1 as <-. cbn. lia.
        - injection E1 as <-. cbn. lia.
        - destruct (Z.of_nat (List.length (msg n)) + Z.of_nat (List.length p) + 2 <? 2048) eqn:Y; cbv beta iota in E1; injection E1 as <-; cbn [yyerror err_count warn_count];
          destruct (2048 <=? Z.of_nat (List.length (msg n)) + Z.of_nat (List.length p) + 2) eqn:Y'; lia. }
      destruct S1 as [S1 S2]. cbn [map esum fold_right filter]. fold (esum (map ecount os)). rewrite A, B, S1, S2.
      destruct (is_err o); cbn [negb List.length]; lia.
    + exfalso. destruct o as [n|n|n p]; cbn [opnum err_step] in *; unfold error2, error, warn, error_start, error_max in E1; destruct ((0 <? n) && (n <? 49)) eqn:X; try lia; try discriminate.
      destruct (_ <? 2048); discriminate.
Qed.

(** what a report prints: its message and parameter; if these do not fit the buffer, the message alone and then once more something *)
Definition printed (o : eop) (l : list cstr) : Prop := if long o then exists b, l = [msg (opnum o); b] else l = [report o].
Lemma err_run_prints os : forall e e', err_run e os = Some e' -> exists ls, Forall2 printed os ls /\ e_out e' = e_out e ++ concat ls.
Proof.
  induction os as [|o os IH]; intros e e' E; cbn [err_run] in E.
  - injection E as <-. exists []. split; [constructor|]. cbn. symmetry. apply app_nil_r.
  - destruct (err_step e o) as [e1|] eqn:E1; [|discriminate]. destruct (IH _ _ E) as (ls & F & O).
    assert (G : exists l, printed o l /\ e_out e1 = e_out e ++ l).
    { clear IH E F O. unfold printed. destruct o as [n|n|n p]; cbn [err_step long opnum report] in *.
      - unfold error in E1. destruct ((_ <? n) && _); [|discriminate]. injection E1 as <-. eexists. split; reflexivity.
      - unfold warn in E1. destruct ((_ <? n) && _); [|discriminate]. injection E1 as <-. eexists. split; reflexivity.
      - unfold error2, error in E1. destruct ((_ <? n) && _); [|discriminate].
        destruct (Z.ltb_spec (Z.of_nat (List.length (msg n)) + Z.of_nat (List.length p) + 2) 2048) as [H|H]; injection E1 as <-; cbn [yyerror e_out].
        + replace (2048 <=? _) with false by lia. eexists. split; reflexivity.
        + replace (2048 <=? _) with true by lia. eexists. split; [eexists; reflexivity|]. rewrite <- app_assoc. reflexivity. }
    destruct G as (l & G & O1). exists (l :: ls). split; [constructor; assumption|]. cbn [concat]. rewrite O, O1, <- app_assoc. reflexivity.
Qed.

(** ** Source lines *)
(** pieces of at most [k] characters *)
Fixpoint pieces (fuel : nat) (k : nat) (l : cstr) : list cstr :=
  match fuel with O => [] | S f => match l with [] => [] | _ => firstn k l :: pieces f k (skipn k l) end end.
Definition cut (l : cstr) : list cstr := pieces (List.length l) (Z.to_nat 2047) l.
Lemma fgets_long n : forall l s, Forall (fun x => x <> 10) l -> (Z.to_nat n <= List.length l)%nat -> 0 <= n ->
  fgets n (l ++ s) = (firstn (Z.to_nat n) l, skipn (Z.to_nat n) l ++ s).
Proof.
  intros l. revert n. induction l as [|c l IH]; intros n s H L N.
  - cbn in L. assert (n = 0) as -> by lia. cbn. destruct s as [|x s]; [reflexivity|]. reflexivity.
  - cbn [app fgets]. destruct (n <=? 0) eqn:E.
    + assert (n = 0) as -> by lia. reflexivity.
    + assert (c <> 10) by exact (Forall_inv H). destruct (c =? 10) eqn:X; [lia|].
      rewrite IH; [|exact (Forall_inv_tail H)|cbn [List.length] in L; lia|lia].
      replace (Z.to_nat n) with (S (Z.to_nat (n - 1))) by lia. reflexivity.
Qed.
Lemma number_app a : forall n b, number n (a ++ b) = number n a ++ number (n + Z.of_nat (List.length a)) b.
Proof. induction a as [|x a IH]; intros n b; [cbn; f_equal; lia|]. cbn [app number List.length]. rewrite IH. replace (n + Z.of_nat (S (List.length a))) with (n + 1 + Z.of_nat (List.length a)) by lia. reflexivity. Qed.
Lemma pieces_fuel k : (0 < k)%nat -> forall f1 f2 l, (List.length l <= f1)%nat -> (List.length l <= f2)%nat -> pieces f1 k l = pieces f2 k l.
Proof.
  intros K. induction f1 as [|f1 IH]; intros f2 l A B.
  - destruct l; [|cbn in A; lia]. destruct f2; reflexivity.
  - destruct f2 as [|f2]; [destruct l; [reflexivity|cbn in B; lia]|]. cbn [pieces]. destruct l as [|c l]; [reflexivity|]. f_equal.
    apply IH; rewrite skipn_length; cbn [List.length] in *; lia.
Qed.
Lemma cut_short l : l <> [] -> (List.length l <= Z.to_nat 2047)%nat -> cut l = [l].
Proof.
  intros N L. unfold cut. destruct l as [|c l]; [congruence|]. cbn [List.length pieces]. rewrite firstn_all2 by exact L. rewrite skipn_all2 by exact L. destruct (List.length l); reflexivity.
Qed.
Lemma cut_long l : (Z.to_nat 2047 < List.length l)%nat -> cut l = firstn (Z.to_nat 2047) l :: cut (skipn (Z.to_nat 2047) l).
Proof.
  intros L. unfold cut. destruct l as [|c l]; [cbn [List.length] in L; lia|]. cbn [List.length pieces]. f_equal.
  apply pieces_fuel; [lia| |lia]. rewrite skipn_length. cbn [List.length]. lia.
Qed.
Lemma read_one f : forall l line s, (List.length (nl l ++ s) <= f)%nat -> Forall (fun x => x <> 10) l ->
  exists f', (List.length s <= f')%nat /\ (f' <= f)%nat /\ read_lines f line (nl l ++ s) = number line (cut (nl l)) ++ read_lines f' (line + Z.of_nat (List.length (cut (nl l)))) s.
Proof.
  induction f as [|f IH]; intros l line s L H.
  - unfold nl in L. rewrite !app_length in L. cbn in L. lia.
  - assert (Ne : nl l ++ s <> []) by (unfold nl; destruct l; discriminate).
    cbn [read_lines]. destruct (nl l ++ s) as [|x0 xs] eqn:Ex; [congruence|]. rewrite <- Ex in *. clear Ex x0 xs Ne.
    destruct (Z.ltb_spec (Z.of_nat (List.length l)) 2047) as [B|B].
    + assert (Ef : fgets (max_line_len - 1) (nl l ++ s) = (l ++ [10], s)).
      { unfold nl. rewrite <- app_assoc. apply fgets_line; [unfold max_line_len; lia|exact H|unfold max_line_len; lia]. }
      rewrite Ef. exists f. unfold nl in *. rewrite !app_length in L. cbn [List.length] in L. split; [lia|]. split; [lia|].
      rewrite cut_short; [cbn [number app List.length]; do 2 f_equal; lia|destruct l; discriminate|rewrite app_length; cbn [List.length]; lia].
    + assert (Ef : fgets (max_line_len - 1) (nl l ++ s) = (firstn (Z.to_nat 2047) l, skipn (Z.to_nat 2047) l ++ [10] ++ s)).
      { unfold nl. rewrite <- app_assoc. change (max_line_len - 1) with 2047. apply fgets_long; [exact H|lia|lia]. }
      rewrite Ef. rewrite cut_long by (unfold nl; rewrite app_length; cbn [List.length]; lia).
      assert (E1 : firstn (Z.to_nat 2047) (nl l) = firstn (Z.to_nat 2047) l).
      { unfold nl. rewrite firstn_app. replace (Z.to_nat 2047 - List.length l)%nat with 0%nat by lia. apply app_nil_r. }
      assert (E2 : skipn (Z.to_nat 2047) (nl l) = nl (skipn (Z.to_nat 2047) l)).
      { unfold nl. rewrite skipn_app. replace (Z.to_nat 2047 - List.length l)%nat with 0%nat by lia. reflexivity. }
      rewrite E1, E2. rewrite (app_assoc _ [10] s). fold (nl (skipn (Z.to_nat 2047) l)).
      destruct (IH (skipn (Z.to_nat 2047) l) (line + 1) s) as (f' & A1 & A2 & A3).
      { unfold nl in *. rewrite !app_length in *. rewrite skipn_length. cbn [List.length] in *. lia. }
      { rewrite <- (firstn_skipn (Z.to_nat 2047) l) in H. apply Forall_app in H. tauto. }
      exists f'. split; [exact A1|]. split; [lia|]. rewrite A3. cbn [number app List.length]. do 2 f_equal. f_equal. lia.
Qed.
(** the lines, each cut in pieces of 2047 characters, numbered one after the other *)
Lemma read_file_exact ls : Forall (fun l => Forall (fun x => x <> 10) l) ls ->
  read_file_lines (concat (map nl ls)) = number 1 (concat (map (fun l => cut (nl l)) ls)).
Proof.
  intros H. unfold read_file_lines. generalize 1 as line.
  enough (G : forall f line, (List.length (concat (map nl ls)) <= f)%nat -> read_lines f line (concat (map nl ls)) = number line (concat (map (fun l => cut (nl l)) ls))) by (intros; apply G; lia).
  induction ls as [|l ls IH]; intros f line L.
  - destruct f; reflexivity.
  - cbn [map concat] in *. destruct (read_one f l line (concat (map nl ls)) L (Forall_inv H)) as (f' & A1 & A2 & A3).
    rewrite A3, IH by first [exact (Forall_inv_tail H)|exact A1]. symmetry. apply number_app.
Qed.

(** ** Shared opcodes of the 65C02 *)
(** the columns 7 and F (RMB, SMB, BBR, BBS), STZ, WAI and STP *)
Definition shared (b : Z) : bool := (b mod 8 =? 7) || (b =? 156) || (b =? 158) || (b =? 203) || (b =? 219).
Definition coll_ok (ill : bool) : bool :=
  forallb (fun x => forallb (fun y => negb (fst x =? fst y) ||
    ((fst (snd x) =? fst (snd y)) && (snd (snd x) =? snd (snd y))) ||
    (((fst (snd x) <? 98) && (98 <=? fst (snd y)) || (fst (snd y) <? 98) && (98 <=? fst (snd x))) && shared (fst x)))
    (all_entries true ill)) (all_entries true ill).
Definition share_ok (ill : bool) : bool :=
  forallb (fun b => negb (shared b) ||
    existsb (fun x => (fst x =? b) && (fst (snd x) <? 98)) (all_entries true ill) && existsb (fun x => (fst x =? b) && (98 <=? fst (snd x))) (all_entries true ill)) (zseq 0 256).
Lemma entry_in c02 ill i m : get_op_code c02 ill i m <> -1 -> In (get_op_code c02 ill i m, (i, canon c02 i m)) (all_entries c02 ill).
Proof.
  intros H. unfold all_entries. assert (R : 0 <= i < 118 /\ 0 <= m < 15).
  { revert H. unfold get_op_code, max_opcode, max_addressing_mode. match goal with |- context [if ?b then _ else _] => destruct b eqn:X end; [lia|congruence]. }
  apply in_flat_map. exists i. split; [apply zseq_in; lia|]. apply in_flat_map. exists m. split; [apply zseq_in; lia|].
  cbn zeta. destruct (get_op_code c02 ill i m =? -1) eqn:E; [lia|]. left. reflexivity.
Qed.
Lemma entry_out c02 ill b i m : In (b, (i, m)) (all_entries c02 ill) -> exists m', get_op_code c02 ill i m' = b /\ b <> -1 /\ canon c02 i m' = m.
Proof.
  intros H. unfold all_entries in H. apply in_flat_map in H. destruct H as (i' & _ & H). apply in_flat_map in H. destruct H as (m' & _ & H). cbn zeta in H.
  destruct (get_op_code c02 ill i' m' =? -1) eqn:E; [destruct H|]. destruct H as [H|[]]. injection H as <- <- <-. exists m'. repeat split. lia.
Qed.
Lemma coll_exact ill i m i' m' : get_op_code true ill i m = get_op_code true ill i' m' -> get_op_code true ill i m <> -1 ->
  (i = i' /\ canon true i m = canon true i' m') \/ ((i < 98 <= i' \/ i' < 98 <= i) /\ shared (get_op_code true ill i m) = true).
Proof.
  intros E N. assert (C : coll_ok ill = true) by (destruct ill; vm_compute; reflexivity). unfold coll_ok in C. rewrite forallb_forall in C.
  specialize (C _ (entry_in true ill i m N)). rewrite forallb_forall in C. rewrite E in N. specialize (C _ (entry_in true ill i' m' N)). cbn [fst snd] in C. rewrite E in C |- *.
  rewrite Z.eqb_refl in C. cbn [negb orb] in C. destruct (shared (get_op_code true ill i' m')); [|rewrite andb_false_r, orb_false_r in C; left; lia].
  rewrite andb_true_r in C. lia.
Qed.
Lemma share_exact ill b : 0 <= b < 256 -> shared b = true ->
  exists i m i' m', i < 98 <= i' /\ get_op_code true ill i m = b /\ get_op_code true ill i' m' = b.
Proof.
  intros R S. assert (C : share_ok ill = true) by (destruct ill; vm_compute; reflexivity). unfold share_ok in C.
  pose proof (forall_range _ 256 C b R) as D. cbn beta in D. rewrite S in D. cbn [negb orb] in D. apply andb_true_iff in D. destruct D as [D1 D2].
  apply existsb_exists in D1, D2. destruct D1 as ([b1 [i m]] & I1 & X1), D2 as ([b2 [i' m']] & I2 & X2). cbn [fst snd] in *.
  apply entry_out in I1, I2. destruct I1 as (n & A1 & A2 & A3), I2 as (n' & B1 & B2 & B3). exists i, n, i', n'. repeat split; lia.
Qed.

(** ** Conditionals *)
(** What the scanner makes of properly nested conditionals.  [inside]: the text is itself part of a conditional.  The result is what the parser
    sees and whether the text after it is skipped.  The one difference to [selected]: a conditional that ends in a skipped part
    goes on skipping behind its .ENDIF, unless it is the outermost one; the next .ELSE of an enclosing .IFDEF turns it off. *)
Fixpoint effect (inside : bool) (i : items) : list otok * bool :=
  match i with
  | INil => ([], false)
  | ITxt t r => let '(o, s) := effect inside r in (OText t :: o, s)
  | ICond b th he el r =>
      let '(o1, s1) := if b then effect true th else ([], true) in
      let '(o2, s2) := if he then if s1 then effect true el else ([], true) else ([], s1) in
      if s2 && inside then (o1 ++ o2, true) else let '(o3, s3) := effect inside r in (o1 ++ o2 ++ o3, s3)
  | IOrd th he el r =>
      let '(o1, s1) := effect true th in
      let '(o2, s2) := if he then if s1 then ([], true) else let '(o, s) := effect true el in (OElse :: o, s) else ([], s1) in
      if s2 && inside then (OIf :: o1 ++ o2, true)
      else let '(o3, s3) := effect inside r in (OIf :: o1 ++ o2 ++ (if s2 then [] else [OEndif]) ++ o3, s3)
  end.
Lemma lex_effect i : forall st, lex_run (mkLst false st) (source i) =
  let '(o, s) := effect (match st with [] => false | _ => true end) i in Some (mkLst s st, o).
Proof.
  induction i as [|t r IH|b th IHt he el IHe r IHr|th IHt he el IHe r IHr]; intros st.
  - reflexivity.
  - cbn [source lex_run lex_step skip effect]. rewrite IH. destruct (effect _ r) as [o s]. reflexivity.
  - cbn [source effect]. cbn [lex_run lex_step skip stk].
    assert (Et : lex_run (mkLst (negb b) (0 :: st)) (source th) = (let '(o1, s1) := if b then effect true th else ([], true) in Some (mkLst s1 (0 :: st), o1))).
    { destruct b; cbn [negb]; [apply (IHt (0 :: st))|apply skip_region]. }
    rewrite lex_run_app, Et. destruct (if b then effect true th else ([], true)) as [o1 s1]. rewrite lex_run_app.
    assert (Ee : lex_run (mkLst s1 (0 :: st)) (if he then LElse :: source el else []) =
                 (let '(o2, s2) := if he then if s1 then effect true el else ([], true) else ([], s1) in Some (mkLst s2 (0 :: st), o2))).
    { destruct he; [|reflexivity]. destruct s1; cbn [lex_run lex_step skip stk Z.eqb negb].
      - rewrite (IHe (0 :: st)). destruct (effect true el) as [o s]. reflexivity.
      - rewrite skip_region. reflexivity. }
    rewrite Ee. destruct (if he then if s1 then effect true el else ([], true) else ([], s1)) as [o2 s2]. cbn [lex_run].
    destruct s2; cbn [lex_step skip stk Z.eqb andb].
    + destruct st as [|t st].
      * rewrite (IHr []). destruct (effect false r) as [o3 s3]. cbn [app]. rewrite ?app_assoc. reflexivity.
      * rewrite skip_region. cbn [app]. rewrite app_nil_r. reflexivity.
    + rewrite (IHr st). destruct (effect _ r) as [o3 s3]. cbn [app]. rewrite ?app_assoc. reflexivity.
  - cbn [source effect]. cbn [lex_run lex_step skip stk]. rewrite lex_run_app, (IHt (1 :: st)). destruct (effect true th) as [o1 s1]. rewrite lex_run_app.
    assert (Ee : lex_run (mkLst s1 (1 :: st)) (if he then LElse :: source el else []) =
                 (let '(o2, s2) := if he then if s1 then ([], true) else let '(o, s) := effect true el in (OElse :: o, s) else ([], s1) in Some (mkLst s2 (1 :: st), o2))).
    { destruct he; [|reflexivity]. destruct s1; cbn [lex_run lex_step skip stk Z.eqb negb].
      - rewrite skip_region. reflexivity.
      - rewrite (IHe (1 :: st)). destruct (effect true el) as [o s]. reflexivity. }
    rewrite Ee. destruct (if he then if s1 then ([], true) else let '(o, s) := effect true el in (OElse :: o, s) else ([], s1)) as [o2 s2]. cbn [lex_run].
    destruct s2; cbn [lex_step skip stk Z.eqb andb].
    + destruct st as [|t st].
      * rewrite (IHr []). destruct (effect false r) as [o3 s3]. cbn [app]. rewrite ?app_assoc. reflexivity.
      * rewrite skip_region. cbn [app]. rewrite app_nil_r. reflexivity.
    + rewrite (IHr st). destruct (effect _ r) as [o3 s3]. cbn [app]. rewrite <- ?app_assoc. reflexivity.
Qed.

(** ** The memory tracker with blocks that move *)
(** A client's blocks: address, size, and whether the block has been moved since it was entered.  [lost]: what the tracker still counts
    although nothing is left of it; [errs]: blocks whose free is reported as unknown.  Addresses are not handed out twice. *)
Record cl := mkCl { cl_seen : list Z; cl_blocks : list (Z * (Z * bool)); cl_lost : Z; cl_errs : Z }.
Fixpoint bfind (b : list (Z * (Z * bool))) (p : Z) : option (Z * bool) :=
  match b with [] => None | (k, x) :: b' => if k =? p then Some x else bfind b' p end.
Fixpoint bdrop (b : list (Z * (Z * bool))) (p : Z) : list (Z * (Z * bool)) :=
  match b with [] => [] | (k, x) :: b' => if k =? p then b' else (k, x) :: bdrop b' p end.
Definition bsum (b : list (Z * (Z * bool))) : Z := esum (map (fun x => fst (snd x)) b).
Definition cl_step (c : cl) (o : mop) : option cl :=
  match o with
  | MMalloc s a => if existsb (Z.eqb a) (cl_seen c) then None else Some (mkCl (a :: cl_seen c) ((a, (s, false)) :: cl_blocks c) (cl_lost c) (cl_errs c))
  | MRealloc p s a =>
      match bfind (cl_blocks c) p with
      | None => None
      | Some (s0, moved) =>
          if negb (a =? p) && existsb (Z.eqb a) (cl_seen c) then None
          else Some (mkCl (a :: cl_seen c) ((a, (s, negb moved && negb (a =? p))) :: bdrop (cl_blocks c) p)
                          (if moved then cl_lost c + s0 else cl_lost c) (cl_errs c))
      end
  | MFree p =>
      match bfind (cl_blocks c) p with
      | None => None
      | Some (s0, moved) => Some (mkCl (cl_seen c) (bdrop (cl_blocks c) p) (if moved then cl_lost c + s0 else cl_lost c) (if moved then cl_errs c + 1 else cl_errs c))
      end
  end.
Fixpoint cl_run (c : cl) (os : list mop) : option cl :=
  match os with [] => Some c | o :: os => match cl_step c o with Some c' => cl_run c' os | None => None end end.
Definition cinv (c : cl) (m : mstate) : Prop :=
  NoDup (map fst (cl_blocks c)) /\ incl (map fst (cl_blocks c)) (cl_seen c) /\ incl (map fst (tab m)) (cl_seen c) /\
  (forall p s, bfind (cl_blocks c) p = Some (s, false) -> exists e, mfind (tab m) p = Some e /\ e_size e = s /\ e_deleted e = 0) /\
  (forall p s, bfind (cl_blocks c) p = Some (s, true) -> mfind (tab m) p = None) /\
  m_total m = bsum (cl_blocks c) + cl_lost c /\ m_errors m = cl_errs c /\ (cl_blocks c <> [] -> m_tab m <> None).
Lemma bfind_in b p x : bfind b p = Some x -> In p (map fst b).
Proof. induction b as [|[k y] b IH]; cbn; [discriminate|]. destruct (k =? p) eqn:E; [left; lia|right; auto]. Qed.
Lemma bdrop_incl b p : incl (map fst (bdrop b p)) (map fst b).
Proof. induction b as [|[k y] b IH]; cbn; [easy|]. destruct (k =? p); cbn; [apply incl_tl, incl_refl|]. intros x [<-|H]; [left; reflexivity|right; auto]. Qed.
Lemma bdrop_nodup b p : NoDup (map fst b) -> NoDup (map fst (bdrop b p)) /\ ~ In p (map fst (bdrop b p)).
Proof.
  induction b as [|[k y] b IH]; cbn; intros H; [split; [constructor|easy]|]. apply NoDup_cons_iff in H. destruct H as [Hk H]. destruct (k =? p) eqn:E.
  - apply Z.eqb_eq in E. subst k. auto.
  - destruct (IH H) as [A B]. split; [|cbn; intros [X|X]; [lia|auto]]. cbn. constructor; [|exact A]. intros X. apply Hk. exact (bdrop_incl _ _ _ X).
Qed.
Lemma bfind_drop b p q : NoDup (map fst b) -> bfind (bdrop b p) q = if q =? p then None else bfind b q.
Proof.
  induction b as [|[k y] b IH]; cbn; intros H; [destruct (q =? p); reflexivity|]. apply NoDup_cons_iff in H. destruct H as [Hk H]. destruct (k =? p) eqn:E.
  - apply Z.eqb_eq in E. subst k. destruct (p =? q) eqn:E2; destruct (q =? p) eqn:E3; try lia; [|reflexivity].
    destruct (bfind b q) eqn:F; [|reflexivity]. exfalso. apply Hk. replace p with q by lia. exact (bfind_in _ _ _ F).
  - cbn [bfind]. rewrite (IH H). destruct (k =? q) eqn:E2, (q =? p) eqn:E3; try lia; reflexivity.
Qed.
Lemma bsum_drop b p s m : bfind b p = Some (s, m) -> bsum (bdrop b p) = bsum b - s.
Proof.
  unfold bsum. induction b as [|[k y] b IH]; cbn [bfind bdrop]; [discriminate|]. destruct (k =? p) eqn:E.
  - intros H. injection H as ->. cbn [map esum fold_right fst snd]. fold (esum (map (fun x : Z * (Z * bool) => fst (snd x)) b)). lia.
  - intros H. cbn [map esum fold_right fst snd]. fold (esum (map (fun x : Z * (Z * bool) => fst (snd x)) b)). fold (esum (map (fun x : Z * (Z * bool) => fst (snd x)) (bdrop b p))). rewrite (IH H). lia.
Qed.
Lemma mfind_set t p e q : mfind (mset t p e) q = if (q =? p) && (match mfind t p with Some _ => true | None => false end) then Some e else mfind t q.
Proof.
  induction t as [|[k y] t IH]; cbn [mset mfind]; [rewrite andb_false_r; reflexivity|]. destruct (k =? p) eqn:E.
  - cbn [mfind]. destruct (k =? q) eqn:E2, (q =? p) eqn:E3; try lia; reflexivity.
  - cbn [mfind]. rewrite IH. destruct (k =? q) eqn:E2, (q =? p) eqn:E3; try lia; reflexivity.
Qed.
Lemma mfind_none2 t p : ~ In p (map fst t) -> mfind t p = None.
Proof. exact (mfind_none t p). Qed.
Lemma seen_not l a : existsb (Z.eqb a) l = false -> ~ In a l.
Proof. intros H X. assert (existsb (Z.eqb a) l = true) by (apply existsb_exists; exists a; split; [exact X|lia]). congruence. Qed.
Lemma bsum_cons a s x b : bsum ((a, (s, x)) :: b) = s + bsum b.
Proof. reflexivity. Qed.
Lemma cl_step_ok c m o c' : cinv c m -> cl_step c o = Some c' -> exists m', mem_step m o = Some m' /\ cinv c' m'.
Proof.
  intros (N & I1 & I2 & U & M & T & Er & Tb) E. destruct o as [s a|p s a|p]; cbn [cl_step mem_step] in *.
  - destruct (existsb (Z.eqb a) (cl_seen c)) eqn:X; [discriminate|]. injection E as <-. apply seen_not in X. eexists. split; [reflexivity|].
    unfold cinv, pasm_malloc, tab. cbn [cl_blocks cl_seen cl_lost cl_errs m_tab m_total m_errors map fst bfind mfind]. fold (tab m).
    split; [constructor; [intros Y; apply X, I1, Y|exact N]|]. split; [intros y [<-|Y]; [left; reflexivity|right; apply I1, Y]|].
    split; [intros y [<-|Y]; [left; reflexivity|right; apply I2, Y]|].
    split; [intros p s1; destruct (a =? p) eqn:Ea; [intros H; injection H as <-; eexists; split; [reflexivity|]; split; reflexivity|apply U]|].
    split; [intros p s1; destruct (a =? p) eqn:Ea; [discriminate|apply M]|]. split; [rewrite bsum_cons, T; lia|]. split; [exact Er|discriminate].
  - destruct (bfind (cl_blocks c) p) as [[s0 moved]|] eqn:F; [|discriminate].
    destruct (negb (a =? p) && existsb (Z.eqb a) (cl_seen c)) eqn:X; [discriminate|]. injection E as <-.
    assert (Xa : a = p \/ ~ In a (cl_seen c)) by (destruct (a =? p) eqn:Y; [left; lia|right; apply seen_not; exact X]).
    destruct (bdrop_nodup _ p N) as [ND Np]. pose proof (bsum_drop _ _ _ _ F) as BS.
    assert (Na : ~ In a (map fst (bdrop (cl_blocks c) p))).
    { destruct Xa as [->|Xa]; [exact Np|]. intros Y. apply Xa, I1. exact (bdrop_incl _ _ _ Y). }
    eexists. split; [reflexivity|]. unfold cinv, pasm_realloc. cbn [cl_blocks cl_seen cl_lost cl_errs map fst].
    assert (C1 : NoDup (a :: map fst (bdrop (cl_blocks c) p))) by (constructor; assumption).
    assert (C2 : incl (a :: map fst (bdrop (cl_blocks c) p)) (a :: cl_seen c)) by (intros y [<-|Y]; [left; reflexivity|right; apply I1; exact (bdrop_incl _ _ _ Y)]).
    destruct moved; cbn [negb andb].
    + rewrite (M _ _ F). unfold tab. cbn [m_tab m_total m_errors]. fold (tab m). split; [exact C1|]. split; [exact C2|].
      split; [cbn [map fst]; intros y [<-|Y]; [left; reflexivity|right; apply I2, Y]|].
      split; [intros q s1; cbn [bfind mfind]; destruct (a =? q) eqn:Ea; [intros H; injection H as <-; eexists; split; [reflexivity|]; split; reflexivity|]; rewrite (bfind_drop _ _ _ N); destruct (q =? p); [discriminate|apply U]|].
      split; [intros q s1; cbn [bfind mfind]; destruct (a =? q) eqn:Ea; [discriminate|]; rewrite (bfind_drop _ _ _ N); destruct (q =? p); [discriminate|apply M]|].
      split; [rewrite bsum_cons, BS, T; lia|]. split; [exact Er|discriminate].
    + destruct (U _ _ F) as (e & Ee & Es & Ed). rewrite Ee. unfold tab. cbn [m_tab m_total m_errors]. fold (tab m). split; [exact C1|]. split; [exact C2|].
      split; [rewrite mset_fst; intros y Y; right; apply I2, Y|].
      split; [intros q s1; cbn [bfind]; rewrite mfind_set, Ee, andb_true_r; destruct (a =? q) eqn:Ea|].
      * intros H. destruct (a =? p) eqn:Ep; [|discriminate]. injection H as <-. assert (q = p) as -> by lia. rewrite Z.eqb_refl. eexists. split; [reflexivity|]. split; [reflexivity|exact Ed].
      * rewrite (bfind_drop _ _ _ N). destruct (q =? p); [discriminate|apply U].
      * split; [intros q s1; cbn [bfind]; rewrite mfind_set, Ee, andb_true_r; destruct (a =? q) eqn:Ea|].
        -- intros H. destruct (a =? p) eqn:Ep; [discriminate|]. assert (q = a) as -> by lia. rewrite Ep. destruct Xa as [Xa|Xa]; [lia|]. apply mfind_none2. intros Y. apply Xa, I2, Y.
        -- rewrite (bfind_drop _ _ _ N). destruct (q =? p); [discriminate|apply M].
        -- split; [rewrite bsum_cons, BS, T; lia|]. split; [exact Er|discriminate].
  - destruct (bfind (cl_blocks c) p) as [[s0 moved]|] eqn:F; [|discriminate]. injection E as <-. pose proof (bsum_drop _ _ _ _ F) as BS. destruct (bdrop_nodup _ p N) as [ND Np].
    assert (Tm : m_tab m <> None) by (apply Tb; intros X; rewrite X in F; discriminate). unfold pasm_free. destruct (m_tab m) as [t|] eqn:Et; [|congruence].
    assert (Ett : tab m = t) by (unfold tab; rewrite Et; reflexivity). rewrite Ett in *.
    assert (I1' : incl (map fst (bdrop (cl_blocks c) p)) (cl_seen c)) by (intros y Y; apply I1; exact (bdrop_incl _ _ _ Y)).
    destruct moved.
    + rewrite (M _ _ F). eexists. split; [reflexivity|]. unfold cinv, tab. cbn [cl_blocks cl_seen cl_lost cl_errs m_tab m_total m_errors].
      split; [exact ND|]. split; [exact I1'|]. split; [exact I2|].
      split; [intros q s1; rewrite (bfind_drop _ _ _ N); destruct (q =? p); [discriminate|apply U]|].
      split; [intros q s1; rewrite (bfind_drop _ _ _ N); destruct (q =? p); [discriminate|apply M]|]. split; [rewrite BS, T; lia|]. split; [lia|discriminate].
    + destruct (U _ _ F) as (e & Ee & Es & Ed). rewrite Ee, Ed. cbn [Z.eqb]. eexists. split; [reflexivity|]. unfold cinv, tab. cbn [cl_blocks cl_seen cl_lost cl_errs m_tab m_total m_errors].
      split; [exact ND|]. split; [exact I1'|]. split; [rewrite mset_fst; exact I2|].
      split; [intros q s1; rewrite (bfind_drop _ _ _ N), mfind_set; destruct (q =? p); [discriminate|apply U]|].
      split; [intros q s1; rewrite (bfind_drop _ _ _ N), mfind_set; destruct (q =? p); [discriminate|apply M]|]. split; [rewrite BS, T; lia|]. split; [exact Er|discriminate].
Qed.
Lemma cl_run_ok os : forall c m c', cinv c m -> cl_run c os = Some c' -> exists m', mem_run m os = Some m' /\ cinv c' m'.
Proof.
  induction os as [|o os IH]; intros c m c' I E; cbn [cl_run mem_run] in *; [injection E as <-; eauto|].
  destruct (cl_step c o) as [c1|] eqn:E1; [|discriminate]. destruct (cl_step_ok _ _ _ _ I E1) as (m1 & -> & I1). exact (IH _ _ _ I1 E).
Qed.
Definition cl0 : cl := mkCl [] [] 0 0.
Lemma mem_exact os c : cl_run cl0 os = Some c -> exists m, mem_run mem0 os = Some m /\ m_total m = bsum (cl_blocks c) + cl_lost c /\ m_errors m = cl_errs c.
Proof.
  intros E. destruct (cl_run_ok os cl0 mem0 c) as (m & E1 & I); [|exact E|].
  - unfold cinv, cl0, mem0, tab. cbn. repeat split; try easy. constructor.
  - exists m. unfold cinv in I. tauto.
Qed.

Lemma effect_top i : snd (effect false i) = false.
Proof.
  induction i as [|t r IH|b th IHt he el IHe r IHr|th IHt he el IHe r IHr]; cbn [effect]; [reflexivity| | |].
  - destruct (effect false r); exact IH.
  - destruct (if b then effect true th else ([], true)) as [o1 s1]. destruct (if he then if s1 then effect true el else ([], true) else ([], s1)) as [o2 s2].
    rewrite andb_false_r. destruct (effect false r); exact IHr.
  - destruct (effect true th) as [o1 s1]. destruct (if he then if s1 then ([], true) else let '(o, s) := effect true el in (OElse :: o, s) else ([], s1)) as [o2 s2].
    rewrite andb_false_r. destruct (effect false r); exact IHr.
Qed.
Lemma lex_exact i : lex_run (mkLst false []) (source i) = Some (mkLst false [], fst (effect false i)).
Proof. rewrite lex_effect. pose proof (effect_top i) as H. destruct (effect false i) as [o s]. cbn [snd fst] in *. subst s. reflexivity. Qed.
Lemma effect_safe i : safe false i -> effect false i = (selected i, false).
Proof.
  intros H. pose proof (safe_run i [] H) as R. rewrite lex_exact in R. injection R as R. rewrite <- R. pose proof (effect_top i) as E.
  destruct (effect false i) as [o s]. cbn [snd fst] in *. subst s. reflexivity.
Qed.

(** ** What every text decodes to *)
Definition single_escapes : list (Z * Z) := [(97, 7); (98, 8); (102, 12); (118, 11); (114, 13); (110, 10); (116, 9); (39, 39); (34, 34); (92, 92);
  (65, 7); (66, 8); (70, 12); (86, 11); (82, 13); (78, 10); (84, 9)].
Definition hex_digits : list (Z * Z) := [(48, 0); (49, 1); (50, 2); (51, 3); (52, 4); (53, 5); (54, 6); (55, 7); (56, 8); (57, 9);
  (97, 10); (98, 11); (99, 12); (100, 13); (101, 14); (102, 15); (65, 10); (66, 11); (67, 12); (68, 13); (69, 14); (70, 15)].
(** pairs of hexadecimal digits and the bytes they stand for, and the rest, that does not begin with such a pair *)
Inductive paired : cstr -> list Z -> cstr -> Prop :=
| PairEnd s : (forall a b t h l, s = a :: b :: t -> In (a, h) hex_digits -> In (b, l) hex_digits -> False) -> paired s [] s
| PairOne a b h l s bs r : In (a, h) hex_digits -> In (b, l) hex_digits -> paired s bs r -> paired (a :: b :: s) (16 * h + l :: bs) r.
(** [decoded s o e]: the text [s] has the bytes [o] and [e] unknown escapes *)
Inductive decoded : cstr -> list Z -> nat -> Prop :=
| DecEnd : decoded [] [] 0
| DecChar c s o e : c <> 92 -> decoded s o e -> decoded (c :: s) (c :: o) e
| DecEscape c v s o e : In (c, v) single_escapes -> decoded s o e -> decoded (92 :: c :: s) (v :: o) e
| DecUnknown c s o e : ~ In c (map fst single_escapes) -> c <> 120 -> c <> 88 -> decoded s o e -> decoded (92 :: c :: s) (63 :: o) (S e)
| DecHex x s bs r o e : x = 120 \/ x = 88 -> s <> [] -> paired s bs r -> decoded r o e -> decoded (92 :: x :: s) (map sbyte bs ++ o) e.

Lemma digit_spec a : (exists h, In (a, h) hex_digits) <-> isxdigit a = true.
Proof.
  split.
  - intros (h & H). cbn in H. repeat (destruct H as [H|H]; [injection H as <- <-; reflexivity|]). destruct H.
  - intros H. unfold isxdigit, isdigit in H. rewrite !orb_true_iff, !andb_true_iff, !Z.leb_le in H.
    assert (X : In a [48; 49; 50; 51; 52; 53; 54; 55; 56; 57; 97; 98; 99; 100; 101; 102; 65; 66; 67; 68; 69; 70]) by (cbn; lia).
    cbn in X. repeat (destruct X as [<-|X]; [eexists; cbn; eauto 30|]). destruct X.
Qed.
Lemma digit_value a h : In (a, h) hex_digits -> hexval a = h /\ 0 <= h < 16.
Proof. intros H. cbn in H. repeat (destruct H as [H|H]; [injection H as <- <-; split; [reflexivity|lia]|]). destruct H. Qed.
Lemma byte_char v : to_char v = sbyte v. Proof. reflexivity. Qed.
Lemma paired_run s bs r : paired s bs r -> hex_pairs s = (map sbyte bs, r).
Proof.
  induction 1 as [s H|a b h l s bs r Ha Hb _ IH].
  - destruct s as [|a [|b t]]; try reflexivity. cbn [hex_pairs]. destruct (isxdigit a) eqn:A; [|reflexivity]. destruct (isxdigit b) eqn:B; [|reflexivity]. exfalso.
    apply digit_spec in A. apply digit_spec in B. destruct A as [h A], B as [l B]. exact (H a b t h l eq_refl A B).
  - cbn [hex_pairs]. rewrite (proj1 (digit_spec a) (ex_intro _ h Ha)), (proj1 (digit_spec b) (ex_intro _ l Hb)). cbn [andb]. rewrite IH.
    rewrite (proj1 (digit_value a h Ha)), (proj1 (digit_value b l Hb)). reflexivity.
Qed.
Lemma run_paired s : exists bs, paired s bs (snd (hex_pairs s)) /\ fst (hex_pairs s) = map sbyte bs.
Proof.
  induction s as [s IH] using len_ind. destruct s as [|a [|b t]].
  - exists []. split; [constructor; discriminate|reflexivity].
  - exists []. split; [constructor; discriminate|reflexivity].
  - cbn [hex_pairs]. destruct (isxdigit a) eqn:A; [destruct (isxdigit b) eqn:B|]; cbn [andb].
    + apply digit_spec in A. apply digit_spec in B. destruct A as [h A], B as [l B]. destruct (IH t) as (bs & P & E); [cbn; lia|].
      destruct (hex_pairs t) as [o r]. cbn [fst snd] in *. exists (16 * h + l :: bs). split; [constructor; auto|].
      cbn [map]. rewrite (proj1 (digit_value a h A)), (proj1 (digit_value b l B)), E. reflexivity.
    + exists []. split; [|reflexivity]. constructor. intros a' b' t' h l E _ Hb. injection E as <- <- <-. rewrite (proj1 (digit_spec b)) in B; [discriminate|eauto].
    + exists []. split; [|reflexivity]. constructor. intros a' b' t' h l E Ha _. injection E as <- <- <-. rewrite (proj1 (digit_spec a)) in A; [discriminate|eauto].
Qed.
Lemma lower_x c : tolower c = 120 <-> c = 120 \/ c = 88.
Proof. unfold tolower. destruct ((65 <=? c) && (c <=? 90)) eqn:B; [rewrite andb_true_iff, !Z.leb_le in B|rewrite andb_false_iff, !Z.leb_gt in B]; lia. Qed.
Lemma esc_known c v : In (c, v) single_escapes -> esc_char c = (v, 0%nat) /\ tolower c <> 120.
Proof. intros H. cbn in H. repeat (destruct H as [H|H]; [injection H as <- <-; split; [reflexivity|discriminate]|]). destruct H. Qed.
Lemma esc_unknown c : ~ In c (map fst single_escapes) -> esc_char c = (63, 1%nat).
Proof.
  intros H. assert (X : forall k, In k (map fst single_escapes) -> c <> k) by (intros k Hk ->; auto).
  pose proof (X 97 ltac:(cbn; tauto)). pose proof (X 98 ltac:(cbn; tauto)). pose proof (X 102 ltac:(cbn; tauto)). pose proof (X 118 ltac:(cbn; tauto)). pose proof (X 114 ltac:(cbn; tauto)).
  pose proof (X 110 ltac:(cbn; tauto)). pose proof (X 116 ltac:(cbn; tauto)). pose proof (X 39 ltac:(cbn; tauto)). pose proof (X 34 ltac:(cbn; tauto)). pose proof (X 92 ltac:(cbn; tauto)).
  pose proof (X 65 ltac:(cbn; tauto)). pose proof (X 66 ltac:(cbn; tauto)). pose proof (X 70 ltac:(cbn; tauto)). pose proof (X 86 ltac:(cbn; tauto)). pose proof (X 82 ltac:(cbn; tauto)).
  pose proof (X 78 ltac:(cbn; tauto)). pose proof (X 84 ltac:(cbn; tauto)). clear X H. unfold esc_char. cbv zeta.
  assert (L : forall k, (tolower c =? k) = true -> c = k \/ (c = k - 32 /\ 65 <= c <= 90)).
  { intros k E. apply Z.eqb_eq in E. unfold tolower in E. destruct ((65 <=? c) && (c <=? 90)) eqn:B; [rewrite andb_true_iff, !Z.leb_le in B; lia|left; exact E]. }
  repeat match goal with |- context [tolower c =? ?k] => let E := fresh in destruct (tolower c =? k) eqn:E; [exfalso; apply L in E; lia|] end. reflexivity.
Qed.
Theorem sanitize_decoded s o e : sanitize_string s = SOk o e <-> decoded s o e.
Proof.
  split.
  - revert o e. induction s as [s IH] using len_ind. intros o e E. destruct s as [|c s]; [injection E as <- <-; constructor|]. destruct (Z.eq_dec c BSL) as [->|Hc].
    + destruct s as [|x s]; [discriminate|]. destruct (Z.eq_dec (tolower x) 120) as [Hx|Hx].
      * assert (N : s <> []) by (intros ->; unfold sanitize_string in E; cbn [san length] in E; rewrite Z.eqb_refl, Hx in E; discriminate).
        rewrite sanitize_hex in E by assumption. destruct (run_paired s) as (bs & P & Eb). rewrite Eb in E. destruct (sanitize_string (snd (hex_pairs s))) as [o' e'| |] eqn:Er; try discriminate. injection E as <- <-.
        apply (DecHex x s bs (snd (hex_pairs s))); auto; [apply lower_x, Hx|]. apply IH; [|exact Er].
        destruct (hex_pairs s) as [q r] eqn:Eh. apply hex_pairs_len in Eh. cbn [snd length]. lia.
      * rewrite sanitize_esc in E by assumption. destruct (sanitize_string s) as [o' e'| |] eqn:Er; try discriminate. cbn [scons] in E.
        assert (D : decoded s o' e') by (apply IH; [cbn; lia|exact Er]).
        destruct (in_dec Z.eq_dec x (map fst single_escapes)) as [I|I].
        -- apply in_map_iff in I. destruct I as ([x' v] & X & I). cbn in X. subst x'. destruct (esc_known _ _ I) as [K _]. rewrite K in E. injection E as <- <-. apply DecEscape; auto.
        -- rewrite (esc_unknown _ I) in E. injection E as <- <-. apply DecUnknown; auto; intros ->; apply Hx; reflexivity.
    + rewrite sanitize_plain in E by assumption. destruct (sanitize_string s) as [o' e'| |] eqn:Er; try discriminate. injection E as <- <-. apply DecChar; [exact Hc|]. apply IH; [cbn; lia|exact Er].
  - induction 1 as [|c s o e Hc _ IH|c v s o e I _ IH|c s o e I H1 H2 _ IH|x s bs r o e Hx N P _ IH].
    + reflexivity.
    + rewrite sanitize_plain, IH by exact Hc. reflexivity.
    + destruct (esc_known _ _ I) as [K X]. change 92 with BSL. rewrite (sanitize_esc c s X), K, IH. reflexivity.
    + change 92 with BSL. rewrite sanitize_esc, (esc_unknown _ I), IH; [reflexivity|]. intros X. apply lower_x in X. destruct X; contradiction.
    + change 92 with BSL. rewrite sanitize_hex; [|apply lower_x, Hx|exact N]. rewrite (paired_run _ _ _ P). cbn [fst snd]. rewrite IH. reflexivity.
Qed.

(** ** Freeing twice *)
Definition touches (p : Z) (o : mop) : Prop :=
  match o with MMalloc _ a => a = p | MRealloc q _ a => q = p \/ a = p | MFree q => q = p end.
Lemma mfind_mset t q e p : q <> p -> mfind (mset t q e) p = mfind t p.
Proof.
  intros H. induction t as [|[k x] t IH]; [reflexivity|]. cbn [mset mfind]. destruct (Z.eqb_spec k q) as [->|Hk]; cbn [mfind].
  - destruct (Z.eqb_spec q p); [contradiction|reflexivity].
  - rewrite IH. reflexivity.
Qed.
Lemma mfind_same t p x e : mfind t p = Some x -> mfind (mset t p e) p = Some e.
Proof.
  induction t as [|[k y] t IH]; [discriminate|]. cbn [mset mfind]. destruct (Z.eqb_spec k p) as [->|Hk]; cbn [mfind]; [rewrite Z.eqb_refl; reflexivity|].
  destruct (Z.eqb_spec k p); [contradiction|exact IH].
Qed.
Definition refused (p : Z) (m : mstate) : Prop := m_tab m <> None /\ match mfind (MemTrack.tab m) p with Some e => e_deleted e <> 0 | None => True end.
Lemma refused_step p o m m' : refused p m -> ~ touches p o -> mem_step m o = Some m' -> refused p m'.
Proof.
  intros [R1 R2] Ht E. destruct o as [sz a|q sz a|q]; cbn [touches mem_step] in *.
  - injection E as <-. split; [discriminate|]. cbn [MemTrack.tab m_tab pasm_malloc mfind]. destruct (Z.eqb_spec a p); [contradiction|exact R2].
  - injection E as <-. unfold pasm_realloc. destruct (mfind (MemTrack.tab m) q) as [e|]; (split; [discriminate|]); cbn [MemTrack.tab m_tab mfind].
    + rewrite mfind_mset by tauto. exact R2.
    + destruct (Z.eqb_spec a p); [tauto|exact R2].
  - unfold pasm_free in E. unfold MemTrack.tab in *. destruct (m_tab m) as [t|]; [|discriminate]. destruct (mfind t q) as [e|]; [destruct (e_deleted e =? 0)|]; injection E as <-; (split; [discriminate|]); cbn [MemTrack.tab m_tab]; [rewrite mfind_mset by auto|..]; exact R2.
Qed.
Lemma refused_run p os : forall m m', refused p m -> Forall (fun o => ~ touches p o) os -> mem_run m os = Some m' -> refused p m'.
Proof.
  induction os as [|o os IH]; intros m m' R H E; cbn [mem_run] in E; [injection E as <-; exact R|]. inversion H as [|? ? H1 H2]; subst.
  destruct (mem_step m o) as [m1|] eqn:E1; [|discriminate]. exact (IH _ _ (refused_step _ _ _ _ R H1 E1) H2 E).
Qed.
Theorem free_twice m p os m' : mem_run m (MFree p :: os) = Some m' -> Forall (fun o => ~ touches p o) os ->
  exists m2, mem_step m' (MFree p) = Some m2 /\ m_total m2 = m_total m' /\ m_errors m2 = m_errors m' + 1.
Proof.
  intros E H. cbn [mem_run] in E. destruct (mem_step m (MFree p)) as [m1|] eqn:E1; [|discriminate].
  assert (R : refused p m1).
  { cbn [mem_step] in E1. unfold pasm_free in E1. destruct (m_tab m) as [t|]; [|discriminate]. destruct (mfind t p) as [e|] eqn:Ef; [destruct (Z.eqb_spec (e_deleted e) 0) as [D|D]|]; injection E1 as <-; (split; [discriminate|]); cbn [MemTrack.tab m_tab].
    - rewrite (mfind_same _ _ _ _ Ef). cbn [e_deleted]. lia.
    - rewrite Ef. exact D.
    - rewrite Ef. exact I. }
  destruct (refused_run _ _ _ _ R H E) as [R1 R2]. cbn [mem_step]. unfold pasm_free. unfold MemTrack.tab in R2. destruct (m_tab m') as [t|]; [|contradiction].
  destruct (mfind t p) as [e|]; [apply Z.eqb_neq in R2; rewrite R2|]; eexists; (split; [reflexivity|]); split; reflexivity.
Qed.
