(** More facts about sym.cc: plus and minus labels, macro parameters, local names, sections, the symbol dump. *)
From Coq Require Import String Lia Permutation Sorting.Sorted.
From Verif Require Import Base BaseProofs Hash Dict DictProofs Str Opcodes Err State Sym Machine Build Pass Inv SymProofs.
Open Scope string_scope.
Open Scope list_scope.
Open Scope Z_scope.
Open Scope m_scope.

(** ** Plus and minus labels *)
Definition pm_sorted (t : list pmsym) : Prop :=
  StronglySorted (fun a b => pm_cmp a b < 0) t /\ Forall (fun e => valids (pm_file e)) t.
(** same file, as the code compares names *)
Definition in_file (file : cstr) (e : pmsym) : bool := stricmp file (pm_file e) =? 0.
Definition minus_cands (t : list pmsym) (file : cstr) (line : Z) : list pmsym :=
  filter (fun e => in_file file e && (pm_line e <=? line)) t.
Definition plus_cands (t : list pmsym) (file : cstr) (line : Z) : list pmsym :=
  filter (fun e => in_file file e && (line <? pm_line e)) t.

Lemma filter_none {A} (P : A -> bool) l : (forall x, In x l -> P x = false) -> filter P l = [].
Proof. induction l as [|x l IH]; cbn; intros H; auto. rewrite (H x) by auto. apply IH; auto. Qed.

(** the elements satisfying a predicate that is convex along the list form a block *)
Lemma convex_block {A} (P : A -> bool) (lt : A -> A -> Prop) t : StronglySorted lt t ->
  (forall a b c, In a t -> In b t -> In c t -> lt a b -> lt b c -> P a = true -> P c = true -> P b = true) ->
  exists pre post, t = pre ++ filter P t ++ post /\ (forall x, In x pre -> P x = false) /\ (forall x, In x post -> P x = false).
Proof.
  induction 1 as [|x t S IH F]; intros C.
  - exists [], []. repeat split; intros ? [].
  - destruct IH as (pre & post & E & H1 & H2). { intros a b c Ha Hb Hc. apply C; right; auto. }
    cbn [filter]. destruct (P x) eqn:Px.
    + destruct (filter P t) as [|y c] eqn:EF.
      * exists [], t. split; [reflexivity|]. split; [intros ? []|]. intros z Hz. destruct (P z) eqn:Pz; auto.
        assert (In z (filter P t)) by (apply filter_In; auto). rewrite EF in H. destruct H.
      * destruct pre as [|z pre].
        { exists [], post. cbn in E |- *. rewrite E at 1. repeat split; auto. }
        exfalso. assert (Pz : P z = false) by (apply H1; left; auto).
        assert (Py : P y = true). { assert (Y : In y (filter P t)) by (rewrite EF; left; auto). apply filter_In in Y. tauto. }
        assert (In z t) by (rewrite E; left; auto).
        assert (In y t). { assert (Y : In y (filter P t)) by (rewrite EF; left; auto). apply filter_In in Y. tauto. }
        rewrite Forall_forall in F. rewrite (C x z y) in Pz; auto; try discriminate; try (right; assumption); try (left; reflexivity).
        rewrite E in S. cbn in S. inversion S as [|? ? S1 F1]; subst. rewrite Forall_forall in F1. apply F1.
        apply in_or_app. right. left. auto.
    + exists (x :: pre), post. cbn. rewrite E at 1. repeat split; auto. intros z [<-|Hz]; auto.
Qed.

Lemma in_file_eq file e : valids file -> valids (pm_file e) -> in_file file e = true <-> fk file = fk (pm_file e).
Proof. intros. unfold in_file. rewrite Z.eqb_eq. apply stricmp_0_iff; auto. Qed.

Lemma pm_lt_same a b : valids (pm_file a) -> valids (pm_file b) -> fk (pm_file a) = fk (pm_file b) ->
  pm_cmp a b < 0 -> pm_line a < pm_line b.
Proof.
  intros Va Vb E. unfold pm_cmp. apply (proj2 (stricmp_0_iff _ _ Va Vb)) in E. rewrite E. cbn. lia.
Qed.
Lemma pm_lt_file a b : pm_cmp a b < 0 -> stricmp (pm_file a) (pm_file b) <= 0.
Proof. unfold pm_cmp. cbv zeta. destruct (Z.eqb_spec (stricmp (pm_file a) (pm_file b)) 0); lia. Qed.
Lemma between_file a b c : valids (pm_file a) -> valids (pm_file b) -> valids (pm_file c) ->
  pm_cmp a b < 0 -> pm_cmp b c < 0 -> fk (pm_file a) = fk (pm_file c) -> fk (pm_file b) = fk (pm_file a).
Proof.
  intros Va Vb Vc H1 H2 E. apply pm_lt_file in H1, H2.
  apply (stricmp_0_iff _ _ Vb Va). apply (proj2 (stricmp_0_iff _ _ Va Vc)) in E.
  assert (stricmp (pm_file c) (pm_file a) <= 0).
  { pose proof (stricmp_antisym _ _ Va Vc). rewrite E in H. cbn in H. lia. }
  pose proof (stricmp_trans _ _ _ Vb Vc Va H2 H). pose proof (stricmp_antisym _ _ Va Vb). lia.
Qed.

Lemma minus_block t file line : pm_sorted t -> valids file ->
  exists pre post, t = pre ++ minus_cands t file line ++ post /\
    (forall x, In x pre -> in_file file x && (pm_line x <=? line) = false) /\
    (forall x, In x post -> in_file file x && (pm_line x <=? line) = false).
Proof.
  intros [S V] Vf. rewrite Forall_forall in V. apply (convex_block _ _ _ S). intros a b c Ha Hb Hc L1 L2.
  rewrite !andb_true_iff, !in_file_eq, !Z.leb_le by auto. intros [F1 G1] [F2 G2].
  assert (E : fk (pm_file b) = fk (pm_file a)) by (apply (between_file a b c); auto; congruence).
  split; [congruence|]. pose proof (pm_lt_same b c). rewrite E, <- F1, F2 in H. specialize (H (V _ Hb) (V _ Hc) eq_refl L2). lia.
Qed.
Lemma plus_block t file line : pm_sorted t -> valids file ->
  exists pre post, t = pre ++ plus_cands t file line ++ post /\
    (forall x, In x pre -> in_file file x && (line <? pm_line x) = false) /\
    (forall x, In x post -> in_file file x && (line <? pm_line x) = false).
Proof.
  intros [S V] Vf. rewrite Forall_forall in V. apply (convex_block _ _ _ S). intros a b c Ha Hb Hc L1 L2.
  rewrite !andb_true_iff, !in_file_eq, !Z.ltb_lt by auto. intros [F1 G1] [F2 G2].
  assert (E : fk (pm_file b) = fk (pm_file a)) by (apply (between_file a b c); auto; congruence).
  split; [congruence|]. pose proof (pm_lt_same a b). rewrite E in H. specialize (H (V _ Ha) (V _ Hb) eq_refl L1). lia.
Qed.

Lemma last_before_app t1 t2 file line i f :
  last_before (t1 ++ t2) file line i f = last_before t2 file line (i + Z.of_nat (length t1)) (last_before t1 file line i f).
Proof.
  revert i f; induction t1 as [|e t IH]; intros i f; cbn [app last_before length].
  - f_equal. lia.
  - rewrite IH. f_equal. lia.
Qed.
Lemma last_before_none t file line i f : (forall x, In x t -> in_file file x && (pm_line x <=? line) = false) ->
  last_before t file line i f = f.
Proof.
  revert i f; induction t as [|e t IH]; intros i f H; cbn [last_before]; auto.
  pose proof (H e (or_introl eq_refl)) as He. unfold in_file in He. rewrite He. apply IH. intros; apply H; right; auto.
Qed.
Lemma last_before_all t file line i f : t <> [] -> (forall x, In x t -> in_file file x && (pm_line x <=? line) = true) ->
  last_before t file line i f = i + Z.of_nat (length t) - 1.
Proof.
  revert i f; induction t as [|e t IH]; intros i f N H; [congruence|]. cbn [last_before length].
  pose proof (H e (or_introl eq_refl)) as He. unfold in_file in He. rewrite He.
  destruct t as [|e' t]; [cbn; lia|]. rewrite IH; [lia|discriminate|]. intros; apply H; right; auto.
Qed.

(** what the search for '-' labels returns, for every table *)
Lemma find_minus_spec t depth file line : pm_sorted t -> valids file ->
  let c := minus_cands t file line in
  (c = [] -> find_minus t depth file line = -1) /\
  (c <> [] -> exists pre post, t = pre ++ c ++ post /\
     find_minus t depth file line = Z.of_nat (length pre) + Z.of_nat (length c) - depth).
Proof.
  intros S V c. destruct (minus_block t file line S V) as (pre & post & E & H1 & H2). fold c in E.
  assert (Hc : forall x, In x c -> in_file file x && (pm_line x <=? line) = true).
  { intros x Hx. apply filter_In in Hx. tauto. }
  assert (L : last_before t file line 0 (-1) = last_before c file line (Z.of_nat (length pre)) (-1)).
  { rewrite E, !last_before_app, (last_before_none pre) by auto. rewrite (last_before_none post) by auto. reflexivity. }
  unfold find_minus. rewrite L. split; intros N.
  - rewrite N. reflexivity.
  - exists pre, post. split; [exact E|]. rewrite last_before_all by auto.
    assert (0 < Z.of_nat (length c)) by (destruct c; [congruence|cbn; lia]).
    cbv zeta. rewrite (proj2 (Z.leb_le 0 _)); lia.
Qed.
Lemma nth_rev {A} (l : list A) n : (n < length l)%nat -> nth_error (rev l) n = nth_error l (length l - S n).
Proof.
  intros Hn. destruct (nth_error l (length l - S n)) as [x|] eqn:Y.
  - apply nth_error_nth with (d := x) in Y. rewrite (nth_error_nth' _ x) by (rewrite rev_length; lia).
    rewrite rev_nth by lia. now rewrite Y.
  - apply nth_error_None in Y. lia.
Qed.
Lemma find_minus_nth t depth file line : pm_sorted t -> valids file ->
  let c := minus_cands t file line in
  1 <= depth <= Z.of_nat (length c) ->
  0 <= find_minus t depth file line /\
  nth_error t (Z.to_nat (find_minus t depth file line)) = nth_error (rev c) (Z.to_nat (depth - 1)) /\
  nth_error (rev c) (Z.to_nat (depth - 1)) <> None.
Proof.
  intros S V c D. destruct (find_minus_spec t depth file line S V) as [_ H]. fold c in H.
  destruct H as (pre & post & E & F). { intros N; rewrite N in D; cbn in D; lia. }
  rewrite F. split; [lia|].
  assert (X : nth_error (rev c) (Z.to_nat (depth - 1)) = nth_error c (length c - Z.to_nat depth)).
  { rewrite nth_rev by lia. f_equal. lia. }
  split; [|rewrite X; apply nth_error_Some; lia]. rewrite X. rewrite E at 1. rewrite nth_error_app2 by lia.
  replace (Z.to_nat (Z.of_nat (length pre) + Z.of_nat (length c) - depth) - length pre)%nat
    with (length c - Z.to_nat depth)%nat by lia.
  rewrite nth_error_app1 by lia. reflexivity.
Qed.

Lemma first_after_spec t1 t2 file line i : (forall x, In x t1 -> in_file file x && (line <? pm_line x) = false) ->
  first_after (t1 ++ t2) file line i = first_after t2 file line (i + Z.of_nat (length t1)).
Proof.
  revert i; induction t1 as [|e t IH]; intros i H; cbn [app first_after length].
  - f_equal. lia.
  - pose proof (H e (or_introl eq_refl)) as He. unfold in_file in He. rewrite He. rewrite IH by (intros; apply H; right; auto).
    f_equal. lia.
Qed.
Lemma find_plus_spec t depth file line : pm_sorted t -> valids file ->
  let c := plus_cands t file line in
  (c = [] -> find_plus t depth file line = -1) /\
  (c <> [] -> exists pre post, t = pre ++ c ++ post /\
     find_plus t depth file line = Z.of_nat (length pre) + depth - 1).
Proof.
  intros S V c. destruct (plus_block t file line S V) as (pre & post & E & H1 & H2). fold c in E. unfold find_plus. split; intros N.
  - rewrite E, N. cbn [app]. rewrite first_after_spec by auto.
    rewrite <- (app_nil_r post), first_after_spec by auto. cbn. reflexivity.
  - exists pre, post. split; [exact E|].
    assert (FA : first_after t file line 0 = Z.of_nat (length pre)).
    { rewrite E at 1. rewrite first_after_spec by auto.
      destruct c as [|e c'] eqn:Ec; [congruence|]. cbn [app first_after].
      assert (He : in_file file e && (line <? pm_line e) = true).
      { assert (In e c) by (rewrite Ec; left; auto). apply filter_In in H. tauto. }
      unfold in_file in He. rewrite He. lia. }
    rewrite FA. cbv zeta. rewrite (proj2 (Z.leb_le 0 (Z.of_nat (length pre)))) by lia. lia.
Qed.
Lemma find_plus_nth t depth file line : pm_sorted t -> valids file ->
  let c := plus_cands t file line in
  1 <= depth <= Z.of_nat (length c) ->
  0 <= find_plus t depth file line /\
  nth_error t (Z.to_nat (find_plus t depth file line)) = nth_error c (Z.to_nat (depth - 1)) /\
  nth_error c (Z.to_nat (depth - 1)) <> None.
Proof.
  intros S V c D. destruct (find_plus_spec t depth file line S V) as [_ H]. fold c in H.
  destruct H as (pre & post & E & F). { intros N; rewrite N in D; cbn in D; lia. }
  rewrite F. split; [lia|]. split; [|apply nth_error_Some; lia]. rewrite E at 1. rewrite nth_error_app2 by lia.
  replace (Z.to_nat (Z.of_nat (length pre) + depth - 1) - length pre)%nat with (Z.to_nat (depth - 1)) by lia.
  rewrite nth_error_app1 by lia. reflexivity.
Qed.

(** adding keeps the table sorted when the line is not in it yet *)
Lemma find_def_none t file line i : find_def t file line i = None -> forall e, In e t -> pm_cmp e (mkPm file line 0) <> 0.
Proof.
  revert i; induction t as [|x t IH]; intros i H e He; [destruct He|]. cbn [find_def] in H.
  destruct (Z.eqb_spec (pm_cmp x (mkPm file line 0)) 0); [discriminate|].
  destruct He as [<-|He]; eauto.
Qed.
Lemma pm_insert_in e t x : In x (pm_insert e t) <-> x = e \/ In x t.
Proof.
  induction t as [|y t IH]; cbn [pm_insert]; [cbn; intuition congruence|].
  destruct (pm_cmp e y <? 0); cbn [In]; [intuition congruence|]. rewrite IH. intuition congruence.
Qed.
Lemma pm_cmp_antisym a b : valids (pm_file a) -> valids (pm_file b) -> pm_cmp a b < 0 <-> 0 < pm_cmp b a.
Proof.
  intros Va Vb. pose proof (stricmp_antisym _ _ Va Vb). unfold pm_cmp. cbv zeta.
  destruct (Z.eqb_spec (stricmp (pm_file a) (pm_file b)) 0), (Z.eqb_spec (stricmp (pm_file b) (pm_file a)) 0); lia.
Qed.
Lemma pm_cmp_trans a b c : valids (pm_file a) -> valids (pm_file b) -> valids (pm_file c) ->
  pm_cmp a b < 0 -> pm_cmp b c < 0 -> pm_cmp a c < 0.
Proof.
  intros Va Vb Vc H1 H2. pose proof (stricmp_trans _ _ _ Va Vb Vc (pm_lt_file _ _ H1) (pm_lt_file _ _ H2)).
  unfold pm_cmp in *. cbv zeta in *.
  pose proof (stricmp_0_iff _ _ Va Vb) as Iab. pose proof (stricmp_0_iff _ _ Vb Vc) as Ibc.
  pose proof (stricmp_0_iff _ _ Va Vc) as Iac.
  pose proof (stricmp_antisym _ _ Va Vb). pose proof (stricmp_antisym _ _ Vb Vc). pose proof (stricmp_antisym _ _ Va Vc).
  destruct (Z.eqb_spec (stricmp (pm_file a) (pm_file b)) 0) as [E1|E1],
    (Z.eqb_spec (stricmp (pm_file b) (pm_file c)) 0) as [E2|E2],
    (Z.eqb_spec (stricmp (pm_file a) (pm_file c)) 0) as [E3|E3]; try lia; exfalso.
  - apply E2, Ibc. rewrite <- (proj1 Iab E1). apply Iac; auto.
  - apply E1, Iab. rewrite (proj1 Ibc E2). apply Iac; auto.
  - assert (stricmp (pm_file b) (pm_file a) <= 0); [|lia].
    eapply stricmp_trans; [exact Vb|exact Vc|exact Va| |]; lia.
Qed.
Lemma pm_insert_sorted t e : pm_sorted t -> valids (pm_file e) -> find_def t (pm_file e) (pm_line e) 0 = None ->
  pm_sorted (pm_insert e t).
Proof.
  intros [S V] Ve H. split.
  - pose proof (find_def_none _ _ _ _ H) as N. clear H. induction S as [|x t S IH F]; cbn [pm_insert].
    + constructor; constructor.
    + inversion V as [|? ? Vx Vt]; subst. destruct (Z.ltb_spec (pm_cmp e x) 0) as [L|L].
      * constructor; [constructor; auto|]. constructor; auto. rewrite Forall_forall in *. intros y Hy.
        eapply pm_cmp_trans; [exact Ve|exact Vx| |exact L|]; auto.
      * constructor; [apply IH; auto; intros; apply N; right; auto|]. apply Forall_forall. intros y Hy.
        apply pm_insert_in in Hy. destruct Hy as [->|Hy]; [|rewrite Forall_forall in F; auto].
        assert (N0 : pm_cmp x e <> 0). { intros X. apply (N x (or_introl eq_refl)). exact X. }
        pose proof (pm_cmp_antisym x e Vx Ve). pose proof (pm_cmp_antisym e x Ve Vx). lia.
  - apply Forall_forall. intros x Hx. apply pm_insert_in in Hx. rewrite Forall_forall in V. destruct Hx as [->|Hx]; auto.
Qed.

(** ** Macro parameters *)
Ltac Zify.zify_post_hook ::= Z.div_mod_to_equations.
Definition dval (a : Z) (l : cstr) : Z := fold_left (fun v c => v * 10 + (c - 48)) l a.
Lemma digits_val f : forall n acc, 0 <= n < 2 ^ Z.of_nat f -> dval 0 (digits f n acc) = dval n acc.
Proof.
  induction f as [|f IH]; intros n acc H.
  - change (2 ^ Z.of_nat 0) with 1 in H. replace n with 0 by lia. reflexivity.
  - rewrite Nat2Z.inj_succ, Z.pow_succ_r in H by lia. cbn [digits]. cbv zeta.
    destruct (Z.eqb_spec (n / 10) 0).
    + unfold dval; cbn [fold_left]. f_equal. lia.
    + rewrite IH by lia. unfold dval; cbn [fold_left]. f_equal. lia.
Qed.
Lemma dec_val n : 0 <= n -> dval 0 (dec_str n) = n.
Proof.
  intros H. unfold dec_str. rewrite (proj2 (Z.ltb_ge n 0) H). rewrite digits_val; [reflexivity|]. split; [lia|].
  rewrite Nat2Z.inj_succ, Z2Nat.id by apply Z.log2_nonneg. destruct (Z.eq_dec n 0) as [->|]; [cbn; lia|].
  apply Z.log2_spec. lia.
Qed.
Lemma digits_chars f : forall n acc, Forall (fun c => 48 <= c <= 57) acc -> 0 <= n -> Forall (fun c => 48 <= c <= 57) (digits f n acc).
Proof.
  induction f as [|f IH]; intros n acc H Hn; cbn [digits]; auto. cbv zeta.
  assert (Forall (fun c => 48 <= c <= 57) (48 + n mod 10 :: acc)) by (constructor; auto; lia).
  destruct (n / 10 =? 0); auto. apply IH; auto. lia.
Qed.
Lemma param_name_valid n : 0 <= n -> valids (param_name n).
Proof.
  intros H. unfold param_name. constructor; [split; lia|]. unfold dec_str. rewrite (proj2 (Z.ltb_ge n 0) H).
  eapply Forall_impl; [|apply digits_chars; [constructor|exact H]]. intros c Hc. cbn in Hc. split; lia.
Qed.
Lemma param_name_fk n : 0 <= n -> fk (param_name n) = param_name n.
Proof.
  intros H. unfold param_name, fk. cbn [map]. f_equal. unfold dec_str. rewrite (proj2 (Z.ltb_ge n 0) H).
  assert (F : Forall (fun c => 48 <= c <= 57) (digits (S (Z.to_nat (Z.log2 n))) n [])) by (apply digits_chars; auto).
  induction F as [|c l Hc F IH]; cbn [map]; auto. rewrite IH. f_equal. unfold tolower. if_lia.
Qed.
Lemma param_name_inj n m : 0 <= n -> 0 <= m -> fk (param_name n) = fk (param_name m) -> n = m.
Proof.
  intros Hn Hm E. rewrite !param_name_fk in E by auto. unfold param_name in E. injection E as E.
  rewrite <- (dec_val n Hn), <- (dec_val m Hm). now rewrite E.
Qed.

Definition pval (s : state) (n : Z) : option Z := option_map y_value (dl s (param_name n)).
(** \n exists and is a parameter symbol *)
Definition param_ok (s : state) (n : Z) : Prop := exists y, dl s (param_name n) = Some y /\ y_mparam y = true.

Lemma param_values_spec k : forall n s, table_ok s -> 0 <= n ->
  (forall i, n <= i < n + Z.of_nat k -> dl s (param_name i) <> None) ->
  exists l, param_values k n s = Ok (Some l) s /\ length l = k /\
    forall i, (i < k)%nat -> pval s (n + Z.of_nat i) = nth_error l i.
Proof.
  induction k as [|k IH]; intros n s T Hn H; cbn [param_values].
  - exists []. repeat split; auto. intros; lia.
  - unfold sym_search, bind, gets. pose proof (dl_search s (param_name n) (proj1 T) (param_name_valid n Hn)) as D.
    destruct (dict_search (s_dict s) (param_name n)) as [a|]; [|exfalso; apply (H n); [lia|exact D]].
    destruct D as (y & D1 & D2). unfold sym_get, bind, gets. rewrite D1.
    destruct (IH (n + 1) s T) as (l & E & L & P); [lia|intros; apply H; lia|].
    unfold bind, ret in E |- *. rewrite E. exists (y_value y :: l). repeat split; auto; [cbn; congruence|].
    intros [|i] Hi; cbn [nth_error].
    + unfold pval. rewrite Z.add_0_r, D2. reflexivity.
    + rewrite <- P by lia. f_equal. lia.
Qed.

(** setting a parameter *)
Lemma set_param n v s a y : table_ok s -> 0 <= n -> dict_search (s_dict s) (param_name n) = Some a ->
  nth_error (s_syms s) a = Some y -> y_mparam y = true -> 0 <= v <= 65535 ->
  exists s', set_symbol_value a v s = Ok tt s' /\ table_ok s' /\ s_mstack s' = s_mstack s /\ s_errs s' = s_errs s /\
    s_changed s' = s_changed s /\ s_dict s' = s_dict s /\ dl s' (param_name n) = Some (y_set_value v y) /\
    (forall k, valids k -> fk k <> fk (param_name n) -> dl s' k = dl s k).
Proof.
  intros T Hn S Y M V. destruct (set_symbol_value_spec a v s y Y) as (s' & E & C).
  assert (D : dl s (param_name n) = Some y) by (unfold dl, dlookup; cbn [fst snd]; rewrite S; exact Y).
  exists s'. split; [exact E|]. destruct C as [(-> & C)|[(_ & C1 & C2)|(C1 & C2 & ->)]]; [|tauto|].
  - repeat split; auto; try apply T. rewrite D. subst v. destruct y; reflexivity.
  - rewrite M. cbn [orb]. cbv zeta.
    split; [split; [apply WF_upd; apply T|apply T]|]. repeat split; auto.
    + unfold dl, dlookup. cbn [fst snd s_dict s_syms set_syms]. rewrite S. apply nth_upd_same. apply nth_error_Some. congruence.
    + intros k Hk Hne. unfold dl, dlookup. cbn [fst snd s_dict s_syms set_syms].
      destruct (dict_search (s_dict s) k) as [b|] eqn:Sb; auto. apply nth_upd_other. intros <-.
      apply Hne. destruct T as [[T0 T1] T2].
      assert (V1 := param_name_valid n Hn). pose proof Sb as Sb'. rewrite (dict_search_stack _ _ _ T0 Hk) in Sb'.
      destruct (stackof (s_dict s) k) as [|[k1 b] t] eqn:St; [discriminate|]. injection Sb' as ->.
      symmetry. apply (stack_addr_key (s_dict s) (s_syms s) (param_name n) k a (k1, a)); auto. rewrite St. left; auto.
Qed.

Lemma restore_spec l : forall n s, table_ok s -> 0 <= n ->
  (forall i, n <= i < n + Z.of_nat (length l) -> param_ok s i) -> Forall (fun v => 0 <= v <= 65535) l ->
  exists s', restore_params l n s = Ok tt s' /\ table_ok s' /\ s_mstack s' = s_mstack s /\ s_errs s' = s_errs s /\
    s_changed s' = s_changed s /\
    (forall i, (i < length l)%nat -> pval s' (n + Z.of_nat i) = nth_error l i) /\
    (forall k, valids k -> (forall i, n <= i < n + Z.of_nat (length l) -> fk k <> fk (param_name i)) -> dl s' k = dl s k).
Proof.
  induction l as [|v l IH]; intros n s T Hn P F; cbn [restore_params].
  - exists s. repeat split; auto; try apply T. cbn; intros; lia.
  - inversion F as [|? ? Fv Fl]; subst. cbn [length] in P.
    unfold sym_search, bind, gets. pose proof (dl_search s (param_name n) (proj1 T) (param_name_valid n Hn)) as D.
    destruct (P n) as (y & Py & My); [lia|].
    destruct (dict_search (s_dict s) (param_name n)) as [a|] eqn:Sa; [|congruence].
    destruct D as (y' & D1 & D2). assert (y' = y) by congruence. subst y'. unfold bind.
    destruct (set_param n v s a y T Hn Sa D1 My Fv) as (s1 & E1 & T1 & M1 & R1 & C1 & K1 & V1 & O1). rewrite E1.
    destruct (IH (n + 1) s1 T1) as (s2 & E2 & T2 & M2 & R2 & C2 & V2 & O2); [lia| |auto|].
    { intros i Hi. destruct (P i) as (z & Pz & Mz); [lia|]. exists z. split; auto. rewrite O1; auto.
      - apply param_name_valid; lia.
      - intros X. apply param_name_inj in X; lia. }
    exists s2. repeat split; try congruence; try apply T2; auto.
    + intros [|i] Hi; cbn [nth_error].
      * unfold pval. rewrite Z.add_0_r. rewrite O2.
        -- rewrite V1. reflexivity.
        -- apply param_name_valid; auto.
        -- intros i Hi' X. apply param_name_inj in X; lia.
      * rewrite <- V2 by (cbn in Hi; lia). f_equal. lia.
    + intros k Hk Hne. cbn [length] in Hne. rewrite O2; auto.
      * apply O1; auto. apply Hne. lia.
      * intros i Hi. apply Hne. lia.
Qed.

(** push, anything that keeps the stack and the parameter symbols, pop *)
Lemma push_pop s : table_ok s -> 0 <= s_maxmp s ->
  (forall n, 1 <= n <= s_maxmp s -> exists v, pval s n = Some v /\ 0 <= v <= 65535) ->
  exists s1, push_macro_params s = Ok tt s1 /\ length (s_mstack s1) = S (length (s_mstack s)) /\
  (forall k, dl s1 k = dl s k) /\
  forall s2, table_ok s2 -> s_mstack s2 = s_mstack s1 -> (forall n, 1 <= n <= s_maxmp s -> param_ok s2 n) ->
  exists s3, pop_macro_params s2 = Ok tt s3 /\ table_ok s3 /\ s_mstack s3 = s_mstack s /\
    (forall n, 1 <= n <= s_maxmp s -> pval s3 n = pval s n) /\
    (forall k, valids k -> (forall n, 1 <= n <= s_maxmp s -> fk k <> fk (param_name n)) -> dl s3 k = dl s2 k) /\
    s_errs s3 = s_errs s2 /\ s_changed s3 = s_changed s2.
Proof.
  intros T Hm P. unfold push_macro_params, bind, gets.
  destruct (param_values_spec (Z.to_nat (s_maxmp s)) 1 s T) as (l & E & L & V); [lia| |].
  { intros i Hi. destruct (P i) as (v & Pv & _); [lia|]. unfold pval in Pv. destruct (dl s (param_name i)); [discriminate|].
    discriminate Pv. }
  rewrite E. unfold modify. exists (set_mstack (l :: s_mstack s) s). split; [reflexivity|]. split; [reflexivity|].
  split; [reflexivity|]. intros s2 T2 M2 P2. cbn [s_mstack set_mstack] in M2.
  unfold pop_macro_params, bind, gets, modify. rewrite M2.
  assert (F : Forall (fun v => 0 <= v <= 65535) l).
  { apply Forall_forall. intros v Hv. apply In_nth_error in Hv. destruct Hv as (i & Hi).
    assert ((i < length l)%nat) by (apply nth_error_Some; congruence).
    destruct (P (1 + Z.of_nat i)) as (w & Pw & Rw); [lia|]. rewrite V in Pw by lia. congruence. }
  destruct (restore_spec l 1 (set_mstack (s_mstack s) s2)) as (s3 & E3 & T3 & M3 & R3 & C3 & V3 & O3); auto; try lia.
  { intros i Hi. apply P2. lia. }
  exists s3. split; [exact E3|]. split; [exact T3|]. split; [exact M3|].
  split; [|split; [|split; [exact R3|exact C3]]].
  - intros n Hn. replace n with (1 + Z.of_nat (Z.to_nat (n - 1))) by lia. rewrite V3, V by lia. reflexivity.
  - intros k Hk Hne. rewrite O3; auto. intros i Hi. apply Hne. lia.
Qed.

(** ** Local names *)
Lemma local_name_inj l n l' n' : ~ In 64 l -> ~ In 64 l' -> hd0 n = 64 -> hd0 n' = 64 ->
  fk (local_name l n) = fk (local_name l' n') -> fk l = fk l' /\ fk n = fk n'.
Proof.
  intros H H' N N' E. destruct n as [|c n]; [discriminate|]. destruct n' as [|c' n']; [discriminate|].
  cbn [hd0] in N, N'. subst c c'. unfold local_name, fk in E. rewrite !map_app in E. cbn [map] in E.
  assert (L : forall x, ~ In 64 x -> ~ In 64 (map tolower x)).
  { intros x Hx X. apply in_map_iff in X. destruct X as (c & Hc & Hi). apply Hx.
    assert (c = 64) by (unfold tolower in Hc; if_lia). now subst. }
  apply L in H, H'. clear L. unfold fk. change (tolower 64) with 64 in *. change (tolower 95) with 95 in *. cbn [map].
  change (tolower 64) with 64. revert E. generalize (map tolower l) (map tolower l') H H'. clear H H' l l'.
  induction l as [|x l IH]; intros [|x' l'] H H' E; cbn in E.
  - injection E as E. split; congruence.
  - exfalso. destruct l' as [|y [|z l']]; cbn in E; inversion E; subst. apply H'. right; right; left; auto.
  - exfalso. destruct l as [|y [|z l]]; cbn in E; inversion E; subst. apply H. right; right; left; auto.
  - injection E as -> E. destruct (IH l') as [A B]; auto; [intros X; apply H; right; auto|intros X; apply H'; right; auto|].
    split; congruence.
Qed.

(** ** Sections *)
Lemma split_last_app a b : ~ In 46 b -> split_last (a ++ 46 :: b) = Some (a, b).
Proof.
  intros H. induction a as [|c a IH]; cbn [app split_last].
  - rewrite (split_last_none _ H). reflexivity.
  - rewrite IH. reflexivity.
Qed.
(** the scope transformers of .SECTION and .ENDS *)
Definition enter (name : cstr) (s : state) : state := set_scope (Some (under (s_scope s) name)) s.

Lemma x_section_eq name i n s x : nth_error (s_nodes s) n = Some (mkNode (KId name i) []) -> n_ops x = [n] ->
  x_section x s = Ok 0 (enter name s).
Proof.
  intros H Hx. unfold x_section, opn, name_of, node_get, bind, gets, modify, ret, enter. rewrite Hx. cbn. rewrite H. reflexivity.
Qed.
Lemma section_restored name s : ~ In 46 name ->
  x_end_section (enter name s) = Ok 0 s.
Proof.
  intros H. unfold x_end_section, enter, bind, gets, modify, ret. cbn [s_scope set_scope].
  destruct (s_scope s) as [c|] eqn:E; unfold under, dotted.
  - rewrite split_last_app by auto. destruct s; cbn in *; subst; reflexivity.
  - rewrite split_last_none by auto. destruct s; cbn in *; subst; reflexivity.
Qed.

(** well nested sequences of .SECTION, .ENDS and other steps that keep the scope *)
Inductive nest := NStep (f : state -> state) | NSection (name : cstr) (b : list nest).
Fixpoint run_nest (f : nat) (l : list nest) (s : state) : option state :=
  match f with
  | O => None
  | S f =>
      match l with
      | [] => Some s
      | NStep g :: l => run_nest f l (g s)
      | NSection name b :: l =>
          match run_nest f b (enter name s) with
          | Some s1 => match x_end_section s1 with Ok _ s2 => run_nest f l s2 | _ => None end
          | None => None
          end
      end
  end.
Inductive nest_ok : list nest -> Prop :=
| nest_nil : nest_ok []
| nest_step g l : (forall s, s_scope (g s) = s_scope s /\ s_errs (g s) = s_errs s) -> nest_ok l -> nest_ok (NStep g :: l)
| nest_sec name b l : ~ In 46 name -> nest_ok b -> nest_ok l -> nest_ok (NSection name b :: l).
Lemma run_nest_scope f : forall l s s', nest_ok l -> run_nest f l s = Some s' -> s_scope s' = s_scope s /\ s_errs s' = s_errs s.
Proof.
  induction f as [|f IH]; intros l s s' N E; [discriminate|]. cbn [run_nest] in E. inversion N; subst.
  - injection E as <-. auto.
  - apply IH in E; auto. destruct (H s). destruct E. split; congruence.
  - destruct (run_nest f b (enter name s)) as [s1|] eqn:E1; [|discriminate]. apply IH in E1; auto. destruct E1 as [E1 E2].
    unfold enter in E1, E2. cbn [s_scope s_errs set_scope] in E1, E2.
    unfold x_end_section, bind, gets, modify, ret in E. rewrite E1 in E. cbn [under dotted] in E.
    destruct (s_scope s) as [c|] eqn:Sc; unfold under, dotted in E.
    + rewrite split_last_app in E by auto. apply IH in E; auto. cbn in E. destruct E; split; congruence.
    + rewrite split_last_none in E by auto. apply IH in E; auto. cbn in E. destruct E; split; congruence.
Qed.
Lemma unmatched_ends s : s_scope s = None -> x_end_section s = Ok 0 (set_errs (s_errs s + 1) (set_msgs (error_end_section_without_section :: s_msgs s) s)).
Proof. intros H. unfold x_end_section, bind, gets, err, modify, ret. rewrite H. reflexivity. Qed.

(** ** Symbol dump *)
Lemma val_insert_perm e l : Permutation (val_insert e l) (e :: l).
Proof.
  induction l as [|x l IH]; cbn [val_insert]; auto. destruct (snd e <? snd x); auto.
  rewrite IH. apply perm_swap.
Qed.
Lemma val_insert_sorted e l : StronglySorted (fun a b => snd a <= snd b) l -> StronglySorted (fun a b : cstr * Z => snd a <= snd b) (val_insert e l).
Proof.
  induction 1 as [|x l S IH F]; cbn [val_insert]; [repeat constructor|].
  destruct (Z.ltb_spec (snd e) (snd x)).
  - constructor; [constructor; auto|]. constructor; [lia|]. eapply Forall_impl; [|exact F]. cbn; intros; lia.
  - constructor; auto. eapply Permutation_Forall; [symmetry; apply val_insert_perm|]. constructor; auto. 
Qed.
Lemma dump_sorted s : StronglySorted (fun a b => snd a <= snd b) (dump_symbols s) /\ Permutation (dump_symbols s) (dump_entries s).
Proof.
  unfold dump_symbols. induction (dump_entries s) as [|e l [IH1 IH2]]; cbn [fold_right]; [split; auto; constructor|].
  split; [apply val_insert_sorted, IH1|]. rewrite val_insert_perm. now constructor.
Qed.

(** what is printed, spelled out *)
Lemma dump_complete s k v : In (k, v) (dump_symbols s) <->
  exists a y, In (k, a) (concat (dtable (s_dict s))) /\ nth_error (s_syms s) a = Some y /\ v = y_value y /\
    y_var y = false /\ y_mparam y = false /\ y_mname y = false /\ y_pm y = false /\ y_local y = false /\
    s_pass s * 2 <= y_times y /\ ~ In 64 (y_name y).
Proof.
  assert (HC : forall n, has_char 64 n = false <-> ~ In 64 n).
  { intros n. split; [|apply has_char_false]. intros H X. unfold has_char in H.
    assert (existsb (fun x => x =? 64) n = true) by (apply existsb_exists; exists 64; auto). congruence. }
  transitivity (In (k, v) (dump_entries s)).
  { destruct (dump_sorted s) as [_ P]. split; intros H; [exact (Permutation_in _ P H)|exact (Permutation_in _ (Permutation_sym P) H)]. }
  unfold dump_entries. rewrite in_map_iff. split.
  - intros ([k' y] & E & H). apply filter_In in H. destruct H as [H D]. cbn [fst snd] in *. injection E as -> <-.
    unfold all_records in H. apply in_flat_map in H. destruct H as ([k1 a] & H1 & H2). cbn [fst snd] in H2.
    destruct (nth_error (s_syms s) a) as [y1|] eqn:Ey; [|destruct H2]. destruct H2 as [H2|[]]. injection H2 as -> ->.
    exists a, y. unfold dumped in D. rewrite !andb_true_iff, !negb_true_iff, Z.leb_le, HC in D. intuition.
  - intros (a & y & H1 & H2 & -> & D). exists (k, y). split; [reflexivity|]. apply filter_In. cbn [fst snd]. split.
    + unfold all_records. apply in_flat_map. exists (k, a). cbn [fst snd]. rewrite H2. split; [auto|left; auto].
    + unfold dumped. rewrite !andb_true_iff, !negb_true_iff, Z.leb_le, HC. intuition.
Qed.

(** ** Deciding [table_ok], for examples *)
Definition elem_okb (size : Z) (len n : nat) (e : cstr * nat) : bool :=
  forallb (fun c => (-128 <=? c) && (c <=? 127) && negb (c =? 0)) (fst e) && (snd e <? len)%nat &&
  Nat.eqb (Z.to_nat (hash_function (fst e) mod size)) n.
Fixpoint nodupb (l : list nat) : bool :=
  match l with [] => true | x :: l => negb (existsb (Nat.eqb x) l) && nodupb l end.
Fixpoint chainsb (size : Z) (len n : nat) (t : list (list (cstr * nat))) : bool :=
  match t with [] => true | c :: t => forallb (elem_okb size len n) c && chainsb size len (S n) t end.
Definition table_okb (s : state) : bool :=
  let d := s_dict s in
  (dsize d =? 1024) && (Z.of_nat (length (dtable d)) =? 1024) && chainsb 1024 (length (s_syms s)) 0 (dtable d) &&
  (dcount d =? Z.of_nat (length (concat (dtable d)))) && (dcount d <? 921) && nodupb (map snd (concat (dtable d))).
Lemma nodupb_ok l : nodupb l = true -> NoDup l.
Proof.
  induction l as [|x l IH]; cbn [nodupb]; intros H; constructor; apply andb_true_iff in H; destruct H as [H1 H2]; auto.
  intros X. apply negb_true_iff in H1. assert (existsb (Nat.eqb x) l = true) by (apply existsb_exists; exists x; split; [auto|apply Nat.eqb_refl]).
  congruence.
Qed.
Lemma chainsb_ok size len h t : forall n, length h = len -> chainsb size len n t = true -> forall m c, nth_error t m = Some c ->
  Forall (elem_ok (V:=symbol) size h (n + m)) c.
Proof.
  intros n L. revert n. induction t as [|c t IH]; intros n H [|m] c' E; cbn in E; try discriminate; cbn [chainsb] in H;
    apply andb_true_iff in H; destruct H as [H1 H2].
  - injection E as <-. rewrite Nat.add_0_r. apply Forall_forall. intros e He. rewrite forallb_forall in H1. specialize (H1 e He).
    unfold elem_okb in H1. rewrite !andb_true_iff, Nat.ltb_lt, Nat.eqb_eq in H1. destruct H1 as [[A B] C].
    split; [|split; [lia|exact C]]. apply Forall_forall. intros z Hz. rewrite forallb_forall in A. specialize (A z Hz).
    split; lia.
  - rewrite <- Nat.add_succ_comm. apply IH; auto.
Qed.
Lemma table_okb_ok s : table_okb s = true -> table_ok s.
Proof.
  unfold table_okb. cbv zeta. rewrite !andb_true_iff, !Z.eqb_eq, Z.ltb_lt. intros [[[[[H1 H2] H3] H4] H5] H6].
  split; [|apply nodupb_ok; exact H6]. split; [|rewrite H1; cbn; exact H5].
  constructor; [exists 0%nat; exact H1|rewrite H1; lia| |exact H4].
  intros n c E. rewrite H1. exact (chainsb_ok _ _ (s_syms s) _ 0%nat eq_refl H3 n c E).
Qed.
Definition singleb (s : state) : bool :=
  (fix go (l : list (cstr * nat)) : bool :=
     match l with [] => true | e :: l => negb (existsb (fun f => streq (fk (fst e)) (fk (fst f))) l) && go l end)
  (concat (dtable (s_dict s))).
Lemma singleb_ok s : singleb s = true -> forall k, single s k.
Proof.
  unfold singleb, single, recs, stackof, vals. intros H k. rewrite map_length. revert H.
  generalize (concat (dtable (s_dict s))). induction l as [|e l IH]; intros H; [cbn; lia|].
  apply andb_true_iff in H. destruct H as [H1 H2]. specialize (IH H2). cbn [filter].
  destruct (matches k e) eqn:M; [|exact IH]. cbn [length]. apply negb_true_iff in H1.
  rewrite filter_none; [cbn; lia|]. intros f Hf. destruct (matches k f) eqn:Mf; auto.
  apply matches_fk in M, Mf. assert (existsb (fun f => streq (fk (fst e)) (fk (fst f))) l = true); [|congruence].
  apply existsb_exists. exists f. split; auto. apply streq_eq. congruence.
Qed.
