(** Names never leave the symbol table, and what that means for .IFDEF and .IFNDEF from the second pass on. *)
From Coq Require Import String Lia.
From Verif Require Import Base BaseProofs Hash HashProofs Dict DictProofs Str Opcodes Err State Sym Machine Build Pass SymProofs PassProofs Inv GenX Gen IfDef IfdefPass.
Open Scope string_scope.
Open Scope list_scope.
Open Scope Z_scope.

(** every record is in the chain of its key and has its value in memory; no condition on the keys *)
Definition placed (d : dict) (n : nat) : Prop :=
  0 < dsize d /\ List.length (dtable d) = Z.to_nat (dsize d) /\
  forall i c, nth_error (dtable d) i = Some c -> Forall (fun e => (snd e < n)%nat /\ slot d (fst e) = i) c.
Definition keys (d : dict) : list cstr := map fst (concat (dtable d)).
(** a record was made under this name, in some spelling *)
Definition entered (s : state) (name : cstr) : Prop := exists k, In k (keys (s_dict s)) /\ valids k /\ fk k = fk name.

Lemma in_keys d k : In k (keys d) <-> exists i c a, nth_error (dtable d) i = Some c /\ In (k, a) c.
Proof.
  unfold keys. rewrite in_map_iff. split.
  - intros ([k1 a] & E & H). cbn in E. subst. apply in_concat in H. destruct H as (c & H1 & H2). apply In_nth_error in H1. destruct H1 as [i H1]. eauto.
  - intros (i & c & a & H1 & H2). exists (k, a). split; [reflexivity|]. apply in_concat. exists c. split; [eapply nth_error_In; eauto|exact H2].
Qed.

Lemma slot_bound d k : 0 < dsize d -> (slot d k < Z.to_nat (dsize d))%nat.
Proof. intros H. unfold slot. pose proof (Z.mod_pos_bound (hash_function k) (dsize d) H). lia. Qed.

Lemma raw_placed (V : Type) d (h : list V) k v d' h' a : placed d (List.length h) -> dict_insert_raw d h k v = (d', h', a) ->
  placed d' (List.length h') /\ dsize d' = dsize d /\ List.length h' = S (List.length h) /\ (forall x, In x (keys d') <-> x = k \/ In x (keys d)).
Proof.
  intros (P & L & Q) E. unfold dict_insert_raw in E. injection E as <- <- <-. rewrite app_length. cbn [List.length].
  pose proof (slot_bound d k P) as B. set (n := slot d k) in *. set (c := chain d n).
  assert (Nc : nth_error (dtable d) n = Some c) by (unfold c, chain; apply nth_error_nth'; lia).
  split; [|split; [reflexivity|split; [lia|]]].
  - split; [exact P|]. cbn [dsize dtable]. rewrite upd_length. split; [exact L|].
    intros i ch Hi. destruct (Nat.eq_dec i n) as [->|Ne].
    + rewrite upd_nth_eq in Hi by lia. injection Hi as <-. constructor; [cbn; split; [lia|reflexivity]|].
      eapply Forall_impl; [|apply (Q _ _ Nc)]. cbn. intros e [A A2]. split; [lia|exact A2].
    + rewrite upd_nth_ne in Hi by auto. eapply Forall_impl; [|apply (Q _ _ Hi)]. cbn. intros e [A A2]. split; [lia|exact A2].
  - intros x. rewrite !in_keys. cbn [dtable]. split.
    + intros (i & ch & a & H1 & H2). destruct (Nat.eq_dec i n) as [->|Ne].
      * rewrite upd_nth_eq in H1 by lia. injection H1 as <-. destruct H2 as [H2|H2]; [injection H2 as -> _; auto|]. right. eauto.
      * rewrite upd_nth_ne in H1 by auto. right. eauto.
    + intros [->|(i & ch & a & H1 & H2)].
      * exists n. eexists. exists (List.length h). rewrite upd_nth_eq by lia. split; [reflexivity|left; reflexivity].
      * destruct (Nat.eq_dec i n) as [->|Ne].
        -- exists n. eexists. exists a. rewrite upd_nth_eq by lia. split; [reflexivity|]. right. rewrite Nc in H1. injection H1 as ->. exact H2.
        -- exists i, ch, a. rewrite upd_nth_ne by auto. auto.
Qed.

Lemma reinsert_placed (V : Type) : forall es d (h : list V) d' h', placed d (List.length h) -> Forall (fun e => (snd e < List.length h)%nat) es ->
  reinsert es d h = (d', h') ->
  placed d' (List.length h') /\ (List.length h <= List.length h')%nat /\ (forall x, In x (keys d') <-> In x (map fst es) \/ In x (keys d)).
Proof.
  induction es as [|[k a] es IH]; intros d h d' h' P A E; cbn [reinsert] in E.
  - injection E as <- <-. split; [exact P|]. split; [lia|]. intros x. cbn. tauto.
  - inversion A as [|? ? A1 A2]; subst. cbn in A1.
    destruct (nth_error h a) as [v|] eqn:N; [|apply nth_error_None in N; lia].
    destruct (dict_insert_raw d h k v) as [[d1 h1] a1] eqn:R.
    destruct (raw_placed _ _ _ _ _ _ _ _ P R) as (P1 & _ & L1 & K1).
    destruct (IH d1 h1 d' h' P1) as (P2 & L2 & K2); [|exact E|].
    { eapply Forall_impl; [|exact A2]. cbn. intros. lia. }
    split; [exact P2|]. split; [lia|]. intros x. rewrite K2, K1. cbn. intuition.
Qed.

Lemma create_placed n m : 0 < n -> placed (dict_create_sz n) m /\ keys (dict_create_sz n) = [].
Proof.
  intros H. split.
  - split; [exact H|]. split; [apply repeat_length|]. intros i c E. cbn in E. apply nth_error_In, repeat_spec in E. subst. constructor.
  - unfold keys. cbn [dict_create_sz dtable]. replace (concat (repeat [] (Z.to_nat n))) with (@nil (cstr * nat)); [reflexivity|].
    induction (Z.to_nat n); cbn; auto.
Qed.

Lemma insert_placed (V : Type) d (h : list V) k v d' h' a : placed d (List.length h) -> dict_insert d h k v = (d', h', a) ->
  placed d' (List.length h') /\ (forall x, In x (keys d') <-> x = k \/ In x (keys d)).
Proof.
  intros P E. unfold dict_insert in E. destruct (dict_insert_raw d h k v) as [[d1 h1] a1] eqn:R.
  destruct (raw_placed _ _ _ _ _ _ _ _ P R) as (P1 & S1 & _ & K1). destruct (over_load d1); [|injection E as <- <- _; auto].
  destruct (dict_grow d1 h1) as [d2 h2] eqn:G. injection E as <- <- _. unfold dict_grow in G.
  destruct (create_placed (dsize d1 * growth_factor) (List.length h1)) as [C1 C2].
  { destruct P1 as (P1 & _). unfold growth_factor. lia. }
  assert (A : Forall (fun e => (snd e < List.length h1)%nat) (concat (dtable d1))).
  { apply Forall_forall. intros [k1 b] H. apply in_concat in H. destruct H as (c & H1 & H2). apply In_nth_error in H1. destruct H1 as [i H1].
    destruct P1 as (_ & _ & Q). specialize (Q _ _ H1). rewrite Forall_forall in Q. apply (Q _ H2). }
  destruct (reinsert_placed _ _ _ _ _ _ C1 A G) as (P2 & _ & K2). split; [exact P2|]. intros x. rewrite K2, C2. fold (keys d1). cbn. rewrite K1. tauto.
Qed.

(** a name that was entered is found *)
Lemma entered_found d n k name : placed d n -> In k (keys d) -> valids k -> valids name -> fk k = fk name -> dict_search d name <> None.
Proof.
  intros (P & L & Q) H Vk Vn E. apply in_keys in H. destruct H as (i & c & a & H1 & H2).
  pose proof (Q _ _ H1) as F. rewrite Forall_forall in F. destruct (F _ H2) as [_ S]. cbn in S.
  assert (Hh : slot d name = i). { rewrite <- S. unfold slot. f_equal. f_equal. symmetry. apply hash_function_fold; auto. }
  unfold dict_search. rewrite Hh. unfold chain. rewrite (nth_error_nth _ _ [] H1). clear H1 Q F Hh.
  induction c as [|[k1 b] c IH]; [destruct H2|]. cbn [find_chain]. destruct H2 as [H2|H2].
  - injection H2 as -> ->. assert (Z : stricmp k name = 0) by (apply stricmp_0_iff; auto). rewrite Z. discriminate.
  - destruct (stricmp k1 name =? 0); [discriminate|]. auto.
Qed.

(** ** nothing the assembler does takes a name out *)
Definition Rnames (s s' : state) : Prop :=
  (placed (s_dict s) (List.length (s_syms s)) -> placed (s_dict s') (List.length (s_syms s')) /\ forall k, In k (keys (s_dict s)) -> In k (keys (s_dict s'))) /\
  s_final s' = s_final s /\ s_opened s' = s_opened s /\ (s_org_spec s = true -> s_org_spec s' = true).
Lemma Rnames_closed : closed Rnames.
Proof.
  constructor; unfold Rnames; intros; cbn [s_dict s_syms s_final s_opened s_org_spec set_syms set_nodes]; rewrite ?upd_length; auto 8; try tauto.
  - intuition (try congruence; eauto).
  - apply sym_insert_inv in H. destruct H as (d & h & y' & E & _ & ->).
    cbn [s_dict s_syms s_final s_opened s_org_spec set_syms set_dict]. rewrite upd_length. split; [|auto].
    intros P. destruct (insert_placed _ _ _ _ _ _ _ _ P E) as [P1 K]. split; [exact P1|]. intros x Hx. apply K. auto.
  - destruct (nth_error (s_syms s) a) as [y|] eqn:Y; [|unfold set_symbol_value, sym_get, gets, bind in H; rewrite Y in H; discriminate].
    destruct (set_symbol_value_spec a v s y Y) as (s1 & E & D). rewrite E in H. injection H as <-.
    destruct D as [(-> & _)|[(-> & _)|(_ & _ & ->)]]; auto. cbv zeta.
    destruct (y_mparam y || y_var y); cbn [s_dict s_syms s_final s_opened s_org_spec set_syms set_changed]; rewrite upd_length; auto.
  - destruct m; cbn; auto.
Qed.
Lemma Rnames_build : closed_build Rnames.
Proof. constructor; unfold Rnames; intros; cbn; auto 8. Qed.
Lemma Rnames_pass : closed_pass Rnames.
Proof. constructor; unfold Rnames; intros; cbn; auto 8. Qed.

(** ** through the passes *)
Definition sound (s : state) : Prop := placed (s_dict s) (List.length (s_syms s)).
Definition keeps (s s' : state) : Prop := sound s -> sound s' /\ forall k, In k (keys (s_dict s)) -> In k (keys (s_dict s')).
Lemma keeps_refl s : keeps s s.
Proof. intros H. auto. Qed.
Lemma keeps_trans a b c : keeps a b -> keeps b c -> keeps a c.
Proof. intros H G S. destruct (H S) as [S1 K1]. destruct (G S1) as [S2 K2]. auto. Qed.
Lemma keeps_same s s' : s_dict s' = s_dict s -> s_syms s' = s_syms s -> keeps s s'.
Proof. intros D Y S. unfold sound. rewrite D, Y. auto. Qed.
Lemma keeps_entered s s' n : keeps s s' -> sound s -> entered s n -> entered s' n.
Proof. intros K S (k & I & V & E). exists k. split; [apply K; auto|auto]. Qed.

Lemma pass_keeps F s s' : parse_pass F s = Ok tt s' -> keeps s s'.
Proof.
  unfold parse_pass, bind, modify, gets. intros E.
  destruct (parse_files F _ _) as [[] s1| | |] eqn:P; try discriminate. injection E as <-.
  pose proof (parse_files_prs _ Rnames_closed Rnames_build Rnames_pass F (g_inputs (s_cfg (reset_lex s))) (reset_lex s)) as X.
  unfold prs, prs2 in X. rewrite P in X. eapply keeps_trans; [apply keeps_same|]; [..|eapply keeps_trans; [exact (proj1 X)|]]; try reflexivity.
  apply keeps_same; reflexivity.
Qed.

Lemma loop_keeps F : forall k s b s', pass_loop F k s = Ok b s' -> keeps s s'.
Proof.
  induction k as [|k IH]; intros s b s' E; [discriminate|]. rewrite pass_loop_S in E.
  destruct (parse_pass F s) as [[] s1| | |] eqn:P; try discriminate. apply pass_keeps in P.
  cbv zeta in E. destruct (_ && _ && _) in E.
  - apply IH in E. eapply keeps_trans; [exact P|]. eapply keeps_trans; [|exact E]. apply keeps_same; reflexivity.
  - assert (Q : set_pass (s_pass s1 + 1) s1 = s') by congruence. rewrite <- Q. eapply keeps_trans; [exact P|]. apply keeps_same; reflexivity.
Qed.

(** the states in which the reader of one input stands, before each line and at the end of each file *)
Inductive reading (F : nat) : state -> state -> Prop :=
| rd_here s : reading F s s
| rd_eof s r s1 s2 : s_input s = [] :: r -> end_of_file s = Ok tt s1 -> reading F s1 s2 -> reading F s s2
| rd_line s l ls r s1 s2 : s_input s = (l :: ls) :: r -> read_line F l (set_input (ls :: r) s) = Ok (Some tt) s1 -> reading F s1 s2 -> reading F s s2.

Lemma reading_keeps F s s' : reading F s s' -> keeps s s'.
Proof.
  induction 1 as [s|s r s1 s2 I E _ IH|s l ls r s1 s2 I E _ IH]; [apply keeps_refl| |].
  - pose proof (prs_end_of_file _ Rnames_closed Rnames_pass s) as X. unfold prs, prs2 in X. rewrite E in X.
    eapply keeps_trans; [exact (proj1 X)|exact IH].
  - pose proof (read_line_prs _ Rnames_closed Rnames_build Rnames_pass F l (set_input (ls :: r) s)) as X. unfold prs, prs2 in X. rewrite E in X.
    eapply keeps_trans; [apply (keeps_same s (set_input (ls :: r) s)); reflexivity|]. eapply keeps_trans; [exact (proj1 X)|exact IH].
Qed.

Lemma sound_stored s : sound s -> stored s.
Proof.
  intros (P & L & Q) k a H. unfold dict_search, chain in H.
  pose proof (slot_bound _ k P) as B. assert (N : nth_error (dtable (s_dict s)) (slot (s_dict s) k) = Some (nth (slot (s_dict s) k) (dtable (s_dict s)) [])) by (apply nth_error_nth'; lia).
  apply Q in N. revert N H. generalize (nth (slot (s_dict s) k) (dtable (s_dict s)) []). intros c.
  induction c as [|[k1 b] c IH]; intros N H; [discriminate|]. inversion N; subst. cbn [find_chain] in H.
  destruct (stricmp k1 k =? 0); [injection H as <-; cbn in *; tauto|]. auto.
Qed.

Lemma entered_test s neg n : sound s -> valids n -> entered s n -> test s neg n = negb neg.
Proof.
  intros S V (k & I & Vk & E). pose proof (entered_found _ _ _ _ S I Vk V E) as D.
  assert (Fd : found s n = true) by (unfold found; destruct (dict_search (s_dict s) n); congruence).
  unfold test, in_table. rewrite Fd. destruct (s_scope s), neg; rewrite ?orb_true_r; reflexivity.
Qed.

Lemma guard_lost F name body n rest up s0 s : sound s0 -> valids name -> entered s0 name -> reading F s0 s ->
  reads s [] ((conditional true name body None n ++ rest) :: up) ->
  exists s', goes_on F s s' /\ only_read s s' /\ reads s' [] (rest :: up).
Proof.
  intros S V N R I. pose proof (reading_keeps _ _ _ R) as K.
  assert (S1 : sound s) by (apply K, S). assert (N1 : entered s name) by (eapply keeps_entered; eauto).
  destruct (enter_else F true name body None n rest up s (sound_stored _ S1) I) as (s' & G & O & T).
  { rewrite (entered_test s true name S1 V N1). reflexivity. }
  exists s'. auto.
Qed.
Lemma taken F name th el n rest up s0 s : sound s0 -> valids name -> entered s0 name -> reading F s0 s ->
  reads s [] ((conditional false name th el n ++ rest) :: up) ->
  exists s', goes_on F s s' /\ only_read s s' /\ reads s' [0] ((map SrcLine th ++ otherwise el ++ SrcEndif n :: rest) :: up).
Proof.
  intros S V N R I. pose proof (reading_keeps _ _ _ R) as K.
  assert (S1 : sound s) by (apply K, S). assert (N1 : entered s name) by (eapply keeps_entered; eauto).
  apply (enter_then F false name th el n rest up s (sound_stored _ S1) I). rewrite (entered_test s false name S1 V N1). reflexivity.
Qed.

Lemma table_sound s : DWF s -> sound s.
Proof.
  intros [[[p P] L E C] _]. split; [rewrite P; lia|]. split; [exact L|]. intros i c H. apply E in H.
  eapply Forall_impl; [|exact H]. intros e (A & B & D). split; [exact B|exact D].
Qed.
Lemma search_entered s k a : sound s -> dict_search (s_dict s) k = Some a -> (forall k1, In k1 (keys (s_dict s)) -> valids k1) -> valids k -> entered s k.
Proof.
  intros (P & L & Q) H A V. unfold dict_search, chain in H. pose proof (slot_bound _ k P) as B.
  assert (N : nth_error (dtable (s_dict s)) (slot (s_dict s) k) = Some (nth (slot (s_dict s) k) (dtable (s_dict s)) [])) by (apply nth_error_nth'; lia).
  revert H. generalize (fun k1 a1 H => proj2 (in_keys (s_dict s) k1) (ex_intro _ _ (ex_intro _ _ (ex_intro _ a1 (conj N H))))).
  clear N. generalize (nth (slot (s_dict s) k) (dtable (s_dict s)) []). intros c In1 H.
  induction c as [|[k1 b] c IH]; [discriminate|]. cbn [find_chain] in H. destruct (stricmp k1 k =? 0) eqn:Z.
  - pose proof (In1 k1 b (or_introl eq_refl)) as I1. exists k1. split; [exact I1|]. split; [auto|]. apply Z.eqb_eq in Z. apply stricmp_0_iff in Z; auto.
  - apply IH; [|exact H]. intros. eapply In1. right. eauto.
Qed.
