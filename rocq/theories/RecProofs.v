(** The list records a line of source makes carry the number of that line. *)
From Coq Require Import String Lia.
From Verif Require Import Base BaseProofs Hash Dict Str Opcodes Err State Sym Machine Build Pass GenX Gen Inv.
Open Scope string_scope.
Open Scope list_scope.
Open Scope Z_scope.
Open Scope m_scope.

(** as long as no file is included *)
Definition Rrec (v : Z) (s s' : state) : Prop :=
  (length (s_fstack s) <= length (s_fstack s'))%nat /\
  (length (s_fstack s') = length (s_fstack s) -> s_line s = v ->
   s_line s' = v /\ exists k, s_list s' = k ++ s_list s /\ Forall (fun r => l_line r = v) k).
Lemma Rrec_quiet v s s' : s_fstack s' = s_fstack s -> s_line s' = s_line s -> s_list s' = s_list s -> Rrec v s s'.
Proof.
  intros E1 E2 E3. split; [rewrite E1; lia|]. intros _ L. split; [congruence|]. exists []. split; [exact E3|constructor].
Qed.
Lemma Rrec_trans v a b c : Rrec v a b -> Rrec v b c -> Rrec v a c.
Proof.
  intros [A1 A2] [B1 B2]. split; [lia|]. intros E L. destruct (A2 ltac:(lia) L) as (L1 & k & K1 & K2).
  destruct (B2 ltac:(lia) L1) as (L2 & k' & K3 & K4). split; [exact L2|]. exists (k' ++ k). split; [rewrite K3, K1, app_assoc; reflexivity|].
  apply Forall_app. auto.
Qed.
Section Line.
Variable v : Z.
Notation R := (with_fix (Rrec v)).
Notation X := (fun _ _ : state => True).
Lemma rec_steps : steps R X.
Proof.
  pose proof Rfix_closed as K; destruct K; constructor; unfold with_fix;
  [ intros; split; [auto|apply Rrec_quiet; reflexivity]
  | intros a b c [H1 H2] [H3 H4]; split; [eauto|eapply Rrec_trans; eauto]
  | auto | auto
  | intros ? ? [? ?]; solve [eauto 2]
  | intros ? ? [? ?]; solve [eauto 2]
  | intros ? ? [? ?]; solve [eauto 2]
  | .. ];
  intros; (split; [solve [eauto 2]|]); clo0; try solve [apply Rrec_quiet; reflexivity].
  split; [cbn; lia|]. intros _ L. split; [exact L|]. exists [mkLrec (s_file s) (s_line s) (s_pstate s) dir b]. split; [reflexivity|]. constructor; [exact L|constructor].
Qed.
Lemma rec_include file s : prs2 R X (open_include_file file) s.
Proof.
  unfold prs2. destruct (open_include_file file s) as [a s'| | |] eqn:E; auto.
  assert (Z : s_cfg s' = s_cfg s /\ s_final s' = s_final s /\ s_pass s' = s_pass s /\ s_opened s' = s_opened s /\ s_gen s' = s_gen s /\
    s_org_spec s' = s_org_spec s /\ s_stop s' = s_stop s /\ length (s_fstack s') = S (length (s_fstack s))).
  { unfold open_include_file, list_null, add_list, when, bind, gets, modify, ret, err, exit_ in E.
    destruct (s_final s) eqn:F; cbn in E; rewrite ?F in E; destruct (g_files _ _); try discriminate; injection E as <- <-; cbn; auto 10. }
  destruct Z as (Z1 & Z2 & Z3 & Z4 & Z5 & Z6 & Z7 & Z8). split.
  - unfold Rfix. rewrite Z6, Z7. auto 10.
  - split; [lia|]. intros Y. lia.
Qed.
Lemma rec_compound : compound R X.
Proof.
  pose proof rec_steps as S. pose proof Rfix_closed as K. constructor.
  - exact rec_include.
  - intros. apply macro_steps; auto.
    + intros l s0. split; [apply (c_mpush _ K)|apply Rrec_quiet; reflexivity].
    + intros s0. split; [apply (c_mpop _ K)|apply Rrec_quiet; reflexivity].
  - intros. apply for_reg_steps; auto.
    + intros l s0. split; [apply (c_forx _ K)|apply Rrec_quiet; reflexivity].
    + intros s0 s1. split; [apply (c_fory _ K)|apply Rrec_quiet; reflexivity].
Qed.
Lemma rec_build : steps_build_on (eq v) R.
Proof.
  pose proof Rfix_build as K. constructor; intros; (split; [first [solve [apply K]|apply (c_line _ Rfix_closed)]|]); try (apply Rrec_quiet; reflexivity).
  subst. split; [cbn; lia|]. intros _ L. split; [reflexivity|]. exists []. split; [reflexivity|constructor].
Qed.
End Line.

Lemma run_line_again ex l s : run_line ex l (set_line (t_line l) s) = run_line ex l s.
Proof. unfold run_line, bind, modify. reflexivity. Qed.
(** lines that have no lines within *)
Lemma plain_in P st : sub_lines st = [] -> stmt_in P st.
Proof.
  intros H. constructor; [rewrite H; constructor|]. assert (E : sub_stmts st = []); [|rewrite E; constructor].
  destruct st; cbn [sub_lines sub_stmts] in *; auto; try (apply map_eq_nil in H; subst; reflexivity).
  destruct els; [apply app_eq_nil in H as [H1 H2]; apply map_eq_nil in H1, H2; subst; reflexivity|apply map_eq_nil in H; subst; reflexivity].
Qed.
Lemma run_line_recs F l s a s' : sub_lines (t_stmt l) = [] -> run_line (expand F) l s = Ok a s' -> length (s_fstack s') = length (s_fstack s) ->
  s_line s' = t_line l /\ exists k, s_list s' = k ++ s_list s /\ Forall (fun r => l_line r = t_line l) k.
Proof.
  intros Hl E Fs. rewrite <- run_line_again in E.
  pose proof (run_line_prs_on (eq (t_line l)) _ _ (rec_steps _) (rec_compound _) (rec_build _) F l (set_line (t_line l) s)) as H.
  unfold prs2 in H. rewrite E in H. destruct H as [_ [_ H]]; [split; [reflexivity|apply plain_in, Hl]|].
  destruct (H Fs eq_refl) as (L & k & K1 & K2). split; [exact L|]. exists k. split; [exact K1|exact K2].
Qed.
