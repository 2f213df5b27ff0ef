(** The generic induction of GenX.v for one relation and elementary steps only. *)
From Coq Require Import String Lia.
From Verif Require Import Base Hash Dict Str Opcodes Err State Sym Machine Build Pass GenX.
Open Scope string_scope.
Open Scope list_scope.
Open Scope Z_scope.
Open Scope m_scope.

(** [prs R m s]: if [m] ends (returns or exits) its final state is related to [s] *)
Notation prs R := (prs2 R R).

Record closed (R : state -> state -> Prop) : Prop := mkClosed {
  c_refl : forall s, R s s;
  c_trans : forall a b c, R a b -> R b c -> R a c;
  c_final : forall s s', R s s' -> s_final s' = s_final s;
  c_opened : forall s s', R s s' -> s_opened s' = s_opened s;
  c_orgspec : forall s s', R s s' -> s_org_spec s = true -> s_org_spec s' = true;
  c_err : forall n s, R s (set_errs (s_errs s + 1) (set_msgs (n :: s_msgs s) s));
  c_warn : forall s, s_final s = true -> R s (set_warns (s_warns s + 1) s);
  c_emit : forall b s, s_final s = true -> s_opened s = true -> s_org_spec s = true ->
           R s (set_out (b mod 256 :: s_out s) (set_total (s_total s + 1) s));
  c_delta : forall v s, R s (set_delta v s);
  c_origin : forall v s, R s (set_origin v s);
  c_list : forall r s, s_final s = true -> R s (set_list (r :: s_list s) s);
  c_pstate : forall v s, s_final s = true -> R s (set_pstate v s);
  c_alloc : forall k ops s, R s (set_nodes (s_nodes s ++ [mkNode k ops]) s);
  c_nset : forall n x s, R s (set_nodes (upd n x (s_nodes s)) s);
  c_sym : forall a y y' s, nth_error (s_syms s) a = Some y -> ychg y y' ->
          R s (set_syms (upd a y' (s_syms s)) s);
  c_insert : forall k y s s' a, sym_insert k y s = Ok a s' -> R s s';
  c_setval : forall a v s s', set_symbol_value a v s = Ok tt s' -> R s s';
  c_label : forall v s, R s (set_label v s);
  c_scope : forall v s, R s (set_scope v s);
  c_pc : forall v s, R s (set_pc v s);
  c_set_orgspec : forall s, R s (set_org_spec true s);
  c_org_once : forall s, R s (set_org_once true s);
  c_pc_assigned : forall s, R s (set_pc_assigned (s_pc_assigned s + 1) s);
  c_code_gen : forall v s, R s (set_code_gen v s);
  c_stop : forall s, R s (set_stop true s);
  c_ety : forall v s, R s (set_ety v s);
  c_dsz : forall v s, R s (set_dsz v s);
  c_mpi : forall v s, R s (set_mpi v s);
  c_maxmp : forall v s, s_maxmp s < v -> R s (set_maxmp v s);
  c_forx : forall v s, R s (set_forx v s);
  c_fory : forall v s, R s (set_fory v s);
  c_console : forall l s, R s (set_console (l ++ s_console s) s);
  c_fpush : forall s, R s (set_fstack ((s_file s, s_line s) :: s_fstack s) s);
  c_file : forall v s, R s (set_file v s);
  c_line : forall v s, R s (set_line v s);
  c_input : forall l s, R s (set_input (l :: s_input s) s);
  c_mpush : forall l s, R s (set_mstack (l :: s_mstack s) s);
  c_mpop : forall s, R s (set_mstack (tl (s_mstack s)) s);
  c_pmt : forall m t s, R s (set_pm_table m t s);
  c_changed : forall s, R s (set_changed (s_changed s + 1) s);
  c_mvals : forall v s, R s (set_mvals v s);
  c_mdict : forall v s, R s (set_mdict v s);
  c_soft : forall v s, R s (set_soft (v :: s_soft s) s)
}.

(** further elementary steps of the parser's actions (Build.v) *)
Record closed_build (R : state -> state -> Prop) : Prop := mkClosedB {
  b_macdef : forall v s, R s (set_macdef v s);
  b_c02 : forall v s, R s (set_c02 v s);
  b_ill : forall v s, R s (set_ill v s);
  b_c64 : forall s, R s (set_c64 true s)
}.

(** and of the reading of the input (Pass.v) *)
Record closed_pass (R : state -> state -> Prop) : Prop := mkClosedP {
  p_input : forall v s, R s (set_input v s);
  p_fpop : forall v s, R s (set_fstack v s);
  p_ifs : forall v s, R s (set_ifs v s);
  p_skip : forall v s, R s (set_skip v s)
}.

Lemma closed_steps R : closed R -> steps R R.
Proof. intros C; destruct C; constructor; eauto. Qed.
Lemma closed_b R : closed R -> closed_build R -> steps_build R.
Proof. intros C B; destruct B; constructor; eauto. intros; apply (c_line _ C). Qed.
Lemma closed_p R : closed_pass R -> steps_cond R.
Proof. intros C; destruct C; constructor; eauto. Qed.
Lemma closed_compound R : closed R -> compound R R.
Proof.
  intros C. pose proof (closed_steps R C) as S. constructor.
  - apply include_steps; auto; apply C.
  - intros; apply macro_steps; auto; apply C.
  - intros; apply for_reg_steps; auto; apply C.
Qed.
Global Hint Resolve closed_steps closed_b closed_p closed_compound : prs.

Section Top.
Variable R : state -> state -> Prop.
Hypothesis C : closed R.
Let S := closed_steps R C.
Lemma expand_prs fuel p s : prs R (expand fuel p) s.
Proof. apply expand_prs2; auto with prs. Qed.
Hypothesis CB : closed_build R.
Lemma run_line_prs F l s : prs R (run_line (expand F) l) s.
Proof. apply run_line_prs2; auto with prs. Qed.
Hypothesis CP : closed_pass R.
Lemma read_line_prs F l s : prs R (read_line F l) s.
Proof. apply read_line_prs2; auto with prs. Qed.
Lemma prs_end_of_file s : prs R end_of_file s.
Proof.
  unfold end_of_file. apply prs_modifyk; [exact S|apply (c_line _ C)|intros _]. apply prs_gets.
  match goal with |- prs2 _ _ (bind (when ?f _) _) ?st => destruct f eqn:E end; cbn [when].
  - apply prs_bind; [exact S|apply prs_list_null; auto|]. intros a s1 _ R1.
    apply prs_modifyk; [exact S|apply (p_input _ CP)|intros R2]. apply prs_gets.
    match goal with |- context [match ?x with _ => _ end] => destruct x as [|[f l] st] end; [apply (prs_ret _ _ S)|].
    apply prs_modifyk; [exact S|apply (p_fpop _ CP)|intros R3].
    apply prs_modifyk; [exact S|apply (c_file _ C)|intros R4].
    apply prs_modifyk; [exact S|apply (c_line _ C)|intros R5]. apply prs_list_null; auto.
    rewrite (c_final _ C _ _ R5), (c_final _ C _ _ R4), (c_final _ C _ _ R3), (c_final _ C _ _ R2), (c_final _ C _ _ R1). exact E.
  - apply prs_bind; [exact S|apply (prs_ret _ _ S)|]. intros a s1 _ R1.
    apply prs_modifyk; [exact S|apply (p_input _ CP)|intros R2]. apply prs_gets.
    match goal with |- context [match ?x with _ => _ end] => destruct x as [|[f l] st] end; [apply (prs_ret _ _ S)|].
    apply prs_modifyk; [exact S|apply (p_fpop _ CP)|intros R3].
    apply prs_modifyk; [exact S|apply (c_file _ C)|intros R4].
    apply prs_modifyk; [exact S|apply (c_line _ C)|intros R5]. apply (prs_ret _ _ S).
Qed.
Lemma parse_input_prs F fuel s : prs R (parse_input F fuel) s.
Proof.
  revert s; induction fuel; intros; cbn [parse_input]; [exact I|].
  apply prs_gets. destruct (s_input s) as [|[|l ls] rest]; [apply (prs_ret _ _ S)| |].
  - apply prs_bind; [exact S|apply prs_end_of_file|auto].
  - apply prs_modifyk; [exact S|apply (p_input _ CP)|intros _].
    apply prs_bind; [exact S|apply read_line_prs|]. intros [u|] s' _ _; [apply IHfuel|].
    apply prs_bind; [exact S|apply (prs_err _ _ S)|]. intros. apply prs_modify. apply (p_input _ CP).
Qed.
Lemma parse_file_prs F n s : prs R (parse_file F n) s.
Proof.
  unfold parse_file. apply prs_modifyk; [exact S|apply (c_line _ C)|intros _].
  apply prs_modifyk; [exact S|apply (c_file _ C)|intros _]. apply prs_gets.
  destruct (g_files _ _).
  - apply prs_modifyk; [exact S|apply (p_input _ CP)|intros _]. apply prs_gets. unfold when.
    match goal with |- prs2 _ _ (bind (if ?f then _ else _) _) ?st => destruct f eqn:E end.
    + apply prs_bind; [exact S|apply prs_list_null; auto|]. intros a s1 _ R1.
      apply prs_bind; [exact S|apply parse_input_prs|]. intros a2 s2 _ R2. apply prs_list_null; auto.
      rewrite (c_final _ C _ _ R2), (c_final _ C _ _ R1). exact E.
    + apply prs_bind; [exact S|apply (prs_ret _ _ S)|]. intros. apply prs_bind; [exact S|apply parse_input_prs|].
      intros; apply (prs_ret _ _ S).
  - apply prs_bind; [exact S|apply (prs_err _ _ S)|]. intros. apply (prs_exit _ _ S).
Qed.
Lemma parse_files_prs F l s : prs R (parse_files F l) s.
Proof.
  revert s; induction l; intros; cbn [parse_files]; [apply (prs_ret _ _ S)|].
  apply prs_bind; [exact S|apply parse_file_prs|auto].
Qed.
End Top.
