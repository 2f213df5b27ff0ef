(** The same induction for the front end alone: the parser's actions (Build.v) and the reading of lines (Pass.v),
    with only the elementary steps those actions take themselves; what expansion does is a parameter. *)
From Coq Require Import String Lia.
From Verif Require Import Base Hash Dict Str Opcodes Err State Sym Machine Build Pass GenX Gen.
Open Scope string_scope.
Open Scope list_scope.
Open Scope Z_scope.
Open Scope m_scope.

Inductive yfront : symbol -> symbol -> Prop :=
| FTimes y : yfront y (y_times_inc y)
| FLabel y : yfront y (y_set_label true y)
| FMname y : yfront y (y_set_mname y).

Record front (R : state -> state -> Prop) : Prop := mkFront {
  c_refl : forall s, R s s;
  c_trans : forall a b c, R a b -> R b c -> R a c;
  c_err : forall n s, R s (set_errs (s_errs s + 1) (set_msgs (n :: s_msgs s) s));
  c_alloc : forall k ops s, R s (set_nodes (s_nodes s ++ [mkNode k ops]) s);
  c_nset : forall n x s, R s (set_nodes (upd n x (s_nodes s)) s);
  c_sym : forall a y y' s, nth_error (s_syms s) a = Some y -> yfront y y' -> R s (set_syms (upd a y' (s_syms s)) s);
  c_label : forall v s, R s (set_label v s);
  c_line : forall v s, R s (set_line v s);
  c_file : forall v s, R s (set_file v s);
  c_lnull : forall s s', list_null s = Ok tt s' -> R s s';
  b_macdef : forall v s, R s (set_macdef v s);
  b_c02 : forall v s, R s (set_c02 v s);
  b_ill : forall v s, R s (set_ill v s);
  b_c64 : forall s, R s (set_c64 true s);
  p_input : forall v s, R s (set_input v s);
  p_fpop : forall v s, R s (set_fstack v s);
  p_ifs : forall v s, R s (set_ifs v s);
  p_skip : forall v s, R s (set_skip v s)
}.

Section Walk.
Variable R : state -> state -> Prop.
Hypothesis C : front R.

Lemma prs_ret {A} (a : A) s : prs R (ret a) s.
Proof. apply (c_refl _ C). Qed.
Lemma prs_ub {A} u s : prs2 R R (A := A) (ub u) s. Proof. exact I. Qed.
Lemma prs_nofuel {A} s : prs2 R R (A := A) nofuel s. Proof. exact I. Qed.
Lemma prs_exit {A} c s : prs2 R R (A := A) (exit_ c) s.
Proof. apply (c_refl _ C). Qed.
Lemma prs_bind {A B} (m : M A) (k : A -> M B) s :
  prs R m s -> (forall a s', m s = Ok a s' -> R s s' -> prs R (k a) s') -> prs R (bind m k) s.
Proof.
  unfold prs2, bind; intros Hm Hk. destruct (m s) as [a s'|c s'| |] eqn:E; try exact I; auto.
  specialize (Hk a s' eq_refl Hm). destruct (k a s'); auto; eapply (c_trans _ C); eauto.
Qed.
Lemma prs_gets {A B} (f : state -> A) (k : A -> M B) s : prs R (k (f s)) s -> prs R (bind (gets f) k) s.
Proof. auto. Qed.
Lemma prs_gets0 {A} (f : state -> A) s : prs R (gets f) s.
Proof. apply (c_refl _ C). Qed.
Lemma prs_modify f s : R s (f s) -> prs R (modify f) s.
Proof. auto. Qed.
Lemma prs_modifyk {B} f (k : unit -> M B) s :
  R s (f s) -> (R s (f s) -> prs R (k tt) (f s)) -> prs R (bind (modify f) k) s.
Proof. intros H1 H2. apply prs_bind; auto. intros [] s' E. unfold modify in E. injection E as <-. auto. Qed.
Lemma prs_node_get n s : prs R (node_get n) s.
Proof. unfold node_get, gets, bind, prs2. destruct (nth_error _ _); [apply (c_refl _ C)|exact I]. Qed.
Lemma prs_sym_get n s : prs R (sym_get n) s.
Proof. unfold sym_get, gets, bind, prs2. destruct (nth_error _ _); [apply (c_refl _ C)|exact I]. Qed.
Lemma prs_symk {B} a (k : symbol -> M B) s :
  (forall y, nth_error (s_syms s) a = Some y -> prs R (k y) s) -> prs R (bind (sym_get a) k) s.
Proof.
  intros H. apply prs_bind; [apply prs_sym_get|]. intros y s' E _. apply sym_get_inv in E. destruct E as [-> E]. auto.
Qed.
Lemma prs_nodek {B} a (k : node -> M B) s :
  (forall y, nth_error (s_nodes s) a = Some y -> prs R (k y) s) -> prs R (bind (node_get a) k) s.
Proof.
  intros H. unfold node_get, gets, bind, prs2 in *. destruct (nth_error _ _) eqn:E; [|exact I]. apply (H _ eq_refl).
Qed.
Lemma prs_let {A T} (v : T) (k : T -> M A) s : (forall y, y = v -> prs R (k y) s) -> prs R (let x := v in k x) s.
Proof. intros H; apply H; reflexivity. Qed.
Lemma prs_node_set n x s : prs R (node_set n x) s.
Proof. apply prs_modify, (c_nset _ C). Qed.
Lemma prs_alloc k ops s : prs R (alloc k ops) s.
Proof. unfold alloc. apply prs_gets, prs_modifyk; [apply (c_alloc _ C)|intros; apply prs_ret]. Qed.
Lemma prs_sym_set a y y' s : nth_error (s_syms s) a = Some y -> yfront y y' -> prs R (sym_set a y') s.
Proof. intros; apply prs_modify. eapply (c_sym _ C); eauto. Qed.
Lemma prs_err n s : prs R (err n) s. Proof. apply prs_modify, (c_err _ C). Qed.
Lemma prs_op_code i m s : prs R (op_code i m) s. Proof. apply prs_gets0. Qed.
Lemma prs_lnull s : prs R list_null s.
Proof. unfold prs2. destruct (list_null s) as [[] s'|c s'| |] eqn:E; try exact I; [eapply (c_lnull _ C); eauto|]. revert E. unfold list_null, add_list, bind, gets, when, modify, ret. repeat destruct (_ && _); repeat destruct (if _ then _ else _); try discriminate. Qed.

Ltac bools := repeat match goal with
  | H : _ && _ = true |- _ => apply andb_true_iff in H; destruct H
  | H : negb _ = false |- _ => apply negb_false_iff in H
  | H : negb _ = true |- _ => apply negb_true_iff in H
  | H : _ || _ = false |- _ => apply orb_false_iff in H; destruct H
  end.
Ltac prim :=
  cbv beta;
  match goal with
  | |- R _ (set_errs _ _) => apply (c_err _ C)
  | |- R _ (set_label _ _) => apply (c_label _ C)
  | |- R _ (set_line _ _) => apply (c_line _ C)
  | |- R _ (set_file _ _) => apply (c_file _ C)
  end.
Ltac leaf :=
  match goal with
  | |- prs _ (ret _) _ => apply prs_ret
  | |- prs _ (gets _) _ => apply prs_gets0
  | |- prs _ (node_get _) _ => apply prs_node_get
  | |- prs _ (sym_get _) _ => apply prs_sym_get
  | |- prs _ (node_set _ _) _ => apply prs_node_set
  | |- prs _ (alloc _ _) _ => apply prs_alloc
  | |- prs _ (err _) _ => apply prs_err
  | |- prs _ (op_code _ _) _ => apply prs_op_code
  | |- prs _ (exit_ _) _ => apply prs_exit
  | |- prs _ list_null _ => apply prs_lnull
  | |- prs _ (ub _) _ => apply prs_ub
  | |- prs _ (nofuel) _ => apply prs_nofuel
  | |- prs _ (sym_set _ _) _ => eapply prs_sym_set; [eassumption | constructor]
  | |- prs _ (modify _) _ => apply prs_modify; prim
  end.

Ltac pstep :=
  match goal with
  | |- prs _ (let x := ?v in @?b x) ?s =>
      let T := type of v in
      match T with
      | Z => refine (prs_let v b s _); intros ? _
      | bool => refine (prs_let v b s _); intros ? _
      | cstr => refine (prs_let v b s _); intros ? _
      | list _ => refine (prs_let v b s _); intros ? _
      | option _ => refine (prs_let v b s _); intros ? _
      | _ => cbv zeta
      end
  | |- prs _ (bind (gets _) _) _ => apply prs_gets; cbv beta
  | |- prs _ (bind (modify _) _) _ => apply prs_modifyk; [prim | intros; cbv beta]
  | |- prs _ (bind (sym_get _) _) _ => apply prs_symk; intros ? ?
  | |- prs _ (bind (node_get _) _) _ => apply prs_nodek; intros ? ?
  | |- prs _ (bind _ _) _ => apply prs_bind; [ | intros; cbv beta]
  | |- prs _ (when _ _) _ => unfold when
  | |- prs _ (if ?b then _ else _) _ => destruct b eqn:?; bools
  | |- prs _ (match ?x with _ => _ end) _ => destruct x eqn:?
  | |- prs _ _ _ => solve [leaf | auto with prs]
  end.
Ltac walk := repeat pstep.

Lemma prs_look_up_in sc n s : prs R (look_up_in sc n) s.
Proof. unfold look_up_in, sym_search; walk. Qed.
Local Hint Resolve prs_look_up_in : prs.
Lemma prs_look_up_symbol n s : prs R (look_up_symbol n) s.
Proof. unfold look_up_symbol; walk. Qed.
Local Hint Resolve prs_look_up_symbol : prs.
Lemma prs_is_uninit p s : prs R (is_uninit p) s.
Proof. unfold is_uninit; walk. Qed.
Local Hint Resolve prs_is_uninit : prs.
Lemma prs_has_uninit f p s : prs R (has_uninit f p) s.
Proof.
  revert p s; induction f; intros; cbn [has_uninit]; [exact I|].
  apply prs_nodek; intros x _. generalize s; clear s. induction (n_ops x); intros; walk.
Qed.
Local Hint Resolve prs_has_uninit : prs.

Lemma prs_has_uninitialized p s : prs R (has_uninitialized p) s.
Proof. unfold has_uninitialized; walk. Qed.
Lemma prs_is_id_A n s : prs R (is_id_A n) s.
Proof. unfold is_id_A; walk. Qed.
Lemma prs_constant_node v s : prs R (constant_node v) s.
Proof. unfold constant_node; walk. Qed.
Lemma prs_pc_node s : prs R pc_node s.
Proof. unfold pc_node; walk. Qed.
Local Hint Resolve prs_has_uninitialized prs_is_id_A prs_constant_node prs_pc_node : prs.

Variable ex : nat -> M Z.
Hypothesis HX : forall p s, prs R (ex p) s.
Local Hint Resolve HX : prs.

Lemma prs_expand_all l v s : prs R (expand_all ex l v) s.
Proof. revert v s; induction l; intros; cbn [expand_all]; walk. Qed.
Local Hint Resolve prs_expand_all : prs.
Lemma prs_opcode_node o m ops s : prs R (opcode_node ex o m ops) s.
Proof. unfold opcode_node; walk. Qed.
Local Hint Resolve prs_opcode_node : prs.
Lemma prs_bindo {A B} (m : M (option A)) (k : A -> M (option B)) s :
  prs R m s -> (forall a s', m s = Ok (Some a) s' -> R s s' -> prs R (k a) s') -> prs R (bindo m k) s.
Proof. intros H1 H2. unfold bindo. apply prs_bind; auto. intros [a|] s' E HR; [auto|apply prs_ret]. Qed.
Lemma prs_some {A} (m : M A) s : prs R m s -> prs R (some m) s.
Proof. intros; unfold some; walk. Qed.
Ltac bstep :=
  match goal with
  | |- prs _ (bindo _ _) _ => apply prs_bindo; [ | intros; cbv beta]
  | |- prs _ (some _) _ => apply prs_some
  | |- prs _ (bind (modify (set_c02 _)) _) _ => apply prs_modifyk; [apply (b_c02 _ C) | intros; cbv beta]
  | |- prs _ (bind (modify (set_ill _)) _) _ => apply prs_modifyk; [apply (b_ill _ C) | intros; cbv beta]
  | |- prs _ (bind (modify (set_c64 _)) _) _ => apply prs_modifyk; [apply (b_c64 _ C) | intros; cbv beta]
  | |- prs _ (bind (modify (fun s => set_macdef _ s)) _) _ => apply prs_modifyk; [apply (b_macdef _ C) | intros; cbv beta]
  end.
Ltac bwalk := repeat first [bstep | pstep].
Lemma prs_tok_sym n s : prs R (tok_sym n) s.
Proof. unfold tok_sym; walk. Qed.
Lemma prs_id_node n s : prs R (id_node n) s.
Proof. unfold id_node; walk. Qed.
Local Hint Resolve prs_tok_sym prs_id_node : prs.
Lemma prs_need_sym n s : prs R (need_sym n) s.
Proof. unfold need_sym; walk. Qed.
Lemma prs_tok_first n s : prs R (tok_first n) s.
Proof. unfold tok_first; walk. Qed.
Lemma prs_tok_macro_name n s : prs R (tok_macro_name n) s.
Proof. unfold tok_macro_name; walk. Qed.
Local Hint Resolve prs_need_sym prs_tok_first prs_tok_macro_name : prs.
Lemma prs_string_node n s : prs R (string_node n) s.
Proof.
  unfold string_node. cbv zeta. destruct (sanitize_string _) as [out errs| |]; try exact I.
  apply prs_bind; [|intros; walk]. revert s. induction errs; intros; walk.
Qed.
Lemma prs_label_node n s : prs R (label_node n) s.
Proof. unfold label_node; walk. Qed.
Local Hint Resolve prs_string_node prs_label_node : prs.
Lemma prs_label_def n s : prs R (label_def n) s.
Proof. unfold label_def; walk. Qed.
Lemma prs_macro_call n ps s : prs R (macro_call n ps) s.
Proof. unfold macro_call; walk. Qed.
Local Hint Resolve prs_label_def prs_macro_call : prs.
Lemma prs_build_expr e s : prs R (build_expr e) s.
Proof. revert s; induction e; intros; cbn [build_expr]; bwalk. Qed.
Local Hint Resolve prs_build_expr : prs.
Lemma prs_build_item i s : prs R (build_item i) s.
Proof. unfold build_item; bwalk. Qed.
Local Hint Resolve prs_build_item : prs.
Lemma prs_more_items l acc s : prs R (more_items acc l) s.
Proof. revert acc s; induction l; intros; cbn [more_items]; bwalk. Qed.
Local Hint Resolve prs_more_items : prs.
Lemma prs_build_items l s : prs R (build_items l) s.
Proof. unfold build_items; bwalk. Qed.
Lemma prs_more_vars l acc s : prs R (more_vars acc l) s.
Proof. revert acc s; induction l as [|[n e] l IH]; intros; cbn [more_vars]; bwalk. Qed.
Local Hint Resolve prs_build_items prs_more_vars : prs.
Lemma prs_build_op i f s : prs R (build_op ex i f) s.
Proof. unfold build_op; bwalk. Qed.
Lemma prs_build_call n a s : prs R (build_call n a) s.
Proof. unfold build_call; bwalk. Qed.
Lemma prs_symbol_value n s : prs R (symbol_value n) s.
Proof. unfold symbol_value; bwalk. Qed.
Lemma prs_opr1 o e s : prs R (opr1 o e) s.
Proof. unfold opr1; bwalk. Qed.
Local Hint Resolve prs_build_op prs_build_call prs_symbol_value prs_opr1 : prs.
Lemma prs_build_stmt st : forall first s, prs R (build_stmt ex first st) s.
Proof.
  induction st as [st IH] using stmt_ind2.
  assert (HB : forall l, Forall (fun st => forall first s, prs R (build_stmt ex first st) s) (map snd l) ->
            forall acc s, prs R ((fix body (acc : option nat) (l : list (Z * stmt)) {struct l} : M (option nat) :=
    match l with
    | [] => ret acc
    | (ln, st) :: l =>
        modify (set_line ln) ;;;
        n <-o build_stmt ex true st ;;
        match acc with
        | None => body (Some n) l
        | Some p => a <- alloc (KOpr OStatement) [p; n] ;; body (Some a) l
        end
    end) acc l) s).
  { induction l as [|[ln st'] l IHl]; intros HF acc s; [walk|].
    inversion HF; subst. bwalk. }
  intros first s. destruct st; cbn [build_stmt sub_stmts] in *; try solve [bwalk].
  - destruct els; [apply Forall_app in IH; destruct IH|]; bwalk.
Qed.
Local Hint Resolve prs_build_stmt : prs.
Lemma prs_with_label n p s : prs R (with_label ex n p) s.
Proof. unfold with_label; bwalk. Qed.
Local Hint Resolve prs_with_label : prs.
Lemma prs_run_line l s : prs R (run_line ex l) s.
Proof. unfold run_line; bwalk. Qed.

(** *** Pass.v, within one pass *)

Ltac cstep :=
  match goal with
  | |- prs _ (modify (set_input _)) _ => apply prs_modify; apply (p_input _ C)
  | |- prs _ (modify (set_ifs _)) _ => apply prs_modify; apply (p_ifs _ C)
  | |- prs _ (modify (set_skip _)) _ => apply prs_modify; apply (p_skip _ C)
  | |- prs _ (bind (modify (set_input _)) _) _ => apply prs_modifyk; [apply (p_input _ C) | intros; cbv beta]
  | |- prs _ (bind (modify (fun s => set_input _ s)) _) _ => apply prs_modifyk; [apply (p_input _ C) | intros; cbv beta]
  | |- prs _ (bind (modify (set_fstack _)) _) _ => apply prs_modifyk; [apply (p_fpop _ C) | intros; cbv beta]
  | |- prs _ (bind (modify (set_ifs _)) _) _ => apply prs_modifyk; [apply (p_ifs _ C) | intros; cbv beta]
  | |- prs _ (bind (modify (set_skip _)) _) _ => apply prs_modifyk; [apply (p_skip _ C) | intros; cbv beta]
  end.
Ltac cwalk := repeat first [cstep | bstep | pstep].
Lemma prs_end_of_file s : prs R end_of_file s.
Proof. unfold end_of_file; cwalk. Qed.
Lemma prs_cond_line l s : prs R (cond_line l) s.
Proof. unfold cond_line; cwalk. Qed.
Local Hint Resolve prs_end_of_file prs_cond_line prs_run_line : prs.
End Walk.

Section Read.
Variable R : state -> state -> Prop.
Hypothesis C : front R.
Variable F : nat.
Hypothesis HX : forall p s, prs R (expand F p) s.
Lemma read_line_prs l s : prs R (read_line F l) s.
Proof.
  unfold read_line. apply prs_gets, prs_gets.
  assert (G : forall l s, prs R (bind (cond_line l) (fun _ => ret (Some tt))) s).
  { intros; apply prs_bind; auto; [apply prs_cond_line; auto | intros; apply prs_ret; auto]. }
  destruct l; try apply G.
  - destruct (s_skip s); [apply prs_ret; auto | apply prs_run_line; auto].
  - destruct (s_skip s); [apply G|]. destruct (s_ifs s); [apply G|]. destruct (_ =? _); [apply G|apply prs_ret; auto].
  - destruct (_ && _); [apply prs_ret; auto|apply G].
Qed.
Lemma parse_input_prs fuel s : prs R (parse_input F fuel) s.
Proof.
  revert s; induction fuel; intros; cbn [parse_input]; [exact I|].
  apply prs_gets. destruct (s_input s) as [|[|l ls] rest]; [apply prs_ret; auto| |].
  - apply prs_bind; auto. apply prs_end_of_file; auto.
  - apply prs_modifyk; auto; [apply (p_input _ C)|intros _].
    apply prs_bind; auto; [apply read_line_prs; auto|]. intros [u|] s' _ _; [apply IHfuel|].
    apply prs_bind; auto; [apply prs_err; auto|]. intros. apply prs_modify. apply (p_input _ C).
Qed.
Lemma parse_file_prs n s : prs R (parse_file F n) s.
Proof.
  unfold parse_file. apply prs_modifyk; auto; [apply (c_line _ C)|intros _].
  apply prs_modifyk; auto; [apply (c_file _ C)|intros _]. apply prs_gets.
  destruct (g_files _ _).
  - apply prs_modifyk; auto; [apply (p_input _ C)|intros _]. apply prs_gets.
    assert (W : forall b s, prs R (when b list_null) s) by (intros [] ?; [apply prs_lnull; auto|apply prs_ret; auto]).
    apply prs_bind; auto. intros. apply prs_bind; auto. apply parse_input_prs; auto.
  - apply prs_bind; auto; [apply prs_err; auto|]. intros. apply prs_exit; auto.
Qed.
Lemma parse_files_prs l s : prs R (parse_files F l) s.
Proof.
  revert s; induction l; intros; cbn [parse_files]; [apply prs_ret; auto|].
  apply prs_bind; auto. apply parse_file_prs; auto.
Qed.
End Read.
