(** A relation between states that holds across every elementary step of the machine holds across any
    expansion: a generic induction over all handlers of Machine.v and Build.v, used for the invariants.
    [R] is the relation to the state in which a computation returns, [X] to the one in which it exits.  Including
    a file, calling a macro and a register loop change the stacks they use in several steps; what they do as a
    whole is assumed ([compound]) and can be derived from their steps ([include_steps], ...). *)
From Coq Require Import String Lia.
From Verif Require Import Base Hash Dict Str Opcodes Err State Sym Machine Build Pass.
Open Scope string_scope.
Open Scope list_scope.
Open Scope Z_scope.
Open Scope m_scope.

(** [prs2 R X m s]: if [m] returns its final state is related to [s] by [R], if it exits by [X] *)
Definition prs2 (R X : state -> state -> Prop) {A} (m : M A) (s : state) : Prop :=
  match m s with Ok _ s' => R s s' | Exit _ s' => X s s' | Ub _ => True | OutOfFuel => True end.

(** elementary changes of a symbol record *)
Inductive ychg : symbol -> symbol -> Prop :=
| YTimes y : ychg y (y_times_inc y)
| YPm y : ychg y (y_set_pm true y)
| YPmVal y v : ychg y (y_times_inc (y_set_init true (y_set_value v (y_set_pm true y))))
| YInit y : ychg y (y_set_init true y)
| YDeclare y v : ychg y (y_set_init true (y_set_value v y))
| YVar y : ychg y (y_set_var true y)
| YLabInit y : ychg y (y_set_init true (y_set_label true y))
| YLabel y : ychg y (y_set_label true y)
| YMname y : ychg y (y_set_mname y)
| YMacro y v g b : ychg y (y_set_value v (y_set_macro (g, b) (y_set_init true y))).

Record steps (R X : state -> state -> Prop) : Prop := mkSteps {
  e_refl : forall s, R s s;
  e_trans : forall a b c, R a b -> R b c -> R a c;
  e_exit : forall s s', R s s' -> X s s';
  e_xtrans : forall a b c, R a b -> X b c -> X a c;
  e_final : forall s s', R s s' -> s_final s' = s_final s;
  e_opened : forall s s', R s s' -> s_opened s' = s_opened s;
  e_orgspec : forall s s', R s s' -> s_org_spec s = true -> s_org_spec s' = true;
  e_err : forall n s, R s (set_errs (s_errs s + 1) (set_msgs (n :: s_msgs s) s));
  e_warn : forall s, s_final s = true -> R s (set_warns (s_warns s + 1) s);
  e_emit : forall b s, s_final s = true -> s_opened s = true -> s_org_spec s = true ->
           R s (set_out (b mod 256 :: s_out s) (set_total (s_total s + 1) s));
  e_delta : forall v s, R s (set_delta v s);
  e_origin : forall v s, R s (set_origin v s);
  e_list : forall dir b s, s_final s = true -> R s (set_list (mkLrec (s_file s) (s_line s) (s_pstate s) dir b :: s_list s) s);
  e_pstate : forall v s, s_final s = true -> R s (set_pstate v s);
  e_alloc : forall k ops s, R s (set_nodes (s_nodes s ++ [mkNode k ops]) s);
  e_nset : forall n x s, R s (set_nodes (upd n x (s_nodes s)) s);
  e_sym : forall a y y' s, nth_error (s_syms s) a = Some y -> ychg y y' ->
          R s (set_syms (upd a y' (s_syms s)) s);
  e_insert : forall k y s s' a, sym_insert k y s = Ok a s' -> R s s';
  e_setval : forall a v s s', set_symbol_value a v s = Ok tt s' -> R s s';
  e_label : forall v s, R s (set_label v s);
  e_scope : forall v s, R s (set_scope v s);
  e_pc : forall v s, R s (set_pc v s);
  e_set_orgspec : forall s, R s (set_org_spec true s);
  e_org_once : forall s, R s (set_org_once true s);
  e_pc_assigned : forall s, R s (set_pc_assigned (s_pc_assigned s + 1) s);
  e_code_gen : forall v s, R s (set_code_gen v s);
  e_stop : forall s, R s (set_stop true s);
  e_ety : forall v s, R s (set_ety v s);
  e_dsz : forall v s, R s (set_dsz v s);
  e_mpi : forall v s, R s (set_mpi v s);
  e_maxmp : forall v s, s_maxmp s < v -> R s (set_maxmp v s);
  e_console : forall l s, R s (set_console (l ++ s_console s) s);
  e_pmt : forall m t s, R s (set_pm_table m t s);
  e_changed : forall s, R s (set_changed (s_changed s + 1) s);
  e_mvals : forall v s, R s (set_mvals v s);
  e_mdict : forall v s, R s (set_mdict v s);
  e_soft : forall v s, R s (set_soft (v :: s_soft s) s)
}.

(** the steps taken by the compound operations alone *)
Record compound (R X : state -> state -> Prop) : Prop := mkCompound {
  k_include : forall file s, prs2 R X (open_include_file file) s;
  k_macro : forall ex, (forall p s, prs2 R X (ex p) s) -> forall n m ps s, prs2 R X (x_macro_ex ex n m ps) s;
  k_for_reg : forall ex, (forall p s, prs2 R X (ex p) s) -> forall x b s, prs2 R X (x_for_reg ex x b) s
}.

(** further elementary steps of the parser's actions (Build.v); [P] holds of the line numbers of the source *)
Record steps_build_on (P : Z -> Prop) (R : state -> state -> Prop) : Prop := mkStepsB {
  b_line : forall v s, P v -> R s (set_line v s);
  b_macdef : forall v s, R s (set_macdef v s);
  b_c02 : forall v s, R s (set_c02 v s);
  b_ill : forall v s, R s (set_ill v s);
  b_c64 : forall s, R s (set_c64 true s)
}.
Notation steps_build := (steps_build_on (fun _ => True)).

(** and of the conditional lines (Pass.v) *)
Record steps_cond (R : state -> state -> Prop) : Prop := mkStepsC {
  p_ifs : forall v s, R s (set_ifs v s);
  p_skip : forall v s, R s (set_skip v s)
}.

(** direct substatements, and induction over them *)
Definition sub_stmts (st : stmt) : list stmt :=
  match st with
  | SIf _ b None => map snd b
  | SIf _ b (Some l) => map snd b ++ map snd l
  | SRepeat b _ | SDo b _ | SWhile _ b | SFor _ _ _ _ b _ | SForReg _ _ _ _ b | SMacro _ b => map snd b
  | _ => []
  end.
Lemma stmt_ind2 (P : stmt -> Prop) : (forall st, Forall P (sub_stmts st) -> P st) -> forall st, P st.
Proof.
  intros H. fix IH 1. intros st. apply H.
  assert (G : forall l : list (Z * stmt), Forall P (map snd l)).
  { fix G 1. intros [|[z st'] l]; cbn; constructor; [apply IH | apply G]. }
  destruct st; cbn [sub_stmts]; try constructor; try apply G.
  destruct els as [l|]; [apply Forall_app; split|]; apply G.
Qed.

(** the line numbers within a statement and of a line of source satisfy [P] *)
Definition sub_lines (st : stmt) : list Z :=
  match st with
  | SIf _ b None => map fst b
  | SIf _ b (Some l) => map fst b ++ map fst l
  | SRepeat b _ | SDo b _ | SWhile _ b | SFor _ _ _ _ b _ | SForReg _ _ _ _ b | SMacro _ b => map fst b
  | _ => []
  end.
Inductive stmt_in (P : Z -> Prop) : stmt -> Prop :=
| StmtIn st : Forall P (sub_lines st) -> Forall (stmt_in P) (sub_stmts st) -> stmt_in P st.
Definition line_in (P : Z -> Prop) (l : tline) : Prop := P (t_line l) /\ stmt_in P (t_stmt l).
Definition src_in (P : Z -> Prop) (l : sline) : Prop :=
  match l with SrcLine l => line_in P l | SrcIf _ _ => True | SrcElse n | SrcEndif n => P n end.
Lemma stmt_in_true st : stmt_in (fun _ => True) st.
Proof. induction st as [st IH] using stmt_ind2. constructor; [apply Forall_forall; auto|exact IH]. Qed.
Lemma line_in_true l : line_in (fun _ => True) l.
Proof. split; [exact I|apply stmt_in_true]. Qed.
Lemma src_in_true l : src_in (fun _ => True) l.
Proof. destruct l; cbn; auto using line_in_true. Qed.

(** ** What is left to do after an operand was evaluated *)
Section Rest.
Variable ex : nat -> M Z.
(** of opcode_node, after the first evaluation *)
Definition opcode_rest (op mode : Z) (p : nat) (ops : list nat) (val : Z) : M nat :=
  hu <- has_uninitialized p ;;
  acc <- match ops with n :: _ => if mode =? m_a then is_id_A n else ret false | [] => ret false end ;;
  let mode1 := if acc then m_A else mode in
  let ops1 := if acc then removelast ops else ops in
  code <- op_code op mode1 ;;
  let short := if (negb (over val 255) && negb hu) || (code =? -1) then short_mode mode1 else mode1 in
  c2 <- op_code op short ;;
  let use := negb (short =? mode1) && negb (c2 =? -1) in
  let mode2 := if use then short else mode1 in
  let code2 := if use then c2 else code in
  node_set p (mkNode (KOp op code2 mode2 0) ops1) ;;;
  _ <- expand_all ex ops 0 ;;
  when (code2 <? 0) (err error_invalid_opcode_or_mode) ;;;
  ret p.
Lemma opcode_node_rest op mode0 ops s : opcode_node ex op mode0 ops s =
  (cr <- op_code op m_r ;;
   let mode := if cr =? -1 then mode0 else m_r in
   p <- alloc (KOp op 0 mode 0) ops ;;
   val <- expand_all ex ops 0 ;; opcode_rest op mode p ops val) s.
Proof. reflexivity. Qed.
(** of the loop over the operands *)
Definition op_rest (k : nat) (p : nat) (index : nat) (op_bytes : Z) (mode_check : Z) (large oor : bool)
    (save_mode save_opcode : Z) (instr mode npc : Z) (ops : list nat) (pp : nat) (v0 : Z) : M opres :=
  xp <- node_get pp ;;
  pc <- gets s_pc ;;
  let ch := match n_kind xp with KId name _ => hd0 name | _ => 0 end in
  let v := if (v0 =? 0) && (mode =? m_r) && Nat.eqb (length ops) 1 &&
              ((ch =? 64) || (ch =? 45) || (ch =? 43)) then pc else v0 in
  let large := large || over v 255 in
  let oor := oor || (over v 65535 || ((op_bytes <? 2) && large)) in
  if oor && (op_bytes <? 2) && negb (over v 65535) then
    mc <- match long_mode mode with
          | Some m => ret m
          | None => err error_value_out_of_range ;;; ret mode_check
          end ;;
    code2 <- op_code instr mc ;;
    (if code2 =? -1 then err error_value_out_of_range
     else set_op p (fun i _ _ c => KOp i code2 mc c)) ;;;
    ret (OpGo mc large)
  else if (mode =? m_r) && Nat.eqb (length ops) 1 then
    let d := v - (npc + 2) in
    if (128 <? d) || (d <? -127) then
      done <- far_branch ex p index save_mode save_opcode ;;
      if done then ret OpDone
      else op_loop ex k p (S index) op_bytes mode_check large oor save_mode save_opcode
    else op_loop ex k p (S index) op_bytes mode_check large oor save_mode save_opcode
  else op_loop ex k p (S index) op_bytes mode_check large oor save_mode save_opcode.
Lemma op_loop_rest k p index ob mc large oor sm sc s : op_loop ex (S k) p index ob mc large oor sm sc s =
  (inf <- op_info p ;;
   let '(instr, opc, mode, npc, ops) := inf in
   pp <- match nth_error ops index with Some t => ret t | None => ub UbNull end ;;
   v0 <- ex pp ;; op_rest k p index ob mc large oor sm sc instr mode npc ops pp v0) s.
Proof. reflexivity. Qed.
(** of expand_op_code_node, after the loop *)
Definition x_op_rest (p : nat) (hu : bool) (save_mode save_opcode : Z) (r : opres) : M Z :=
  match r with
  | OpDone => ret 0
  | OpGo mc large =>
      inf <- op_info p ;;
      let '(instr, _, mode, _, _) := inf in
      (if negb hu && negb large && negb (mode =? mc) then
         code2 <- op_code instr mc ;;
         if code2 =? -1 then ret tt else set_op p (fun i _ _ c => KOp i code2 mc c)
       else ret tt) ;;;
      f <- gets s_final ;;
      when f (list_and_output ex p) ;;;
      inf <- op_info p ;;
      let '(_, _, mode, _, _) := inf in
      b <- mode_bytes mode ;;
      modify (fun s => set_pc (s_pc s + b + 1) s) ;;;
      b <- mode_bytes mode ;;
      modify (fun s => set_code_gen (s_code_gen s + b + 1) s) ;;;
      set_op p (fun i _ _ c => KOp i save_opcode save_mode c) ;;;
      ret 0
  end.
(** of the jump of a branch out of range *)
Definition far_rest (p jmp : nat) (save_mode save_opcode : Z) : M bool :=
  inf <- op_info jmp ;; let '(_, _, mj, _, _) := inf in
  b <- mode_bytes mj ;;
  modify (fun s => set_pc (s_pc s + b + 1) s) ;;;
  set_op p (fun i _ _ c => KOp i save_opcode save_mode c) ;;;
  ret true.
(** of the listing of an instruction, and of a value *)
Definition list_op_rest (x : node) (instr opc mode npc bytes : Z) (n0 : nat) (op : Z) : M unit :=
  let rel := op - (npc + 2) in
  if (mode =? m_r) && ((128 <? rel) || (rel <? -127)) then ret tt
  else
    let v := if mode =? m_r then Z.land rel 255 else op in
    op2 <- ex n0 ;;
    match n_ops x with _ :: n1 :: _ => _ <- ex n1 ;; ret tt | _ => ret tt end ;;;
    add_list false (LOp (Z.land npc 65535) opc instr mode
                        (if bytes =? 1 then [v mod 256] else [v mod 256; v / 256 mod 256]) op2).
Definition list_value_rest (pc op : Z) : M unit :=
  d <- gets s_dsz ;;
  let lo := Z.land op 255 in
  let hi := if (op <? 0) && (d =? 1) then 0 else Z.land op 65280 / 256 in
  if negb (hi =? 0) && (d <? 2) then modify (fun s => set_soft (1 :: s_soft s) s)
  else add_list false (LData (Z.land pc 65535) (if 1 <? d then [lo; hi] else [lo])).
End Rest.

Create HintDb prs discriminated.

Section Walk.
Variables R X : state -> state -> Prop.
Hypothesis C : steps R X.

Lemma prs_ret {A} (a : A) s : prs2 R X (ret a) s.
Proof. apply (e_refl _ _ C). Qed.
Lemma prs_ub {A} u s : prs2 R X (A := A) (ub u) s. Proof. exact I. Qed.
Lemma prs_nofuel {A} s : prs2 R X (A := A) nofuel s. Proof. exact I. Qed.
Lemma prs_exit {A} c s : prs2 R X (A := A) (exit_ c) s.
Proof. apply (e_exit _ _ C), (e_refl _ _ C). Qed.
Lemma prs_bind {A B} (m : M A) (k : A -> M B) s :
  prs2 R X m s -> (forall a s', m s = Ok a s' -> R s s' -> prs2 R X (k a) s') -> prs2 R X (bind m k) s.
Proof.
  unfold prs2, bind; intros Hm Hk. destruct (m s) as [a s'|c s'| |] eqn:E; try exact I; auto.
  specialize (Hk a s' eq_refl Hm).
  destruct (k a s'); auto; [eapply (e_trans _ _ C) | eapply (e_xtrans _ _ C)]; eauto.
Qed.
Lemma prs_gets {A B} (f : state -> A) (k : A -> M B) s : prs2 R X (k (f s)) s -> prs2 R X (bind (gets f) k) s.
Proof. auto. Qed.
Lemma prs_gets0 {A} (f : state -> A) s : prs2 R X (gets f) s.
Proof. apply (e_refl _ _ C). Qed.
Lemma prs_modify f s : R s (f s) -> prs2 R X (modify f) s.
Proof. auto. Qed.
Lemma prs_modifyk {B} f (k : unit -> M B) s :
  R s (f s) -> (R s (f s) -> prs2 R X (k tt) (f s)) -> prs2 R X (bind (modify f) k) s.
Proof. intros H1 H2. apply prs_bind; auto. intros [] s' E. unfold modify in E. injection E as <-. auto. Qed.
Lemma prs_node_get n s : prs2 R X (node_get n) s.
Proof. unfold node_get, gets, bind, prs2. destruct (nth_error _ _); [apply (e_refl _ _ C)|exact I]. Qed.
Lemma prs_sym_get n s : prs2 R X (sym_get n) s.
Proof. unfold sym_get, gets, bind, prs2. destruct (nth_error _ _); [apply (e_refl _ _ C)|exact I]. Qed.
Lemma sym_get_inv n s y s' : sym_get n s = Ok y s' -> s' = s /\ nth_error (s_syms s) n = Some y.
Proof. unfold sym_get, gets, bind. destruct (nth_error _ _) eqn:E; intros H; inversion H; subst; auto. Qed.
Lemma prs_symk {B} a (k : symbol -> M B) s :
  (forall y, nth_error (s_syms s) a = Some y -> prs2 R X (k y) s) -> prs2 R X (bind (sym_get a) k) s.
Proof.
  intros H. apply prs_bind; [apply prs_sym_get|]. intros y s' E _. apply sym_get_inv in E. destruct E as [-> E]. auto.
Qed.
Lemma prs_nodek {B} a (k : node -> M B) s :
  (forall y, nth_error (s_nodes s) a = Some y -> prs2 R X (k y) s) -> prs2 R X (bind (node_get a) k) s.
Proof.
  intros H. unfold node_get, gets, bind, prs2 in *. destruct (nth_error _ _) eqn:E; [|exact I]. apply (H _ eq_refl).
Qed.
Lemma prs_let {A T} (v : T) (k : T -> M A) s : (forall y, y = v -> prs2 R X (k y) s) -> prs2 R X (let x := v in k x) s.
Proof. intros H; apply H; reflexivity. Qed.
Lemma prs_node_set n x s : prs2 R X (node_set n x) s.
Proof. apply prs_modify, (e_nset _ _ C). Qed.
Lemma prs_alloc k ops s : prs2 R X (alloc k ops) s.
Proof. unfold alloc. apply prs_gets, prs_modifyk; [apply (e_alloc _ _ C)|intros; apply prs_ret]. Qed.
Lemma prs_sym_set a y y' s : nth_error (s_syms s) a = Some y -> ychg y y' -> prs2 R X (sym_set a y') s.
Proof. intros; apply prs_modify. eapply (e_sym _ _ C); eauto. Qed.
Lemma prs_err n s : prs2 R X (err n) s. Proof. apply prs_modify, (e_err _ _ C). Qed.
Lemma prs_warn n s : s_final s = true -> prs2 R X (warn_ n) s. Proof. intros; apply prs_modify, (e_warn _ _ C); auto. Qed.
Lemma prs_op_code i m s : prs2 R X (op_code i m) s. Proof. apply prs_gets0. Qed.
Lemma prs_ck v s : prs2 R X (ck v) s. Proof. unfold ck; destruct (in_int v); [apply prs_ret|exact I]. Qed.
Lemma prs_sym_insert k y s : prs2 R X (sym_insert k y) s.
Proof.
  unfold prs2. destruct (sym_insert k y s) eqn:E; try exact I.
  - eapply (e_insert _ _ C); eauto.
  - exfalso. revert E. unfold sym_insert, gets, bind, modify.
    destruct (dict_insert _ _ _ _) as [[d h] [a|]]; [|discriminate].
    unfold sym_get, gets, bind; cbn. destruct (nth_error _ _); discriminate.
Qed.
Lemma prs_set_symbol_value a v s : prs2 R X (set_symbol_value a v) s.
Proof.
  unfold prs2. destruct (set_symbol_value a v s) as [[] s'|c s'| |] eqn:E; try exact I.
  - eapply (e_setval _ _ C); eauto.
  - exfalso. revert E. unfold set_symbol_value, sym_get, gets, bind, sym_set, modify, err, when, ret.
    destruct (nth_error _ _); [|discriminate].
    destruct (_ =? _); [discriminate|]. destruct (_ && _); [discriminate|].
    destruct (_ && _); discriminate.
Qed.

Lemma opened_pres s s' : R s s' -> s_opened s = true -> s_opened s' = true.
Proof. intros H; rewrite (e_opened _ _ C _ _ H); auto. Qed.
Lemma final_pres s s' : R s s' -> s_final s = true -> s_final s' = true.
Proof. intros H; rewrite (e_final _ _ C _ _ H); auto. Qed.

(** facts about flags, carried along the states of a run *)
Ltac flags :=
  solve [ assumption
        | match goal with
          | H : R ?s ?s' |- s_final ?s' = true => apply (final_pres _ _ H); flags
          | H : R ?s ?s' |- s_opened ?s' = true => apply (opened_pres _ _ H); flags
          | H : R ?s ?s' |- s_org_spec ?s' = true => apply (e_orgspec _ _ C _ _ H); flags
          end ].

Ltac bools := repeat match goal with
  | H : _ && _ = true |- _ => apply andb_true_iff in H; destruct H
  | H : negb _ = false |- _ => apply negb_false_iff in H
  | H : negb _ = true |- _ => apply negb_true_iff in H
  | H : _ || _ = false |- _ => apply orb_false_iff in H; destruct H
  end.

Ltac prim :=
  cbv beta;
  match goal with
  | |- R _ (set_errs _ _) => apply (e_err _ _ C)
  | |- R _ (set_delta _ _) => apply (e_delta _ _ C)
  | |- R _ (set_origin _ _) => apply (e_origin _ _ C)
  | |- R _ (set_label _ _) => apply (e_label _ _ C)
  | |- R _ (set_scope _ _) => apply (e_scope _ _ C)
  | |- R _ (set_pc _ _) => apply (e_pc _ _ C)
  | |- R _ (set_org_spec _ _) => apply (e_set_orgspec _ _ C)
  | |- R _ (set_org_once _ _) => apply (e_org_once _ _ C)
  | |- R _ (set_pc_assigned _ _) => apply (e_pc_assigned _ _ C)
  | |- R _ (set_code_gen _ _) => apply (e_code_gen _ _ C)
  | |- R _ (set_stop _ _) => apply (e_stop _ _ C)
  | |- R _ (set_ety _ _) => apply (e_ety _ _ C)
  | |- R _ (set_dsz _ _) => apply (e_dsz _ _ C)
  | |- R _ (set_mpi _ _) => apply (e_mpi _ _ C)
  | |- R _ (set_maxmp _ _) => apply (e_maxmp _ _ C); apply Z.ltb_lt; assumption
  | |- R _ (set_console _ _) => apply (e_console _ _ C)
  | |- R _ (set_pm_table _ _ _) => apply (e_pmt _ _ C)
  | |- R _ (set_changed _ _) => apply (e_changed _ _ C)
  | |- R _ (set_mvals _ _) => apply (e_mvals _ _ C)
  | |- R _ (set_mdict _ _) => apply (e_mdict _ _ C)
  | |- R _ (set_soft _ _) => apply (e_soft _ _ C)
  | |- R _ (set_warns _ _) => apply (e_warn _ _ C); flags
  | |- R _ (set_out _ _) => apply (e_emit _ _ C); flags
  | |- R _ (set_list _ _) => apply (e_list _ _ C); flags
  | |- R _ (set_pstate _ _) => apply (e_pstate _ _ C); flags
  end.

Ltac leaf :=
  match goal with
  | |- prs2 _ _ (ret _) _ => apply prs_ret
  | |- prs2 _ _ (gets _) _ => apply prs_gets0
  | |- prs2 _ _ (node_get _) _ => apply prs_node_get
  | |- prs2 _ _ (sym_get _) _ => apply prs_sym_get
  | |- prs2 _ _ (node_set _ _) _ => apply prs_node_set
  | |- prs2 _ _ (alloc _ _) _ => apply prs_alloc
  | |- prs2 _ _ (err _) _ => apply prs_err
  | |- prs2 _ _ (op_code _ _) _ => apply prs_op_code
  | |- prs2 _ _ (ck _) _ => apply prs_ck
  | |- prs2 _ _ (sym_insert _ _) _ => apply prs_sym_insert
  | |- prs2 _ _ (set_symbol_value _ _) _ => apply prs_set_symbol_value
  | |- prs2 _ _ (exit_ _) _ => apply prs_exit
  | |- prs2 _ _ (ub _) _ => apply prs_ub
  | |- prs2 _ _ (nofuel) _ => apply prs_nofuel
  | |- prs2 _ _ (sym_set _ _) _ => eapply prs_sym_set; [eassumption | constructor]
  | |- prs2 _ _ (warn_ _) _ => apply prs_warn; flags
  | |- prs2 _ _ (modify _) _ => apply prs_modify; prim
  end.

Ltac pstep :=
  match goal with
  | |- prs2 _ _ (let x := ?v in @?b x) ?s =>
      let T := type of v in
      match T with
      | Z => refine (prs_let v b s _); intros ? _
      | bool => refine (prs_let v b s _); intros ? _
      | cstr => refine (prs_let v b s _); intros ? _
      | list _ => refine (prs_let v b s _); intros ? _
      | option _ => refine (prs_let v b s _); intros ? _
      | _ => cbv zeta
      end
  | |- prs2 _ _ (bind (gets _) _) _ => apply prs_gets; cbv beta
  | |- prs2 _ _ (bind (modify _) _) _ => apply prs_modifyk; [prim | intros; cbv beta]
  | |- prs2 _ _ (bind (sym_get _) _) _ => apply prs_symk; intros ? ?
  | |- prs2 _ _ (bind (node_get _) _) _ => apply prs_nodek; intros ? ?
  | |- prs2 _ _ (bind _ _) _ => apply prs_bind; [ | intros; cbv beta]
  | |- prs2 _ _ (when _ _) _ => unfold when
  | |- prs2 _ _ (if ?b then _ else _) _ => destruct b eqn:?; bools
  | |- prs2 _ _ (match ?x with _ => _ end) _ => destruct x eqn:?
  | |- prs2 _ _ _ _ => solve [leaf | auto with prs]
  end.
Ltac walk := repeat pstep.

Local Hint Extern 1 (s_final _ = true) => flags : prs.
Local Hint Extern 1 (s_opened _ = true) => flags : prs.
Local Hint Extern 1 (s_org_spec _ = true) => flags : prs.

Lemma prs_opn x i s : prs2 R X (opn x i) s.
Proof. unfold opn; walk. Qed.
Lemma prs_look_up_in sc n s : prs2 R X (look_up_in sc n) s.
Proof. unfold look_up_in, sym_search; walk. Qed.
Local Hint Resolve prs_opn prs_look_up_in : prs.
Lemma prs_look_up_symbol n s : prs2 R X (look_up_symbol n) s.
Proof. unfold look_up_symbol; walk. Qed.
Lemma prs_add_pm_sym n s : prs2 R X (add_plus_minus_sym n) s.
Proof. unfold add_plus_minus_sym; walk. Qed.
Local Hint Resolve prs_look_up_symbol prs_add_pm_sym : prs.
Lemma prs_add_symbol n s : prs2 R X (add_symbol n) s.
Proof. unfold add_symbol; walk. Qed.
Lemma prs_add_pm m f l v s : prs2 R X (add_pm m f l v) s.
Proof. unfold add_pm; walk. Qed.
Lemma prs_param_values k n s : prs2 R X (param_values k n) s.
Proof. revert n s; induction k; intros; cbn [param_values]; unfold sym_search; walk. Qed.
Local Hint Resolve prs_add_symbol prs_add_pm prs_param_values : prs.
Lemma prs_push s : (forall l s, R s (set_mstack (l :: s_mstack s) s)) -> prs2 R X push_macro_params s.
Proof. intros H. unfold push_macro_params; walk. apply prs_modify. apply H. Qed.
Lemma prs_restore l n s : prs2 R X (restore_params l n) s.
Proof. revert n s; induction l; intros; cbn [restore_params]; unfold sym_search; walk. Qed.
Local Hint Resolve prs_restore : prs.
Lemma prs_pop s : (forall s, R s (set_mstack (tl (s_mstack s)) s)) -> prs2 R X pop_macro_params s.
Proof.
  intros H. unfold pop_macro_params. apply prs_gets. destruct (s_mstack s) as [|l ms] eqn:E; [walk|].
  apply prs_modifyk; [|intros; apply prs_restore].
  replace ms with (tl (s_mstack s)) by (rewrite E; reflexivity). apply H.
Qed.
Lemma prs_mode_bytes m s : prs2 R X (mode_bytes m) s.
Proof. unfold mode_bytes; walk. Qed.
Local Hint Resolve prs_mode_bytes : prs.
Lemma prs_str_of n s : prs2 R X (str_of n) s.
Proof. unfold str_of; walk. Qed.
Lemma prs_name_of n s : prs2 R X (name_of n) s.
Proof. unfold name_of; walk. Qed.
Lemma prs_is_uninit p s : prs2 R X (is_uninit p) s.
Proof. unfold is_uninit; walk. Qed.
Local Hint Resolve prs_str_of prs_name_of prs_is_uninit : prs.
Lemma prs_has_uninit f p s : prs2 R X (has_uninit f p) s.
Proof.
  revert p s; induction f; intros; cbn [has_uninit]; [exact I|].
  apply prs_nodek; intros x _. generalize s; clear s. induction (n_ops x); intros; walk.
Qed.
Local Hint Resolve prs_has_uninit : prs.
Lemma prs_has_uninitialized p s : prs2 R X (has_uninitialized p) s.
Proof. unfold has_uninitialized; walk. Qed.
Lemma prs_set_op p f s : prs2 R X (set_op p f) s.
Proof. unfold set_op; walk. Qed.
Lemma prs_op_info p s : prs2 R X (op_info p) s.
Proof. unfold op_info; walk. Qed.
Lemma prs_create_macro_entry n s : prs2 R X (create_macro_entry n) s.
Proof.
  unfold create_macro_entry. pstep. destruct (dict_search _ _); [walk|]. pstep. pstep. pstep.
  destruct (dict_insert _ _ _ _) as [[d h] r]. apply prs_modifyk; [|intros; apply prs_ret].
  eapply (e_trans _ _ C); [apply (e_mvals _ _ C) | apply (e_mdict _ _ C)].
Qed.
Lemma prs_mval_get n s : prs2 R X (mval_get n) s.
Proof. unfold mval_get; walk. Qed.
Local Hint Resolve prs_has_uninitialized prs_set_op prs_op_info prs_create_macro_entry prs_mval_get : prs.
Lemma prs_is_id_A n s : prs2 R X (is_id_A n) s.
Proof. unfold is_id_A; walk. Qed.
Lemma prs_cached_symbol n s : prs2 R X (cached_symbol n) s.
Proof. unfold cached_symbol; walk. Qed.
Lemma prs_constant_node v s : prs2 R X (constant_node v) s.
Proof. unfold constant_node; walk. Qed.
Lemma prs_pc_node s : prs2 R X pc_node s.
Proof. unfold pc_node; walk. Qed.
Lemma prs_un_op o v s : prs2 R X (un_op o v) s.
Proof. unfold un_op; walk. Qed.
Lemma prs_bin_op o v w s : prs2 R X (bin_op o v w) s.
Proof. unfold bin_op; walk. Qed.
Lemma prs_say l s : prs2 R X (say l) s.
Proof. unfold say; walk. Qed.
Lemma prs_x_constant p x v b s : prs2 R X (x_constant p x v b) s.
Proof. unfold x_constant; walk. Qed.
Lemma prs_x_end s : prs2 R X x_end s.
Proof. unfold x_end; walk. Qed.
Local Hint Resolve prs_is_id_A prs_cached_symbol prs_constant_node prs_pc_node prs_un_op prs_bin_op prs_say
  prs_x_constant prs_x_end : prs.
Lemma prs_x_plus_minus p x mk n i s : prs2 R X (x_plus_minus p x mk n i) s.
Proof. unfold x_plus_minus; walk. Qed.
Local Hint Resolve prs_x_plus_minus : prs.
Lemma prs_x_id p x mk n i s : prs2 R X (x_id p x mk n i) s.
Proof. unfold x_id; walk. Qed.
Lemma prs_x_label p x n i s : prs2 R X (x_label p x n i) s.
Proof. unfold x_label; walk. Qed.
Lemma prs_x_section x s : prs2 R X (x_section x) s.
Proof. unfold x_section; walk. Qed.
Lemma prs_x_end_section s : prs2 R X x_end_section s.
Proof. unfold x_end_section; walk. Qed.
Lemma prs_x_macro_def x s : prs2 R X (x_macro_def x) s.
Proof. unfold x_macro_def; walk. Qed.
Lemma prs_equ_pm m n o s : prs2 R X (equ_pm m n o) s.
Proof. unfold equ_pm; walk. Qed.
Local Hint Resolve prs_x_id prs_x_label prs_x_section prs_x_end_section prs_x_macro_def prs_equ_pm : prs.

(** steps that only happen in the final pass *)
Lemma prs_list_null s : s_final s = true -> prs2 R X list_null s.
Proof. intros; unfold list_null, add_list; walk. Qed.
Local Hint Resolve prs_list_null : prs.
Lemma prs_add_list d b s : s_final s = true -> prs2 R X (add_list d b) s.
Proof. intros; unfold add_list; walk. Qed.
Local Hint Resolve prs_add_list : prs.
Lemma prs_emit b s : s_final s = true -> s_opened s = true -> s_org_spec s = true -> prs2 R X (emit b) s.
Proof. intros; unfold emit; walk. Qed.
Local Hint Resolve prs_emit : prs.
Lemma prs_emit_word b s : s_final s = true -> s_opened s = true -> s_org_spec s = true -> prs2 R X (emit_word b) s.
Proof. intros; unfold emit_word; walk. Qed.
Local Hint Resolve prs_emit_word : prs.
Lemma prs_emit_list l s : s_final s = true -> s_opened s = true -> s_org_spec s = true -> prs2 R X (emit_list l) s.
Proof. revert s; induction l; intros; cbn [emit_list]; walk. Qed.
Local Hint Resolve prs_emit_list : prs.
Lemma prs_write_header s : s_final s = true -> s_opened s = true -> s_org_spec s = true -> prs2 R X write_header s.
Proof. intros; unfold write_header; walk. Qed.
Local Hint Resolve prs_write_header : prs.
Lemma prs_write_data v s : s_final s = true -> s_opened s = true -> s_org_spec s = true -> prs2 R X (write_data v) s.
Proof. intros; unfold write_data; walk. Qed.
Local Hint Resolve prs_write_data : prs.
Lemma prs_write_string_node v s : s_final s = true -> s_opened s = true -> s_org_spec s = true -> prs2 R X (write_string_node v) s.
Proof. intros; unfold write_string_node; walk. Qed.
Local Hint Resolve prs_write_string_node : prs.
Lemma prs_list_groups f pc v prev pad s : s_final s = true -> prs2 R X (list_groups f pc v prev pad) s.
Proof. revert pc v prev s; induction f; intros; cbn [list_groups]; walk; apply IHf; flags. Qed.
Local Hint Resolve prs_list_groups : prs.
(** including a file, from its steps *)
Lemma include_steps :
  (forall s, R s (set_fstack ((s_file s, s_line s) :: s_fstack s) s)) -> (forall v s, R s (set_file v s)) ->
  (forall l s, R s (set_input (l :: s_input s) s)) -> (forall v s, R s (set_line v s)) -> forall n s, prs2 R X (open_include_file n) s.
Proof.
  intros H1 H2 H3 H4 n s. unfold open_include_file. pstep. apply prs_bind; [walk|]. intros.
  apply prs_modifyk; [apply H1|intros]. apply prs_modifyk; [apply H2|intros]. apply prs_modifyk; [apply H4|intros].
  apply prs_bind; [walk|]. intros. pstep. destruct (g_files _ _); [apply prs_modify; apply H3|walk].
Qed.
Hypothesis KI : forall n s, prs2 R X (open_include_file n) s.
Local Hint Resolve KI : prs.
Lemma prs_x_include x s : prs2 R X (x_include x) s.
Proof. unfold x_include; walk. Qed.
Local Hint Resolve prs_x_include : prs.

Variable ex : nat -> M Z.
Hypothesis HX : forall p s, prs2 R X (ex p) s.
Local Hint Resolve HX : prs.

Lemma prs_expand_all l v s : prs2 R X (expand_all ex l v) s.
Proof. revert v s; induction l; intros; cbn [expand_all]; walk. Qed.
Local Hint Resolve prs_expand_all : prs.
Lemma prs_write_data_node p s : s_final s = true -> s_opened s = true -> s_org_spec s = true -> prs2 R X (write_data_node ex p) s.
Proof. intros; unfold write_data_node; walk. Qed.
Local Hint Resolve prs_write_data_node : prs.
Lemma prs_write_opcode_node x o m c s : s_final s = true -> s_opened s = true -> s_org_spec s = true -> prs2 R X (write_opcode_node ex x o m c) s.
Proof. intros; unfold write_opcode_node; walk. Qed.
Local Hint Resolve prs_write_opcode_node : prs.
Lemma prs_generate_output p s : s_final s = true -> prs2 R X (generate_output ex p) s.
Proof.
  intros; unfold generate_output.
  walk.
Qed.
Local Hint Resolve prs_generate_output : prs.
Lemma prs_generate_list_node p s : s_final s = true -> prs2 R X (generate_list_node ex p) s.
Proof. intros; unfold generate_list_node; walk. Qed.
Local Hint Resolve prs_generate_list_node : prs.
Lemma prs_list_op_rest x i o m c b n v s : s_final s = true -> prs2 R X (list_op_rest ex x i o m c b n v) s.
Proof. intros; unfold list_op_rest; walk. Qed.
Lemma prs_list_value_rest pc v s : s_final s = true -> prs2 R X (list_value_rest pc v) s.
Proof. intros; unfold list_value_rest; walk. Qed.
Lemma prs_list_and_output p s : s_final s = true -> prs2 R X (list_and_output ex p) s.
Proof. intros; unfold list_and_output; walk. Qed.
Local Hint Resolve prs_list_and_output : prs.
Lemma prs_opcode_node o m ops s : prs2 R X (opcode_node ex o m ops) s.
Proof. unfold opcode_node; walk. Qed.
Local Hint Resolve prs_opcode_node : prs.
Lemma prs_fill_loop f b c n1 n2 s : s_final s = true -> prs2 R X (fill_loop ex f b c n1 n2) s.
Proof. revert c n1 n2 s; induction f; intros; cbn [fill_loop]; walk; apply IHf; flags. Qed.
Local Hint Resolve prs_fill_loop : prs.
Lemma prs_x_fill x s : prs2 R X (x_fill ex x) s.
Proof. unfold x_fill; walk. Qed.
Lemma prs_load_loop n : forall l s, (length l <= n)%nat -> prs2 R X (load_loop ex l) s.
Proof.
  induction n; intros [|a [|b l]] s H; cbn [length] in H; try lia; cbn [load_loop]; walk.
  apply IHn; lia.
Qed.
Lemma prs_x_load x s : prs2 R X (x_load ex x) s.
Proof. unfold x_load; walk. eapply prs_load_loop; eauto. Qed.
Lemma prs_x_variable x s : prs2 R X (x_variable ex x) s.
Proof. unfold x_variable; walk. Qed.
(** a register loop, from its steps *)
Lemma for_reg_steps : (forall v s, R s (set_forx v s)) -> (forall v s, R s (set_fory v s)) ->
  forall x b s, prs2 R X (x_for_reg ex x b) s.
Proof.
  intros H1 H2 x b s. unfold x_for_reg; destruct b; repeat first
  [ match goal with
    | |- prs2 _ _ (bind (modify (fun s => set_forx _ s)) _) _ => apply prs_modifyk; [apply H1 | intros; cbv beta]
    | |- prs2 _ _ (bind (modify (fun s => set_fory _ s)) _) _ => apply prs_modifyk; [apply H2 | intros; cbv beta]
    end | pstep ].
Qed.
Hypothesis KF : forall x b s, prs2 R X (x_for_reg ex x b) s.
Lemma prs_x_data z d s : prs2 R X (x_data ex z d) s.
Proof. unfold x_data; walk. Qed.
Lemma prs_far_branch p i m o s : prs2 R X (far_branch ex p i m o) s.
Proof. unfold far_branch; walk. Qed.
Local Hint Resolve prs_x_fill prs_x_load prs_x_variable KF prs_x_data prs_far_branch : prs.
Lemma prs_op_loop k p i ob mc lg oor sm so s : prs2 R X (op_loop ex k p i ob mc lg oor sm so) s.
Proof. revert i mc lg oor s; induction k; intros; cbn [op_loop]; walk. Qed.
Local Hint Resolve prs_op_loop : prs.
Lemma prs_x_op_code p s : prs2 R X (x_op_code ex p) s.
Proof. unfold x_op_code; walk. Qed.
Lemma prs_opcode_rest op m p ops v s : prs2 R X (opcode_rest ex op m p ops v) s.
Proof. unfold opcode_rest; walk. Qed.
Lemma prs_op_rest k p i ob mc lg oor sm so ins m npc ops pp v s : prs2 R X (op_rest ex k p i ob mc lg oor sm so ins m npc ops pp v) s.
Proof. unfold op_rest; walk. Qed.
Lemma prs_x_op_rest p hu sm so r s : prs2 R X (x_op_rest ex p hu sm so r) s.
Proof. unfold x_op_rest; walk. Qed.
Lemma prs_far_rest p j sm so s : prs2 R X (far_rest p j sm so) s.
Proof. unfold far_rest; walk. Qed.
Lemma prs_x_print_state p st s : prs2 R X (x_print_state ex p st) s.
Proof. unfold x_print_state; walk. Qed.
Lemma prs_x_unary x o s : prs2 R X (x_unary ex x o) s.
Proof. unfold x_unary; walk. Qed.
Lemma prs_x_binary x o s : prs2 R X (x_binary ex x o) s.
Proof. unfold x_binary; walk. Qed.
Lemma prs_x_divide x s : prs2 R X (x_divide ex x) s.
Proof. unfold x_divide; walk. Qed.
Lemma prs_x_or x s : prs2 R X (x_or ex x) s.
Proof. unfold x_or; walk. Qed.
Lemma prs_x_and x s : prs2 R X (x_and ex x) s.
Proof. unfold x_and; walk. Qed.
Lemma prs_x_pc_assign x s : prs2 R X (x_pc_assign ex x) s.
Proof. unfold x_pc_assign; walk. Qed.
Lemma prs_x_org x s : prs2 R X (x_org ex x) s.
Proof. unfold x_org; walk. Qed.
Lemma prs_elem_symbol pp xp sp s : prs2 R X (elem_symbol ex pp xp sp) s.
Proof. unfold elem_symbol; walk. Qed.
Lemma prs_elem_macro pp xp s : prs2 R X (elem_macro ex pp xp) s.
Proof. unfold elem_macro; walk. Qed.
Lemma prs_elem_bytes pp xp s : prs2 R X (elem_bytes ex pp xp) s.
Proof. unfold elem_bytes; walk. Qed.
Lemma prs_elem_strings pp xp s : prs2 R X (elem_strings ex pp xp) s.
Proof. unfold elem_strings; walk. Qed.
Lemma prs_elem_print pp xp a s : prs2 R X (elem_print ex pp xp a) s.
Proof. unfold elem_print; walk. Qed.
Local Hint Resolve prs_x_op_code prs_x_print_state prs_x_unary prs_x_binary prs_x_divide prs_x_or prs_x_and
  prs_x_pc_assign prs_x_org prs_elem_symbol prs_elem_macro prs_elem_bytes prs_elem_strings prs_elem_print : prs.
Lemma prs_expr_list l sp s : prs2 R X (expr_list ex l sp) s.
Proof. revert sp s; induction l; intros; cbn [expr_list]; walk. Qed.
Lemma prs_x_macro_id p x n i s : prs2 R X (x_macro_id ex p x n i) s.
Proof. unfold x_macro_id; walk. Qed.
(** a macro call, from its steps *)
Lemma macro_steps : (forall l s, R s (set_mstack (l :: s_mstack s) s)) -> (forall s, R s (set_mstack (tl (s_mstack s)) s)) ->
  forall n m ps s, prs2 R X (x_macro_ex ex n m ps) s.
Proof. intros H1 H2 n m ps s. unfold x_macro_ex; walk; auto using prs_push, prs_pop. Qed.
Hypothesis KM : forall n m ps s, prs2 R X (x_macro_ex ex n m ps) s.
Lemma prs_while_loop f c b s : prs2 R X (while_loop ex f c b) s.
Proof. revert s; induction f; intros; cbn [while_loop]; walk. Qed.
Lemma prs_do_loop f u c b s : prs2 R X (do_loop ex f u c b) s.
Proof. revert s; induction f; intros; cbn [do_loop]; walk. Qed.
Lemma prs_for_loop f a e st b s : prs2 R X (for_loop ex f a e st b) s.
Proof. revert s; induction f; intros; cbn [for_loop]; walk. Qed.
Local Hint Resolve prs_expr_list prs_x_macro_id KM prs_while_loop prs_do_loop prs_for_loop : prs.
Lemma prs_x_for f x s : prs2 R X (x_for ex f x) s.
Proof. unfold x_for; walk. Qed.
Lemma prs_x_if x s : prs2 R X (x_if ex x) s.
Proof. unfold x_if; walk. Qed.
Lemma prs_x_print x a s : prs2 R X (x_print ex x a) s.
Proof. unfold x_print; walk. Qed.
Lemma prs_x_ds x s : prs2 R X (x_ds ex x) s.
Proof. unfold x_ds; walk. Qed.
Lemma prs_x_statement x s : prs2 R X (x_statement ex x) s.
Proof. unfold x_statement; walk. Qed.
Lemma prs_x_equ x s : prs2 R X (x_equ ex x) s.
Proof. unfold x_equ; walk. Qed.
Local Hint Resolve prs_x_for prs_x_if prs_x_print prs_x_ds prs_x_statement prs_x_equ : prs.
Lemma prs_x_opr f p x o s : prs2 R X (x_opr ex f p x o) s.
Proof. unfold x_opr; walk. Qed.
Local Hint Resolve prs_x_opr : prs.
Lemma prs_x_node f p x s : prs2 R X (x_node ex f p x) s.
Proof. unfold x_node; walk. Qed.

(** *** Build.v *)
Variable P : Z -> Prop.
Hypothesis CB : steps_build_on P R.
Lemma prs_bindo {A B} (m : M (option A)) (k : A -> M (option B)) s :
  prs2 R X m s -> (forall a s', m s = Ok (Some a) s' -> R s s' -> prs2 R X (k a) s') -> prs2 R X (bindo m k) s.
Proof. intros H1 H2. unfold bindo. apply prs_bind; auto. intros [a|] s' E HR; [auto|apply prs_ret]. Qed.
Lemma prs_some {A} (m : M A) s : prs2 R X m s -> prs2 R X (some m) s.
Proof. intros; unfold some; walk. Qed.
Ltac bstep :=
  match goal with
  | |- prs2 _ _ (bindo _ _) _ => apply prs_bindo; [ | intros; cbv beta]
  | |- prs2 _ _ (some _) _ => apply prs_some
  | |- prs2 _ _ (bind (modify (set_line _)) _) _ => apply prs_modifyk; [apply (b_line _ _ CB); assumption | intros; cbv beta]
  | |- prs2 _ _ (bind (modify (set_c02 _)) _) _ => apply prs_modifyk; [apply (b_c02 _ _ CB) | intros; cbv beta]
  | |- prs2 _ _ (bind (modify (set_ill _)) _) _ => apply prs_modifyk; [apply (b_ill _ _ CB) | intros; cbv beta]
  | |- prs2 _ _ (bind (modify (set_c64 _)) _) _ => apply prs_modifyk; [apply (b_c64 _ _ CB) | intros; cbv beta]
  | |- prs2 _ _ (bind (modify (fun s => set_macdef _ s)) _) _ => apply prs_modifyk; [apply (b_macdef _ _ CB) | intros; cbv beta]
  end.
Ltac bwalk := repeat first [bstep | pstep].
Lemma prs_tok_sym n s : prs2 R X (tok_sym n) s.
Proof. unfold tok_sym; walk. Qed.
Lemma prs_id_node n s : prs2 R X (id_node n) s.
Proof. unfold id_node; walk. Qed.
Local Hint Resolve prs_tok_sym prs_id_node : prs.
Lemma prs_need_sym n s : prs2 R X (need_sym n) s.
Proof. unfold need_sym; walk. Qed.
Lemma prs_tok_first n s : prs2 R X (tok_first n) s.
Proof. unfold tok_first; walk. Qed.
Lemma prs_tok_macro_name n s : prs2 R X (tok_macro_name n) s.
Proof. unfold tok_macro_name; walk. Qed.
Local Hint Resolve prs_need_sym prs_tok_first prs_tok_macro_name : prs.
Lemma prs_string_node n s : prs2 R X (string_node n) s.
Proof.
  unfold string_node. cbv zeta. destruct (sanitize_string _) as [out errs| |]; try exact I.
  apply prs_bind; [|intros; walk]. revert s. induction errs; intros; walk.
Qed.
Lemma prs_label_node n s : prs2 R X (label_node n) s.
Proof. unfold label_node; walk. Qed.
Local Hint Resolve prs_string_node prs_label_node : prs.
Lemma prs_label_def n s : prs2 R X (label_def n) s.
Proof. unfold label_def; walk. Qed.
Lemma prs_macro_call n ps s : prs2 R X (macro_call n ps) s.
Proof. unfold macro_call; walk. Qed.
Local Hint Resolve prs_label_def prs_macro_call : prs.
Lemma prs_build_expr e s : prs2 R X (build_expr e) s.
Proof. revert s; induction e; intros; cbn [build_expr]; bwalk. Qed.
Local Hint Resolve prs_build_expr : prs.
Lemma prs_build_item i s : prs2 R X (build_item i) s.
Proof. unfold build_item; bwalk. Qed.
Local Hint Resolve prs_build_item : prs.
Lemma prs_more_items l acc s : prs2 R X (more_items acc l) s.
Proof. revert acc s; induction l; intros; cbn [more_items]; bwalk. Qed.
Local Hint Resolve prs_more_items : prs.
Lemma prs_build_items l s : prs2 R X (build_items l) s.
Proof. unfold build_items; bwalk. Qed.
Lemma prs_more_vars l acc s : prs2 R X (more_vars acc l) s.
Proof. revert acc s; induction l as [|[n e] l IH]; intros; cbn [more_vars]; bwalk. Qed.
Local Hint Resolve prs_build_items prs_more_vars : prs.
Lemma prs_build_op i f s : prs2 R X (build_op ex i f) s.
Proof. unfold build_op; bwalk. Qed.
Lemma prs_build_call n a s : prs2 R X (build_call n a) s.
Proof. unfold build_call; bwalk. Qed.
Lemma prs_symbol_value n s : prs2 R X (symbol_value n) s.
Proof. unfold symbol_value; bwalk. Qed.
Lemma prs_opr1 o e s : prs2 R X (opr1 o e) s.
Proof. unfold opr1; bwalk. Qed.
Local Hint Resolve prs_build_op prs_build_call prs_symbol_value prs_opr1 : prs.
Lemma prs_build_stmt st : stmt_in P st -> forall first s, prs2 R X (build_stmt ex first st) s.
Proof.
  induction st as [st IH1] using stmt_ind2. intros HS.
  assert (HL : Forall P (sub_lines st)) by (destruct HS; assumption).
  assert (HI : Forall (stmt_in P) (sub_stmts st)) by (destruct HS; assumption). clear HS.
  assert (IH : Forall (fun st => forall first s, prs2 R X (build_stmt ex first st) s) (sub_stmts st)).
  { revert HI IH1. generalize (sub_stmts st). induction l; intros HI IH1; constructor; [apply (Forall_inv IH1), (Forall_inv HI)|].
    apply IHl; [apply (Forall_inv_tail HI)|apply (Forall_inv_tail IH1)]. }
  clear HI IH1.
  assert (HB : forall l, Forall P (map fst l) -> Forall (fun st => forall first s, prs2 R X (build_stmt ex first st) s) (map snd l) ->
            forall acc s, prs2 R X ((fix body (acc : option nat) (l : list (Z * stmt)) {struct l} : M (option nat) :=
    match l with
    | [] => ret acc
    | (ln, st) :: l =>
        modify (set_line ln) ;;;
        n <-o build_stmt ex true st ;;
        match acc with
        | None => body (Some n) l
        | Some p => a <- alloc (KOpr OStatement) [p; n] ;; body (Some a) l
        end
    end) acc l) s).
  { induction l as [|[ln st'] l IHl]; intros HP HF acc s; [walk|].
    inversion HF; subst. inversion HP; subst. bwalk. }
  intros first s. destruct st; cbn [build_stmt sub_stmts sub_lines] in *; try solve [bwalk].
  - destruct els; [apply Forall_app in IH; destruct IH; apply Forall_app in HL; destruct HL|]; bwalk.
Qed.
Local Hint Resolve prs_build_stmt : prs.
Lemma prs_with_label n p s : prs2 R X (with_label ex n p) s.
Proof. unfold with_label; bwalk. Qed.
Local Hint Resolve prs_with_label : prs.
Lemma prs_run_line l s : line_in P l -> prs2 R X (run_line ex l) s.
Proof. intros [HL HS]. unfold run_line; bwalk. Qed.

(** *** Pass.v, within one pass *)
Hypothesis CP : steps_cond R.
Ltac cstep :=
  match goal with
  | |- prs2 _ _ (modify (set_ifs _)) _ => apply prs_modify; apply (p_ifs _ CP)
  | |- prs2 _ _ (modify (set_skip _)) _ => apply prs_modify; apply (p_skip _ CP)
  | |- prs2 _ _ (bind (modify (set_ifs _)) _) _ => apply prs_modifyk; [apply (p_ifs _ CP) | intros; cbv beta]
  | |- prs2 _ _ (bind (modify (set_skip _)) _) _ => apply prs_modifyk; [apply (p_skip _ CP) | intros; cbv beta]
  end.
Ltac cwalk := repeat first [cstep | bstep | pstep].
Lemma prs_cond_line l s : src_in P l -> prs2 R X (cond_line l) s.
Proof. intros HL. unfold cond_line; destruct l; cbn [src_in] in HL; cwalk. Qed.
End Walk.

Lemma expand_prs2 R X (C : steps R X) (K : compound R X) fuel p s : prs2 R X (expand fuel p) s.
Proof.
  revert p s; induction fuel; intros; cbn [expand]; [exact I|].
  apply prs_gets. destruct (s_stop s); [apply (prs_ret _ _ C)|].
  apply prs_nodek. intros x _. apply prs_x_node; auto; apply K; auto.
Qed.
Lemma run_line_prs_on P R X (C : steps R X) (K : compound R X) (CB : steps_build_on P R) F l s : line_in P l ->
  prs2 R X (run_line (expand F) l) s.
Proof. intros; eapply prs_run_line; eauto. intros; apply expand_prs2; auto. Qed.
Lemma run_line_prs2 R X (C : steps R X) (K : compound R X) (CB : steps_build R) F l s : prs2 R X (run_line (expand F) l) s.
Proof. eapply run_line_prs_on; eauto using line_in_true. Qed.
Lemma read_line_prs_on P R X (C : steps R X) (K : compound R X) (CB : steps_build_on P R) (CP : steps_cond R) F l s : src_in P l ->
  prs2 R X (read_line F l) s.
Proof.
  intros HP. unfold read_line. apply prs_gets, prs_gets.
  assert (G : forall s, prs2 R X (bind (cond_line l) (fun _ => ret (Some tt))) s).
  { intros; eapply prs_bind; eauto; [eapply prs_cond_line; eauto | intros; apply (prs_ret _ _ C)]. }
  destruct l; try apply G.
  - destruct (s_skip s); [apply (prs_ret _ _ C) | eapply run_line_prs_on; eauto].
  - destruct (s_skip s); [apply G|]. destruct (s_ifs s); [apply G|]. destruct (_ =? _); [apply G|apply (prs_ret _ _ C)].
  - destruct (_ && _); [apply (prs_ret _ _ C)|apply G].
Qed.
Lemma read_line_prs2 R X (C : steps R X) (K : compound R X) (CB : steps_build R) (CP : steps_cond R) F l s :
  prs2 R X (read_line F l) s.
Proof. eapply read_line_prs_on; eauto using src_in_true. Qed.
