(** Instructions in the bodies of conditions and loops: what expanding one leaves as it was. *)
From Coq Require Import String Lia.
From Verif Require Import Base BaseProofs Hash Dict DictProofs DictMore Str Opcodes OpcodesProofs Err State Sym Machine Build Pass
  GenX Gen Inv SymProofs Sem ExprProofs ListRel ExprMore OpProofs OpMore InstrProofs InstrMore DataProofs DataMore DefProofs BadProofs DataWalk Layout LineTwo Struct StructRep.
Open Scope string_scope.
Open Scope list_scope.
Open Scope Z_scope.
Open Scope m_scope.

(** ** Operands: all records are cached *)
Inductive ctied (s : state) : nat -> expr -> Prop :=
| CInt p v : nth_error (s_nodes s) p = Some (mkNode (KCon v false) []) -> ctied s p (EInt v)
| CPc p v : nth_error (s_nodes s) p = Some (mkNode (KCon v true) []) -> ctied s p EPc
| CName p n a : nth_error (s_nodes s) p = Some (mkNode (KId n (Some a)) []) -> plain n -> dict_search (s_dict s) n = Some a -> ctied s p (ESym n)
| CUn p o q e : nth_error (s_nodes s) p = Some (mkNode (KOpr o) [q]) -> is_un o = true -> (q < p)%nat -> ctied s q e -> ctied s p (EUn o e)
| CBin p o q1 q2 e1 e2 : nth_error (s_nodes s) p = Some (mkNode (KOpr o) [q1; q2]) -> is_bin o = true ->
    (q1 < p)%nat -> (q2 < p)%nat -> ctied s q1 e1 -> ctied s q2 e2 -> ctied s p (EBin o e1 e2).
Lemma ctied_tied s p e : ctied s p e -> tied s p e.
Proof. intros T. induction T; econstructor; eauto. Qed.
Lemma ctied_rep s p e : tab s -> s_scope s = None -> ctied s p e -> rep (meaning s) false s p e.
Proof.
  intros Tb Sc T. induction T as [p v N|p v N|p n a N P D|p o q e N U L T IH|p o q1 q2 e1 e2 N U L1 L2 T1 IH1 T2 IH2].
  - apply RepInt, N.
  - eapply RepPc, N.
  - destruct (found _ _ _ Tb Sc P D) as (y & Y & E & _). eapply RepCached; eauto. apply plain_direct, P.
  - eapply RepUn; eauto.
  - eapply RepBin; eauto.
Qed.
(** a tree whose names are all cached *)
Lemma tied_rep_ctied C s p e : tied s p e -> rep C false s p e -> ctied s p e.
Proof.
  intros T. induction T as [p v N|p v N|p n i a N P D I|p o q e N U L T IH|p o q1 q2 e1 e2 N U L1 L2 T1 IH1 T2 IH2]; intros R.
  - apply CInt, N.
  - eapply CPc, N.
  - inversion R as [| |p0 n0 b y N0 D0 Hy Ey|p0 n0 Eu| |]; subst; [|discriminate]. rewrite N in N0. injection N0 as ->. destruct I as [|I]; [discriminate|]. injection I as ->. eapply CName; eauto.
  - inversion R as [| | | |p0 o0 q0 e0 N0 U0 L0 R0|]; subst. rewrite N in N0. injection N0 as <-. eapply CUn; eauto.
  - inversion R as [| | | | |p0 o0 q10 q20 e10 e20 N0 U0 L10 L20 R1 R2]; subst. rewrite N in N0. injection N0 as <- <-. eapply CBin; eauto.
Qed.
Lemma ctied_qt s s' p e : qt s s' -> ctied s p e -> ctied s' p e.
Proof.
  intros Q T. induction T as [p v N|p v N|p n a N P D|p o q e N U L T IH|p o q1 q2 e1 e2 N U L1 L2 T1 IH1 T2 IH2].
  - destruct (q_node _ _ Q _ _ N) as (x & H1 & X). inversion X; subst. econstructor; eauto.
  - destruct (q_node _ _ Q _ _ N) as (x & H1 & X). inversion X; subst; econstructor; eauto.
  - destruct (q_node _ _ Q _ _ N) as (x & H1 & X). inversion X; subst. eapply CName; eauto. rewrite (q_dict _ _ Q). exact D.
  - econstructor; eauto using node_opr.
  - econstructor; eauto using node_opr.
Qed.

(** ** The same but for the node of the instruction *)
Definition opsame (x x' : node) : Prop := exists i o m c i' o' m' c' l, x = mkNode (KOp i o m c) l /\ x' = mkNode (KOp i' o' m' c') l.
Record qx (p : nat) (s s' : state) : Prop := mkQx {
  x_dict : s_dict s' = s_dict s;
  x_scope : s_scope s' = s_scope s;
  x_stop : s_stop s' = s_stop s;
  x_len : length (s_syms s') = length (s_syms s);
  x_tab : tab s -> tab s';
  x_vars : keeps s s';
  x_nodes : forall r x, nth_error (s_nodes s) r = Some x -> exists x', nth_error (s_nodes s') r = Some x' /\ (qnode s x x' \/ (r = p /\ opsame x x')) }.
Lemma qt_qx p s s' : qt s s' -> qx p s s'.
Proof. intros [A1 A2 A3 A4 A5 A6 A7]. constructor; auto. intros r x H. destruct (A7 r x H) as (x' & H' & Q). eauto. Qed.
Lemma qx_qt p s s' i o m c l c' : qx p s s' -> nth_error (s_nodes s) p = Some (mkNode (KOp i o m c) l) -> nth_error (s_nodes s') p = Some (mkNode (KOp i o m c') l) -> qt s s'.
Proof.
  intros [A1 A2 A3 A4 A5 A6 A7] N N'. constructor; auto. intros r x H. destruct (A7 r x H) as (x' & H' & [Q|[-> _]]); [eauto|].
  rewrite N in H. injection H as <-. rewrite N' in H'. injection H' as <-. eexists. split; [exact N'|]. apply QnOp.
Qed.
Lemma opsame_l s x x1 x2 : qnode s x x1 -> opsame x1 x2 -> opsame x x2.
Proof. intros Q (i & o & m & c & i' & o' & m' & c' & l & -> & ->). inversion Q; subst; unfold opsame; eauto 12. Qed.
Lemma opsame_r s x x1 x2 : opsame x x1 -> qnode s x1 x2 -> opsame x x2.
Proof. intros (i & o & m & c & i' & o' & m' & c' & l & -> & ->) Q. inversion Q; subst; unfold opsame; eauto 12. Qed.
Lemma opsame_trans x x1 x2 : opsame x x1 -> opsame x1 x2 -> opsame x x2.
Proof. intros (i & o & m & c & i' & o' & m' & c' & l & -> & ->) (j & o2 & m2 & c2 & j' & o2' & m2' & c2' & l2 & E & ->). injection E as _ _ _ _ <-. unfold opsame. eauto 12. Qed.
Lemma qnode_trans a b x x1 x2 : s_dict b = s_dict a -> qnode a x x1 -> qnode b x1 x2 -> qnode a x x2.
Proof. intros E N1 N2. inversion N1; subst; inversion N2; subst; try constructor; try congruence. Qed.
Lemma qx_trans p a b c : qx p a b -> qx p b c -> qx p a c.
Proof.
  intros [A1 A2 A3 A4 A5 A7 A6] [B1 B2 B3 B4 B5 B7 B6]. constructor; auto; try congruence; [exact (keeps_trans _ _ _ A7 B7)|].
  intros r x H. destruct (A6 r x H) as (x1 & H1 & N1). destruct (B6 r x1 H1) as (x2 & H2 & N2). exists x2. split; [exact H2|].
  destruct N1 as [N1|[-> N1]], N2 as [N2|[E N2]].
  - left. exact (qnode_trans _ _ _ _ _ A1 N1 N2).
  - right. split; [exact E|]. exact (opsame_l _ _ _ _ N1 N2).
  - right. split; [reflexivity|]. exact (opsame_r _ _ _ _ N1 N2).
  - right. split; [reflexivity|]. exact (opsame_trans _ _ _ N1 N2).
Qed.
Lemma qx_refl p s : qx p s s. Proof. apply qt_qx, qt_refl. Qed.
Definition qmx {A} (p : nat) (m : M A) (s : state) : Prop := match m s with Ok _ s' => qx p s s' | _ => True end.
Lemma qmx_bind {A B} p (m : M A) (k : A -> M B) s : qmx p m s -> (forall a s', m s = Ok a s' -> qx p s s' -> qmx p (k a) s') -> qmx p (bind m k) s.
Proof.
  unfold qmx, bind. intros H1 H2. destruct (m s) as [a s1| | |] eqn:E; auto. specialize (H2 a s1 eq_refl H1).
  destruct (k a s1); auto. exact (qx_trans _ _ _ _ H1 H2).
Qed.
Lemma qm_x {A} p (m : M A) s : qm m s -> qmx p m s.
Proof. unfold qm, qmx. destruct (m s); auto. intros [Q _]. apply qt_qx, Q. Qed.
Lemma calm_qx p s s' : qx p s s' -> calm s -> calm s'.
Proof. intros Q (T & Sc & St). split; [apply (x_tab _ _ _ Q), T|]. split; [rewrite (x_scope _ _ _ Q); exact Sc|rewrite (x_stop _ _ _ Q); exact St]. Qed.
Lemma opsame_no x x' : opsame x x' -> match n_kind x with KOp _ _ _ _ => True | _ => False end.
Proof. intros (i & o & m & c & i' & o' & m' & c' & l & -> & _). exact I. Qed.
Lemma tied_qx r s s' p e : qx r s s' -> tied s p e -> tied s' p e.
Proof.
  intros Q T. induction T as [p v N|p v N|p n i a N P D I|p o q e N U L T IH|p o q1 q2 e1 e2 N U L1 L2 T1 IH1 T2 IH2];
    destruct (x_nodes _ _ _ Q _ _ N) as (x & H1 & [X|[_ X]]); try (apply opsame_no in X; contradiction); inversion X; subst.
  - econstructor; eauto.
  - econstructor; eauto.
  - econstructor; eauto.
  - eapply TName; eauto. rewrite (x_dict _ _ _ Q). exact D.
  - apply (TName s' p n (Some a0) a); auto; [rewrite (x_dict _ _ _ Q); exact D|]. right. congruence.
  - econstructor; eauto.
  - econstructor; eauto.
Qed.
Lemma op_qx p s s' i o m c l : qx p s s' -> nth_error (s_nodes s) p = Some (mkNode (KOp i o m c) l) -> exists i' o' m' c', nth_error (s_nodes s') p = Some (mkNode (KOp i' o' m' c') l).
Proof.
  intros Q N. destruct (x_nodes _ _ _ Q _ _ N) as (x & H & [X|[_ (i1 & o1 & m1 & c1 & i' & o' & m' & c' & l' & E & ->)]]).
  - inversion X; subst; eauto 10.
  - injection E as _ _ _ _ <-. eauto 10.
Qed.
Lemma qmx_set_op p f s : (forall i o m c, exists i' o' m' c', f i o m c = KOp i' o' m' c') -> qmx p (set_op p f) s.
Proof.
  intros Hf. unfold qmx, set_op, bind, node_get, gets. unfold bind. destruct (nth_error (s_nodes s) p) as [[k l]|] eqn:N; [|exact I]. unfold ret. cbn [n_kind n_ops].
  destruct k; try exact I. match goal with |- context [f ?a ?b ?c ?d] => destruct (Hf a b c d) as (i' & o' & m' & c' & ->) end. unfold node_set, modify.
  constructor; auto; [apply keeps_same; reflexivity|]. intros r x H. cbn [s_nodes set_nodes]. destruct (Nat.eq_dec p r) as [<-|Hn].
  - rewrite nth_upd_same by (apply nth_error_Some; congruence). eexists. split; [reflexivity|]. right. split; [reflexivity|]. rewrite N in H. injection H as <-. unfold opsame. eauto 12.
  - rewrite nth_upd_other by auto. exists x. split; [exact H|]. left. constructor.
Qed.
Lemma qm_mode_bytes m s : qm (mode_bytes m) s.
Proof. unfold mode_bytes. repeat match goal with |- context[if ?b then _ else _] => destruct b end; try apply qm_ret. apply qm_bind; [apply qm_err|]. intros. apply qm_ret. Qed.
Lemma qm_op_code i m s : qm (op_code i m) s. Proof. apply qm_gets. Qed.
Lemma qm_opn x i s : qm (opn x i) s.
Proof. unfold opn. destruct (nth_error _ _); [apply qm_ret|exact I]. Qed.
Lemma opn_inv x i s q s' : opn x i s = Ok q s' -> nth_error (n_ops x) i = Some q /\ s' = s.
Proof. unfold opn. destruct (nth_error _ _); [|discriminate]. intros [= -> ->]. auto. Qed.
Lemma qm_write_value v s : qm (write_data v) s.
Proof. unfold write_data. apply qm_bind; [apply qm_gets|]. intros. repeat match goal with |- qm (if ?b then _ else _) _ => destruct b end; first [apply qm_err|apply qm_emit|apply qm_emit_word|apply qm_ret|exact I]. Qed.
(** listing and writing an instruction *)
Definition optied (s : state) (l : list nat) (oe : option expr) : Prop :=
  match oe with None => l = [] | Some e => exists q, l = [q] /\ tied s q e end.
Definition oheight (oe : option expr) : nat := match oe with None => 1 | Some e => height e end.
Lemma optied_qt s s' l oe : qt s s' -> optied s l oe -> optied s' l oe.
Proof. intros Q. destruct oe; cbn [optied]; [|auto]. intros (q & -> & T). eauto using tied_qt. Qed.
Lemma optied_qx p s s' l oe : qx p s s' -> optied s l oe -> optied s' l oe.
Proof. intros Q. destruct oe; cbn [optied]; [|auto]. intros (q & -> & T). eauto using tied_qx. Qed.
Lemma qm_operand F oe l i q s : (oheight oe <= F)%nat -> calm s -> optied s l oe -> nth_error l i = Some q -> qm (expand F q) s.
Proof.
  intros HF Cm O N. destruct oe as [e|]; cbn [optied] in O.
  - destruct O as (r & -> & T). destruct i as [|i]; cbn [nth_error] in N; [injection N as <-; eapply qm_eval; eauto|destruct i; discriminate].
  - subst l. destruct i; discriminate.
Qed.
Lemma qm_list_op F oe l i o m c p s : (oheight oe <= F)%nat -> calm s -> optied s l oe -> nth_error (s_nodes s) p = Some (mkNode (KOp i o m c) l) -> qm (list_and_output (expand F) p) s.
Proof.
  intros HF Cm R N. unfold list_and_output. apply qm_bind.
  - unfold generate_list_node. apply qm_bind; [apply qm_node_get|]. intros x0 s0 E0 _. apply node_get_inv in E0. destruct E0 as [-> E0].
    rewrite N in E0. injection E0 as <-. apply qm_bind; [apply qm_gets|]. intros pc s0 E0 _. apply gets_inv in E0. destruct E0 as [-> _]. cbn [n_kind].
    apply qm_bind; [apply qm_mode_bytes|]. intros b s1 _ [Q1 _]. destruct (0 <? b); [|apply qm_add_list].
    apply qm_bind; [apply qm_opn|]. intros q s2 E2 _. apply opn_inv in E2. destruct E2 as [E2 ->].
    apply qm_bind; [eapply qm_operand; [exact HF|eauto using calm_qt|eauto using optied_qt|eassumption]|]. intros v s2 _ [Q2 _]. pose proof (qt_trans _ _ _ Q1 Q2) as Q12.
    destruct (_ && _); [apply qm_ret|]. apply qm_bind; [eapply qm_operand; [exact HF|eauto using calm_qt|eauto using optied_qt|eassumption]|]. intros v2 s3 _ _.
    apply qm_bind; [|intros; apply qm_add_list]. cbn [n_ops]. destruct oe as [e|]; cbn [optied] in R; [destruct R as (r & -> & _)|subst l]; apply qm_ret.
  - intros a s1 _ Q1. apply qm_bind; [|intros; apply qm_ret]. unfold generate_output.
    apply qm_bind; [apply qm_gets|]. intros o0 s0 E0 _. apply gets_inv in E0. destruct E0 as [-> _].
    apply qm_bind; [apply qm_gets|]. intros os s0 E0 _. apply gets_inv in E0. destruct E0 as [-> _].
    destruct (_ || _); [apply qm_ret|].
    apply qm_bind; [apply qm_gets|]. intros st s0 E0 _. apply gets_inv in E0. destruct E0 as [-> _].
    apply qm_bind; [apply qm_when, qm_write_header|]. intros u s2 _ Q2.
    apply qm_bind; [apply qm_gets|]. intros d s0 E0 _. apply gets_inv in E0. destruct E0 as [-> _].
    destruct (0 <? d); [apply qm_bind; [apply qm_err|intros; exact I]|].
    apply qm_bind; [apply qm_node_get|]. intros x0 s0 E0 _. apply node_get_inv in E0. destruct E0 as [-> E0].
    pose proof (qe_trans _ _ _ Q1 Q2) as [Q _]. pose proof (optied_qt _ _ _ _ Q R) as R'. pose proof (calm_qt _ _ Q Cm) as Cm'.
    destruct (op_qx p _ _ _ _ _ _ _ (qt_qx p _ _ Q) N) as (i' & o' & m' & c' & N'). rewrite N' in E0. injection E0 as <-. cbn [n_kind].
    apply qm_bind; [|intros; apply qm_bind; [apply qm_gets|intros; apply qm_ret]]. unfold write_opcode_node.
    apply qm_bind; [apply qm_mode_bytes|]. intros b s3 _ [Q3 _]. apply qm_bind; [apply qm_emit|]. intros u4 s4 _ [Q4 _]. destruct (0 <? b); [|apply qm_ret].
    apply qm_bind; [apply qm_opn|]. intros q s5 E5 _. apply opn_inv in E5. destruct E5 as [E5 ->]. pose proof (qt_trans _ _ _ Q3 Q4) as Q34.
    apply qm_bind; [eapply qm_operand; [exact HF|eauto using calm_qt|eauto using optied_qt|eassumption]|]. intros v s6 _ _.
    assert (W : forall w, qm (modify (set_dsz b) ;;; write_data w) s6) by (intros; apply qm_bind; [qmod|intros; apply qm_write_value]).
    destruct (m' =? m_r); [|apply W]. destruct (_ || _); [apply qm_err|apply W].
Qed.
Lemma qm_op_info p s : qm (op_info p) s.
Proof. unfold op_info. apply qm_bind; [apply qm_node_get|]. intros x s0 _ _. destruct (n_kind x); try exact I. apply qm_ret. Qed.
Lemma qmx_when p b m s : qmx p m s -> qmx p (when b m) s.
Proof. unfold when. destruct b; [auto|intros; apply qm_x, qm_ret]. Qed.
Lemma qmx_set p o' m' s : qmx p (set_op p (fun i _ _ c => KOp i o' m' c)) s. Proof. apply qmx_set_op. intros. eauto. Qed.
(** the end of the expansion *)
Lemma qmx_tail F oe l i o m c p s sc sm : (oheight oe <= F)%nat -> calm s -> optied s l oe -> nth_error (s_nodes s) p = Some (mkNode (KOp i o m c) l) ->
  qmx p (f <- gets s_final ;;
      when f (list_and_output (expand F) p) ;;;
      inf <- op_info p ;;
      let '(_, _, mode, _, _) := inf in
      b <- mode_bytes mode ;;
      modify (fun s => set_pc (s_pc s + b + 1) s) ;;;
      b <- mode_bytes mode ;;
      modify (fun s => set_code_gen (s_code_gen s + b + 1) s) ;;;
      set_op p (fun i _ _ c => KOp i sc sm c) ;;;
      ret 0) s.
Proof.
  intros HF Cm T N. apply qmx_bind; [apply qm_x, qm_gets|]. intros f s0 E0 _. apply gets_inv in E0. destruct E0 as [-> _].
  apply qmx_bind; [apply qmx_when, qm_x; eapply qm_list_op; eauto|]. intros _ s1 _ _.
  apply qmx_bind; [apply qm_x, qm_op_info|]. intros [[[[z1 z2] mode] z3] z4] s2 _ _.
  apply qmx_bind; [apply qm_x, qm_mode_bytes|]. intros b s3 _ _. apply qmx_bind; [apply qm_x; qmod|]. intros u4 s4 _ _.
  apply qmx_bind; [apply qm_x, qm_mode_bytes|]. intros b' s5 _ _. apply qmx_bind; [apply qm_x; qmod|]. intros u6 s6 _ _.
  apply qmx_bind; [apply qmx_set|]. intros. apply qm_x, qm_ret.
Qed.
(** the middle: choosing the mode *)
Lemma qmx_choose F oe l p s r hu sc sm : (oheight oe <= F)%nat -> calm s -> optied s l oe -> (exists i o m c, nth_error (s_nodes s) p = Some (mkNode (KOp i o m c) l)) ->
  qmx p (match r with
  | OpDone => ret 0
  | OpGo mc large =>
      inf <- op_info p ;;
      let '(instr, _, mode, _, _) := inf in
      (if negb hu && negb large && negb (mode =? mc) then
         code2 <- op_code instr mc ;;
         if code2 =? -1 then ret tt else set_op p (fun i _ _ c => KOp i code2 mc c)
       else ret tt) ;;;
      f <- gets s_final ;;
      when f (list_and_output (expand F) p) ;;;
      inf <- op_info p ;;
      let '(_, _, mode, _, _) := inf in
      b <- mode_bytes mode ;;
      modify (fun s => set_pc (s_pc s + b + 1) s) ;;;
      b <- mode_bytes mode ;;
      modify (fun s => set_code_gen (s_code_gen s + b + 1) s) ;;;
      set_op p (fun i _ _ c => KOp i sc sm c) ;;;
      ret 0
  end) s.
Proof.
  intros HF Cm T (i & o & m & c & N). destruct r as [|mc large]; [apply qm_x, qm_ret|].
  apply qmx_bind; [apply qm_x, qm_op_info|]. intros [[[[instr z2] mode] z3] z4] s1 E1 X1.
  apply qmx_bind.
  - destruct (_ && _); [|apply qm_x, qm_ret]. apply qmx_bind; [apply qm_x, qm_op_code|]. intros c2 s2 _ _. destruct (c2 =? -1); [apply qm_x, qm_ret|apply qmx_set].
  - intros _ s2 _ X2. pose proof (qx_trans _ _ _ _ X1 X2) as X. destruct (op_qx _ _ _ _ _ _ _ _ X N) as (i' & o' & m' & c' & N').
    eapply qmx_tail; eauto using calm_qx, optied_qx.
Qed.
Lemma qmx_loop F e q p s i o m c ob mc sm sc v s1 : (height e <= F)%nat -> calm s -> tied s q e -> nth_error (s_nodes s) p = Some (mkNode (KOp i o m c) [q]) ->
  expand F q s = Ok v s1 -> far m c v = false -> (forall x, nth_error (s_nodes s1) q = Some x -> let ch := match n_kind x with KId name _ => hd0 name | _ => 0 end in (ch =? 64) || (ch =? 45) || (ch =? 43) = false) ->
  qmx p (op_loop (expand F) 1 p 0 ob mc false false sm sc) s.
Proof.
  intros HF Cm T N E1 Fr Hch. cbn [op_loop]. pose proof (op_info_eq _ _ _ _ _ _ _ N) as Ei.
  unfold qmx. unfold bind at 1. rewrite Ei. cbn [nth_error]. unfold bind at 1, ret at 1. unfold bind at 1. rewrite E1.
  pose proof (qm_eval e F s q HF Cm T) as Q. unfold qm in Q. rewrite E1 in Q. destruct Q as [Q _].
  assert (X : forall (m0 : M opres), qmx p m0 s1 -> match m0 s1 with Ok _ s' => qx p s s' | _ => True end).
  { intros m0. unfold qmx. destruct (m0 s1); auto. intros X. exact (qx_trans _ _ _ _ (qt_qx p _ _ Q) X). }
  apply X. clear X. apply qmx_bind; [apply qm_x, qm_node_get|]. intros x s2 E2 _. apply node_get_inv in E2. destruct E2 as [-> E2].
  specialize (Hch x E2). cbv zeta in Hch. apply qmx_bind; [apply qm_x, qm_gets|]. intros pc s2 E3 _. apply gets_inv in E3. destruct E3 as [-> _].
  rewrite Hch, andb_false_r. destruct (_ && _ && _).
  - apply qmx_bind; [destruct (long_mode m); apply qm_x; [apply qm_ret|apply qm_bind; [apply qm_err|intros; apply qm_ret]]|]. intros mc2 s2 _ _.
    apply qmx_bind; [apply qm_x, qm_op_code|]. intros c2 s3 _ _. apply qmx_bind; [destruct (c2 =? -1); [apply qm_x, qm_err|apply qmx_set]|]. intros. apply qm_x, qm_ret.
  - unfold far in Fr. destruct (m =? m_r); cbn [andb length] in *; [|apply qm_x, qm_ret].
    change (Nat.eqb 1 1) with true. cbv iota. rewrite Fr. apply qm_x, qm_ret.
Qed.
Lemma org_qt s : qt s (org s).
Proof. unfold org. destruct (0 <? _); [apply qt_frame; reflexivity|apply qt_refl]. Qed.
(** a whole instruction with an operand *)
Lemma qmx_op C F e q p s i o m c v : (height e <= F)%nat -> calm s -> tied s q e -> rep C false s q e -> known C (s_pc s) e v -> far m (s_pc s) v = false ->
  nth_error (s_nodes s) p = Some (mkNode (KOp i o m c) [q]) -> qmx p (x_op_code (expand F) p) s.
Proof.
  intros HF Cm T R K Fr N. unfold x_op_code. pose proof (op_info_eq _ _ _ _ _ _ _ N) as Ei.
  unfold qmx. unfold bind at 1. rewrite Ei. unfold bind at 1, gets at 1.
  assert (E1 : when (0 <? s_pc_assigned s) (modify (set_org_spec true)) s = Ok tt (org s)).
  { unfold when, org. destruct (0 <? _); reflexivity. }
  unfold bind at 1. rewrite E1. destruct (org_same s) as (D1 & D2 & D3 & D4 & D5 & D6 & D7). pose proof (hv_org s (proj1 Cm)) as H1.
  unfold bind at 1, gets at 1. rewrite D2.
  assert (N1 : nth_error (s_nodes (org s)) p = Some (mkNode (KOp i o m c) [q])) by (rewrite D1; exact N).
  pose proof (qmx_set_op p (fun i o m _ => KOp i o m (s_pc s)) (org s) ltac:(intros; eauto)) as X2. unfold qmx in X2.
  unfold bind at 1. rewrite (set_op_eq _ _ _ _ _ _ _ _ N1) in X2 |- *.
  set (s2 := set_nodes _ (org s)) in *.
  assert (H2 : hv (org s) s2) by (eapply hv_setop; [apply (h_tab _ _ H1)|exact N1]).
  assert (N2 : nth_error (s_nodes s2) p = Some (mkNode (KOp i o m (s_pc s)) [q])) by (eapply upd_here, N1).
  pose proof (hv_trans _ _ _ H1 H2) as H12. pose proof (rep_hv _ _ _ _ _ _ H12 R) as R2.
  assert (P2 : s_pc s2 = s_pc s) by exact D2.
  pose proof (qx_trans _ _ _ _ (qt_qx p _ _ (org_qt s)) X2) as Q2. pose proof (calm_qx _ _ _ Q2 Cm) as Cm2. pose proof (tied_qx _ _ _ _ _ Q2 T) as T2.
  clearbody s2.
  assert (X : forall (m0 : M Z), qmx p m0 s2 -> match m0 s2 with Ok _ s' => qx p s s' | _ => True end).
  { intros m0. unfold qmx. destruct (m0 s2); auto. intros X. exact (qx_trans _ _ _ _ Q2 X). }
  apply X. clear X. cbv zeta. apply qmx_bind.
  { destruct (0 <? op_bytes_of m); [|apply qm_x, qm_ret]. apply qm_x. unfold has_uninitialized. apply qm_bind; [apply qm_gets|]. intros. apply qm_has_uninit. }
  intros hu s2' Eh _.
  assert (s2' = s2) as ->.
  { destruct (0 <? op_bytes_of m); [|injection Eh as _ <-; reflexivity]. rewrite (has_uninitialized_rep _ _ _ _ _ _ N2 R2) in Eh. injection Eh as _ <-. reflexivity. }
  apply qmx_bind.
  - destruct hu; [apply qm_x, qm_ret|]. cbn [length].
    destruct (eval_known C false e v F s2 q HF (proj1 Cm2) (proj2 (proj2 Cm2)) R2 ltac:(rewrite P2; exact K)) as (s3 & E3 & H3 & O3 & R3 & P3 & _).
    eapply qmx_loop; eauto. intros x Nx. exact (rep_name_char _ _ _ _ _ _ R3 Nx).
  - intros r s3 _ X3. apply (qmx_choose F (Some e) [q]); eauto using calm_qx.
    + cbn [optied]. eauto using tied_qx.
    + exact (op_qx _ _ _ _ _ _ _ _ X3 N2).
Qed.
Lemma qmx_op0 F p s i o m c : (1 <= F)%nat -> calm s -> nth_error (s_nodes s) p = Some (mkNode (KOp i o m c) []) -> qmx p (x_op_code (expand F) p) s.
Proof.
  intros HF Cm N. unfold x_op_code. apply qmx_bind; [apply qm_x, qm_op_info|]. intros inf s0 E0 _. rewrite (op_info_eq _ _ _ _ _ _ _ N) in E0. injection E0 as <- <-.
  apply qmx_bind; [apply qm_x, qm_gets|]. intros pa s0 E0 X0. apply gets_inv in E0. destruct E0 as [-> _]. apply qmx_bind; [apply qmx_when, qm_x; qmod|]. intros _ s1 _ X1.
  apply qmx_bind; [apply qm_x, qm_gets|]. intros pc s0 E0 _. apply gets_inv in E0. destruct E0 as [-> _]. apply qmx_bind; [apply qmx_set_op; intros; eauto|].
  intros _ s2 _ X2. cbv zeta. apply qmx_bind.
  { destruct (0 <? op_bytes_of m); [|apply qm_x, qm_ret]. apply qm_x. unfold has_uninitialized. apply qm_bind; [apply qm_gets|]. intros. apply qm_has_uninit. }
  intros hu s3 _ X3. apply qmx_bind; [destruct hu; apply qm_x, qm_ret|]. intros r s4 _ X4.
  pose proof (qx_trans _ _ _ _ X1 (qx_trans _ _ _ _ X2 (qx_trans _ _ _ _ X3 X4))) as X. apply (qmx_choose F None []); cbn [oheight optied]; eauto using calm_qx.
  exact (op_qx _ _ _ _ _ _ _ _ X N).
Qed.

(** ** The mode chosen when an instruction is built does not matter *)
Lemma minus_one z : z <> -1 -> match z with -1 => true | _ => false end = false.
Proof. intros H. destruct z as [|z|z]; auto. destruct z; auto. congruence. Qed.
Lemma mode_free g m vb hu v : In m src_modes -> (forall k, -1 <= g k) -> usable (hasg g) m = true -> is_word v = true -> hasg g m_aix && hasg g m_izx = false ->
  let bm := build_mode g m vb hu in
  snd bm = g (fst bm) /\ hasg g (fst bm) = true /\ adjust g (fst bm) v = select (hasg g) m v /\
  ((0 <=? fst bm) && (fst bm <? 15) && negb (nbytes (fst bm) =? 0) = true) /\ (fst bm =? m_r) = hasg g m_r.
Proof.
  intros I G U W X.
  assert (Hh : forall k, (g k =? -1) = negb (hasg g k)) by (intros; unfold hasg; now rewrite negb_involutive).
  unfold build_mode, adjust. rewrite !Hh. cbv zeta. rewrite !negb_involutive.
  assert (Hk : forall k, hasg g k = false -> g k = -1) by (intros k Hk; unfold hasg in Hk; apply negb_false_iff, Z.eqb_eq in Hk; exact Hk).
  assert (Hn : forall k, hasg g k = true -> g k <> -1) by (intros k Hn; unfold hasg in Hn; apply negb_true_iff, Z.eqb_neq in Hn; exact Hn).
  remember (hasg g) as h eqn:Eh. clear Eh Hh.
  unfold usable, select in *.
  rewrite (over_8 v), over_16. change ((0 <=? v) && (v <=? 255)) with (is_byte v). change ((0 <=? v) && (v <=? 65535)) with (is_word v). rewrite W. clear W.
  generalize (over vb 255). intros ov.
  destruct (is_byte v); destruct ov; destruct hu;
  (cbn in I; repeat (destruct I as [<-|I]; [
    match goal with |- context[zp_form ?m] => 
      let z := eval cbv [zp_form] in (zp_form m) in let z := eval vm_compute in z in
      destruct (h m_r) eqn:E1; destruct (h m) eqn:E2; destruct (h z) eqn:E3 end;
    vm_compute in U, X, E1, E2, E3; rewrite ?E1, ?E2, ?E3 in U; rewrite ?E1, ?E2, ?E3 in X; try discriminate U; try discriminate X; try congruence;
    vm_compute; rewrite ?E1, ?E2, ?E3; vm_compute; rewrite ?E1, ?E2, ?E3; vm_compute; rewrite ?E1, ?E2, ?E3; auto 10
    |]); try (destruct I; fail));
  first [rewrite (Hk _ E2)|rewrite (minus_one _ (Hn _ E2))]; auto 10.
Qed.
Lemma no_both c02 ill i : hasg (get_op_code c02 ill i) m_aix && hasg (get_op_code c02 ill i) m_izx = false.
Proof.
  unfold hasg, get_op_code. change (0 <=? m_aix) with true. change (m_aix <? max_addressing_mode) with true. change (0 <=? m_izx) with true. change (m_izx <? max_addressing_mode) with true.
  rewrite !andb_true_r. destruct ((0 <=? i) && (i <? max_opcode)); [|reflexivity]. destruct (negb ill && (illegal_start <=? i) && negb c02); [reflexivity|].
  unfold row. set (t := if c02 then ops65c02 else ops6502).
  assert (H : forallb (fun r => negb (negb (nth (Z.to_nat m_aix) r (-1) =? -1) && negb (nth (Z.to_nat m_izx) r (-1) =? -1))) t = true) by (unfold t; destruct c02; vm_compute; reflexivity).
  rewrite forallb_forall in H. destruct (nth_in_or_default (Z.to_nat i) t []) as [HT| ->]; [|reflexivity]. apply negb_true_iff, (H _ HT).
Qed.
