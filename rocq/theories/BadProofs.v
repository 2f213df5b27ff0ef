(** When the evaluation of an operand fails (a division by zero is reported, or the arithmetic overflows), the
    statement it belongs to does not end without an error. *)
From Coq Require Import String Lia.
From Verif Require Import Base BaseProofs Hash Dict DictProofs DictMore Str Opcodes OpcodesProofs Err State Sym Machine Build Pass
  GenX Gen Inv SymProofs Sem ExprProofs ExprMore OpProofs OpMore InstrProofs InstrMore DataProofs.
Open Scope string_scope.
Open Scope list_scope.
Open Scope Z_scope.
Open Scope m_scope.

(** an error was counted since [s], or the computation did not return *)
Definition bad {A} (s : state) (r : res A) : Prop := match r with Ok _ s' => s_errs s < s_errs s' | _ => True end.
Notation R := (with_fix Rmsgs).
Definition SR : steps R R := closed_steps _ Rmsgs_closed.
Definition SC : compound R R := closed_compound _ Rmsgs_closed.
Lemma ER F p s : prs2 R R (expand F p) s. Proof. apply expand_prs, Rmsgs_closed. Qed.
Lemma R_errs s s' : R s s' -> s_errs s <= s_errs s'.
Proof. intros [_ (l & _ & H)]. lia. Qed.
Lemma R_final s s' : R s s' -> s_final s' = s_final s.
Proof. intros [H _]. apply H. Qed.

Lemma bad_bind {A B} s (m : M A) (k : A -> M B) s1 : bad s (m s1) -> prs2 R R m s1 ->
  (forall a s', R s1 s' -> prs2 R R (k a) s') -> bad s (bind m k s1).
Proof.
  unfold bad, bind, prs2. intros H1 H2 H3. destruct (m s1) as [a s'|c s'| |]; auto. specialize (H3 a s' H2).
  destruct (k a s') as [b s2|c s2| |]; auto. apply R_errs in H3. lia.
Qed.
Lemma bad_le {A} s s0 (r : res A) : s_errs s <= s_errs s0 -> bad s0 r -> bad s r.
Proof. unfold bad. destruct r; auto. lia. Qed.
Lemma bad_obs {A} s s0 (r : res A) : obs s0 = obs s -> bad s0 r -> bad s r.
Proof. intros O. apply bad_le. rewrite (obs_errs _ _ O). lia. Qed.
Lemma bad_ok {A} s (r : res A) a s' : bad s r -> r = Ok a s' -> s_errs s' = s_errs s -> False.
Proof. unfold bad. intros H -> E. lia. Qed.

Lemma bad_later {A} s s2 (m : M A) : s_errs s < s_errs s2 -> prs2 R R m s2 -> bad s (m s2).
Proof. unfold bad, prs2. intros E H. destruct (m s2); auto. apply R_errs in H. lia. Qed.

(** the value of an operand, when there is one *)
Definition value_at (C : cstr -> core_t) (pc : Z) (e : expr) : option Z := item_value_at (fun n => cval (C n)) pc e.
Lemma value_known C pc e v : eager e = true -> value_at C pc e = Some v -> known C pc e v.
Proof.
  unfold value_at, item_value_at, known. intros Ea H. split; [|exact Ea].
  destruct (sem (fun n => cval (C n)) pc e) as [[w [|k|k]]|]; try discriminate. congruence.
Qed.
Lemma known_value C pc e v : known C pc e v -> value_at C pc e = Some v.
Proof. unfold value_at, item_value_at, known. intros [-> _]. reflexivity. Qed.
Lemma eval_bad C u e F s q : (height e <= F)%nat -> tab s -> s_stop s = false -> rep C u s q e -> value_at C (s_pc s) e = None ->
  bad s (expand F q s).
Proof.
  intros HF T St Rp V. pose proof (eval_rep C u e F s q HF T St Rp) as E. unfold value_at, item_value_at in V.
  destruct (sem (fun n => cval (C n)) (s_pc s) e) as [[v k]|] eqn:Sm; cbn [evaluates] in E.
  - pose proof (sem_count _ _ _ _ _ Sm) as K0. destruct E as (s' & -> & _ & Er & _). cbn [bad].
    assert (k <> 0) by (intros ->; discriminate V). lia.
  - rewrite E. exact I.
Qed.

(** ** Building *)
Lemma opcode_node_bad C u e F s q instr m0 : (height e <= F)%nat -> tab s -> s_stop s = false -> rep C u s q e ->
  value_at C (s_pc s) e = None -> bad s (opcode_node (expand F) instr m0 [q] s).
Proof.
  intros HF T St Rp V. rewrite opcode_node_rest. unfold bind at 1, op_code at 1, gets. cbv zeta.
  unfold bind at 1. rewrite alloc_eq. set (s1 := set_nodes _ s).
  assert (E1 : evo s s1) by (apply evo_alloc; [reflexivity|exact T]).
  pose proof (rep_evo _ _ _ _ _ _ E1 Rp) as R1.
  apply bad_bind.
  - cbn [expand_all]. apply bad_bind; [|apply ER|intros a s' _; apply (prs_ret _ _ SR)].
    apply (eval_bad C u e F s1 q HF (e_tab _ _ E1) St R1). exact V.
  - apply (prs_expand_all _ _ SR _ (ER F)).
  - intros v s' _. apply (prs_opcode_rest _ _ SR _ (ER F)).
Qed.
Lemma build_op_bad instr f m e F s : form_mode f = Some (m, e) -> tab s -> s_stop s = false -> wfe e = true -> plain_expr s e ->
  (height e <= F)%nat -> value_at (meaning s) (s_pc s) e = None -> bad s (build_op (expand F) instr f s).
Proof.
  intros Ff T St W P HF V. rewrite (build_op_form _ _ _ _ _ _ Ff). unfold bindo, bind at 1.
  destruct (build_expr_rep e s T W P) as (q & s1 & -> & H1 & Er & Rp & _). unfold some.
  apply bad_bind; [|apply (prs_opcode_node _ _ SR _ (ER F))|intros a s' _; apply (prs_ret _ _ SR)].
  apply (bad_le s s1); [lia|]. apply (opcode_node_bad (meaning s) true e); auto.
  - apply (e_tab _ _ H1).
  - rewrite (evo_stop _ _ H1). exact St.
  - rewrite (evo_pc _ _ H1). exact V.
Qed.

(** ** Expanding *)
Lemma x_op_code_prefix F s p q instr c m npc0 C e : tab s -> rep C false s q e -> s_stop s = false ->
  0 <= m < 15 -> nbytes m <> 0 ->
  nth_error (s_nodes s) p = Some (mkNode (KOp instr c m npc0) [q]) -> unknown_name C e = false ->
  exists s2, x_op_code (expand F) p s =
    (r <- op_loop (expand F) 1 p 0 (op_bytes_of m) (if m =? m_r then m_r else short_mode m) false false m c ;;
     x_op_rest (expand F) p false m c r) s2 /\ hv s s2 /\ obs s2 = obs (org s) /\
    nth_error (s_nodes s2) p = Some (mkNode (KOp instr c m (s_pc s)) [q]).
Proof.
  intros T Rp St M B N U. unfold x_op_code. unfold bind at 1. rewrite (op_info_eq _ _ _ _ _ _ _ N).
  unfold bind at 1, gets at 1. unfold bind at 1. rewrite when_org.
  destruct (org_same s) as (D1 & D2 & D3 & D4 & D5 & D6 & D7). pose proof (hv_org s T) as H1.
  unfold bind at 1, gets at 1. rewrite D2.
  assert (N1 : nth_error (s_nodes (org s)) p = Some (mkNode (KOp instr c m npc0) [q])) by (rewrite D1; exact N).
  unfold bind at 1. rewrite (set_op_eq _ _ _ _ _ _ _ _ N1).
  set (s2 := set_nodes _ (org s)).
  assert (H2 : hv (org s) s2) by (eapply hv_setop; [apply (h_tab _ _ H1)|exact N1]).
  assert (N2 : nth_error (s_nodes s2) p = Some (mkNode (KOp instr c m (s_pc s)) [q])) by (eapply upd_here, N1).
  pose proof (hv_trans _ _ _ H1 H2) as H12. pose proof (rep_hv _ _ _ _ _ _ H12 Rp) as R2.
  assert (B0 : (0 <? op_bytes_of m) = true).
  { clear -M B. revert B. revert m M. refine (nth15 _ _). intros m I. cbn in I.
    repeat (destruct I as [<-|I]; [vm_compute; intuition congruence|]). destruct I. }
  cbv zeta. rewrite B0. unfold bind at 1. rewrite (has_uninitialized_rep _ _ _ _ _ _ N2 R2). rewrite U. cbn [length].
  exists s2. split; [reflexivity|]. split; [exact H12|]. split; [apply obs_set_nodes|exact N2].
Qed.
Lemma x_op_code_bad C e F s p q instr c m npc0 : (height e <= F)%nat -> tab s -> s_stop s = false -> rep C false s q e ->
  unknown_name C e = false -> 0 <= m < 15 -> nbytes m <> 0 ->
  nth_error (s_nodes s) p = Some (mkNode (KOp instr c m npc0) [q]) -> value_at C (s_pc s) e = None ->
  bad s (x_op_code (expand F) p s).
Proof.
  intros HF T St Rp U M B N V.
  destruct (x_op_code_prefix F s p q instr c m npc0 C e T Rp St M B N U) as (s2 & -> & H2 & O2 & N2).
  destruct (org_same s) as (D1 & D2 & D3 & D4 & D5 & D6 & D7).
  assert (P2 : s_pc s2 = s_pc s) by (rewrite (obs_pc _ _ O2); exact D2).
  assert (St2 : s_stop s2 = false) by (rewrite (obs_stop _ _ O2), D3; exact St).
  apply (bad_le s s2); [rewrite (obs_errs _ _ O2), D7; lia|].
  pose proof (rep_hv _ _ _ _ _ _ H2 Rp) as R2.
  apply bad_bind; [|apply (prs_op_loop _ _ SR _ (ER F))|intros a s' _; apply (prs_x_op_rest _ _ SR _ (ER F))].
  rewrite op_loop_rest. unfold bind at 1. rewrite (op_info_eq _ _ _ _ _ _ _ N2). cbn [nth_error]. unfold bind at 1, ret at 1.
  apply bad_bind; [|apply ER|intros a s' _; apply (prs_op_rest _ _ SR _ (ER F))].
  apply (eval_bad C false e); auto; [apply (h_tab _ _ H2)|rewrite P2; exact V].
Qed.

(** ** Listing *)
Lemma list_op_bad C e F s p q instr opc mode npc : (height e <= F)%nat -> tab s -> s_stop s = false -> rep C false s q e ->
  0 <= mode < 15 -> 0 < nbytes mode -> s_final s = true ->
  nth_error (s_nodes s) p = Some (mkNode (KOp instr opc mode npc) [q]) -> value_at C (s_pc s) e = None ->
  bad s (generate_list_node (expand F) p s).
Proof.
  intros HF T St Rp M B Fn N V. unfold generate_list_node, node_get, gets. unfold bind at 1, bind at 1. rewrite N. unfold ret at 1.
  unfold bind at 1. cbn [n_kind n_ops]. unfold bind at 1. rewrite mode_bytes_ok by auto.
  rewrite (proj2 (Z.ltb_lt _ _) B). unfold bind at 1, opn. cbn [n_ops nth_error]. unfold ret at 1.
  apply bad_bind; [|apply ER|].
  - apply (eval_bad C false e); auto.
  - intros a s' HR. apply (prs_list_op_rest _ _ SR _ (ER F) (mkNode (KOp instr opc mode npc) [q])). rewrite (R_final _ _ HR). exact Fn.
Qed.
Lemma list_value_bad C u e F s p : (height e <= F)%nat -> tab s -> s_stop s = false -> rep C u s p e -> s_final s = true ->
  value_at C (s_pc s) e = None -> bad s (generate_list_node (expand F) p s).
Proof.
  intros HF T St Rp Fn V. destruct (rep_kind _ _ _ _ _ Rp) as (x & N & Kk & Ks & _).
  unfold generate_list_node, node_get, gets. unfold bind at 1, bind at 1. rewrite N. unfold ret at 1. unfold bind at 1.
  assert (X : bad s ((op <- expand F p ;; list_value_rest (s_pc s) op) s)).
  { apply bad_bind; [|apply ER|].
    - apply (eval_bad C u e); auto.
    - intros a s' HR. apply (prs_list_value_rest _ _ SR). rewrite (R_final _ _ HR). exact Fn. }
  destruct (n_kind x); try discriminate; exact X.
Qed.
Lemma emit_value_bad C u e F s p : (height e <= F)%nat -> tab s -> s_stop s = false -> rep C u s p e -> s_final s = true ->
  value_at C (s_pc s) e = None -> bad s (list_and_output (expand F) p s).
Proof.
  intros HF T St Rp Fn V. unfold list_and_output. apply bad_bind.
  - apply (list_value_bad C u e); auto.
  - apply (prs_generate_list_node _ _ SR _ (ER F)), Fn.
  - intros a s' HR. rewrite <- (R_final _ _ HR) in Fn. apply (prs_bind _ _ SR); [apply (prs_generate_output _ _ SR _ (ER F)), Fn|].
    intros. apply (prs_ret _ _ SR).
Qed.

(** ** Names met by the evaluation are in the table *)
Definition entered (s : state) (ns : list cstr) : Prop := forall n, In n ns -> dl s n <> None.
Lemma entered_rep C s q e : rep C false s q e -> owned s -> s_scope s = None -> (forall n, In n (names e) -> plain n) -> entered s (names e).
Proof.
  intros Rp O Sc. induction Rp as [p v N|p v N|p n a y N D Hy Ey|p n Eu N Pn Ey|p o q e N U L Rp IH|p o q1 q2 e1 e2 N U L1 L2 R1 IH1 R2 IH2];
    cbn [names]; intros P n0 H; cbn in H; try tauto; try discriminate.
  - destruct H as [<-|[]]. exact (proj1 (proj2 (O Sc _ _ _ _ N (P _ (or_introl eq_refl))))).
  - apply IH; auto.
  - apply in_app_or in H. destruct H as [H|H]; [apply IH1|apply IH2]; auto; intros; apply P, in_or_app; auto.
Qed.
Lemma entered_kept s s' ns : kept s s' -> (forall n, In n ns -> plain n) -> entered s ns -> entered s' ns.
Proof.
  intros K P E n H. specialize (E n H). pose proof (k_pm _ _ K n (proj1 (P n H)) E) as X. intros Y. rewrite Y in X.
  destruct (dl s n); [discriminate|congruence].
Qed.
(** the names of the operands of an item; a name alone is not looked at in an analysis pass *)
Definition inner_names (e : expr) : list cstr := match e with ESym _ => [] | _ => names e end.
Lemma eval_ops_w C u e F s p x : (height e <= F)%nat -> tab s -> s_stop s = false -> rep C u s p e -> eager e = true ->
  nth_error (s_nodes s) p = Some x -> s_scope s = None -> owned s -> (forall n, In n (names e) -> plain n) ->
  bad s (expand_all (expand F) (n_ops x) 0 s) \/
  exists w s', expand_all (expand F) (n_ops x) 0 s = Ok w s' /\ hv s s' /\ obs s' = obs s /\ rep C u s' p e /\
    s_dsz s' = s_dsz s /\ has_uninitialized p s' = Ok (inner C e) s' /\ nth_error (s_nodes s') p = Some x /\ entered s' (inner_names e).
Proof.
  intros HF T St Rp Ea N Sc Ow Pl.
  assert (Leaf : n_ops x = [] -> (forall k l, x = mkNode k l -> has_uninitialized p s = Ok (inner C e) s) -> inner_names e = [] ->
     exists w s', expand_all (expand F) (n_ops x) 0 s = Ok w s' /\ hv s s' /\ obs s' = obs s /\ rep C u s' p e /\
       s_dsz s' = s_dsz s /\ has_uninitialized p s' = Ok (inner C e) s' /\ nth_error (s_nodes s') p = Some x /\ entered s' (inner_names e)).
  { intros E U I. rewrite E. cbn [expand_all]. exists 0, s. split; [reflexivity|]. split; [apply hv_refl, T|]. split; [reflexivity|].
    split; [exact Rp|]. split; [reflexivity|]. split; [destruct x; eapply U; reflexivity|]. split; [exact N|]. rewrite I. intros n []. }
  assert (L0 : forall k, nth_error (s_nodes s) p = Some (mkNode k []) -> has_uninitialized p s = Ok false s).
  { intros k Hk. unfold has_uninitialized, bind, gets. rewrite (has_uninit_eq _ _ _ _ Hk). reflexivity. }
  inversion Rp as [p0 v0 Np|p0 v0 Np|p0 n a y Np D Hy Ey|p0 n Eu Np P Ey|p0 o q e0 Np U Lt R0|p0 o q1 q2 e1 e2 Np B L1 L2 R1 R2]; subst;
    rewrite Np in N; injection N as <-.
  1-4: right; apply Leaf; [reflexivity| |reflexivity]; intros k l [= <- <-]; apply (L0 _ Np).
  - clear Leaf L0. cbn [height] in HF. cbn [n_ops expand_all names] in *. 
    assert (Ea0 : eager e0 = true) by exact Ea.
    destruct (value_at C (s_pc s) e0) as [w|] eqn:V.
    2:{ left. apply bad_bind; [apply (eval_bad C u e0); auto; lia|apply ER|intros; apply (prs_ret _ _ SR)]. }
    right. destruct (eval_known C u e0 w F s q ltac:(lia) T St R0 (value_known _ _ _ _ Ea0 V)) as (s1 & E1 & H1 & O1 & Rq & P1 & D1).
    exists w, s1. unfold bind. rewrite E1. split; [reflexivity|]. split; [exact H1|]. split; [exact O1|].
    split; [exact (rep_hv _ _ _ _ _ _ H1 Rp)|]. split; [exact D1|].
    assert (N1 : nth_error (s_nodes s1) p = Some (mkNode (KOpr o) [q])) by (eapply opr_hv; [apply h_base|]; eassumption).
    split; [rewrite (has_uninitialized_rep C s1 p (KOpr o) q e0 N1 Rq); reflexivity|]. split; [exact N1|].
    cbn [inner_names names]. apply (entered_rep C s1 q); auto; [apply (k_own _ _ (h_keep _ _ H1)), Ow|]. rewrite (h_scope _ _ H1). exact Sc.
  - clear Leaf L0. cbn [height] in HF. cbn [n_ops expand_all names] in *.
    assert (Ea1 : eager e1 = true /\ eager e2 = true).
    { cbn [eager] in Ea. repeat (apply andb_prop in Ea; destruct Ea as [Ea ?]). split; auto. }
    destruct Ea1 as [Ea1 Ea2].
    destruct (value_at C (s_pc s) e1) as [w1|] eqn:V1.
    2:{ left. apply bad_bind; [apply (eval_bad C u e1); auto; lia|apply ER|intros]. apply (prs_expand_all _ _ SR _ (ER F) [q2] a). }
    destruct (eval_known C u e1 w1 F s q1 ltac:(lia) T St R1 (value_known _ _ _ _ Ea1 V1)) as (s1 & E1 & H1 & O1 & Rq1 & P1 & D1).
    assert (St1 : s_stop s1 = false) by (rewrite (obs_stop _ _ O1); exact St).
    destruct (value_at C (s_pc s) e2) as [w2|] eqn:V2.
    2:{ left. unfold bind at 1. rewrite E1. apply bad_bind; [|apply ER|intros; apply (prs_ret _ _ SR)].
        apply (bad_obs s s1); [exact O1|]. apply (eval_bad C u e2); auto; [lia|apply (h_tab _ _ H1)|exact (rep_hv _ _ _ _ _ _ H1 R2)|].
        rewrite (obs_pc _ _ O1). exact V2. }
    right. destruct (eval_known C u e2 w2 F s1 q2 ltac:(lia) (h_tab _ _ H1) St1 (rep_hv _ _ _ _ _ _ H1 R2)
       ltac:(rewrite (obs_pc _ _ O1); exact (value_known _ _ _ _ Ea2 V2))) as (s2 & E2 & H2 & O2 & Rq2 & P2 & D2).
    exists w2, s2. unfold bind. rewrite E1, E2. split; [reflexivity|].
    pose proof (hv_trans _ _ _ H1 H2) as H. split; [exact H|]. split; [congruence|].
    split; [exact (rep_hv _ _ _ _ _ _ H Rp)|]. split; [congruence|].
    assert (N2 : nth_error (s_nodes s2) p = Some (mkNode (KOpr o) [q1; q2])) by (eapply opr_hv; [apply h_base|]; eassumption).
    assert (Rp2 : rep C false s2 p (EBin o e1 e2)) by (eapply RepBin; eauto; exact (rep_hv _ _ _ _ _ _ H2 Rq1)).
    split; [|split; [exact N2|]].
    + unfold has_uninitialized, bind, gets. apply has_uninit_rep; [exact Rp2|]. destruct (rep_height _ _ _ _ _ Rp2). lia.
    + cbn [inner_names]. apply (entered_rep C s2 p); auto; [apply (k_own _ _ (h_keep _ _ H)), Ow|]. rewrite (h_scope _ _ H). exact Sc.
Qed.
