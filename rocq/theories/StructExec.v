(** Statements with conditions and loops: the induction over the run. *)
From Coq Require Import String Lia.
From Verif Require Import Base BaseProofs Hash Dict DictProofs DictMore Str Opcodes OpcodesProofs Err State Sym Machine Build Pass
  GenX Gen Inv SymProofs Sem ExprProofs ListRel ExprMore OpProofs OpMore InstrProofs InstrMore DataProofs DataMore DefProofs BadProofs DataWalk LoopProofs IfProofs Layout Struct StructRep StructOp StructRun.
Open Scope string_scope.
Open Scope list_scope.
Open Scope Z_scope.
Open Scope m_scope.

Section Cpu.
Variables c02 ill : bool.
Local Notation runs := (Struct.runs c02 ill).
Local Notation body_runs := (Struct.body_runs c02 ill).
Local Notation while_runs := (Struct.while_runs c02 ill).
Local Notation do_runs := (Struct.do_runs c02 ill).
Local Notation for_runs := (Struct.for_runs c02 ill).
Local Notation plainly := (Struct.plainly c02 ill).
Local Notation plainly_all := (Struct.plainly_all c02 ill).
Local Notation stied := (StructRun.stied c02 ill).
Local Notation btied := (StructRun.btied c02 ill).
Local Notation ready := (StructRun.ready c02 ill).
Local Notation ready_eff := (StructRun.ready_eff c02 ill).
Local Notation all_qt := (StructRun.all_qt c02 ill).
Local Notation data_run := (StructRun.data_run c02 ill).
Local Notation op_run := (StructRun.op_run c02 ill).
Definition all_uses (l : list (Z * stmt)) : list cstr := flat_map (fun x => uses (snd x)) l.
Definition all_targets (l : list (Z * stmt)) : list cstr := flat_map (fun x => targets (snd x)) l.
Definition done (U T : list cstr) (env' : cstr -> Z) (pc pc' : Z) (o : list Z) (s s' : state) : Prop :=
  eff o s s' /\ holds U T env' s' /\ pc' = pc + Z.of_nat (length o).
Definition ex_stmt (env : cstr -> Z) (pc : Z) (st : stmt) (env' : cstr -> Z) (pc' : Z) (o : list Z) : Prop :=
  exists F0, forall U T s p F, (F0 <= F)%nat -> plainly st -> stied s p st -> incl (uses st) U -> incl (targets st) T -> ready U T env s -> s_pc s = pc ->
    exists v s', expand F p s = Ok v s' /\ done U T env' pc pc' o s s'.
Definition ex_body (env : cstr -> Z) (pc : Z) (l : list (Z * stmt)) (env' : cstr -> Z) (pc' : Z) (o : list Z) : Prop :=
  exists F0, forall U T s p F, (F0 <= F)%nat -> plainly_all l -> btied s p l -> incl (all_uses l) U -> incl (all_targets l) T -> ready U T env s -> s_pc s = pc ->
    exists v s', expand F p s = Ok v s' /\ done U T env' pc pc' o s s'.
Definition ex_while (e : expr) (b : list (Z * stmt)) (env : cstr -> Z) (pc : Z) (env' : cstr -> Z) (pc' : Z) (o : list Z) : Prop :=
  exists F0, forall U T s c q F f, (F0 <= F)%nat -> (F0 <= f)%nat -> plainly_all b -> tied s c e -> btied s q b -> incl (names e) U -> incl (all_uses b) U -> incl (all_targets b) T ->
    ready U T env s -> s_pc s = pc -> exists s', while_loop (expand F) f c q s = Ok 0 s' /\ done U T env' pc pc' o s s'.
Definition ex_do (until : bool) (e : expr) (b : list (Z * stmt)) (env : cstr -> Z) (pc : Z) (env' : cstr -> Z) (pc' : Z) (o : list Z) : Prop :=
  exists F0, forall U T s c q F f, (F0 <= F)%nat -> (F0 <= f)%nat -> plainly_all b -> tied s c e -> btied s q b -> incl (names e) U -> incl (all_uses b) U -> incl (all_targets b) T ->
    ready U T env s -> s_pc s = pc -> exists s', do_loop (expand F) f until q c s = Ok 0 s' /\ done U T env' pc pc' o s s'.
Definition ex_for (n : cstr) (w k : Z) (b : list (Z * stmt)) (env : cstr -> Z) (pc : Z) (env' : cstr -> Z) (pc' : Z) (o : list Z) : Prop :=
  exists F0, forall U T s a q F f, (F0 <= F)%nat -> (F0 <= f)%nat -> plainly_all b -> dict_search (s_dict s) n = Some a -> In n U -> In n T -> btied s q b -> incl (all_uses b) U -> incl (all_targets b) T ->
    ready U T env s -> s_pc s = pc -> exists s', for_loop (expand F) f a w k q s = Ok 0 s' /\ done U T env' pc pc' o s s'.

Lemma ready_calm U T env s : ready U T env s -> calm s. Proof. intros H; apply H. Qed.
Lemma ready_stop U T env s : ready U T env s -> s_stop s = false. Proof. intros H; apply H. Qed.
Lemma ready_holds U T env s : ready U T env s -> holds U T env s. Proof. intros H; apply H. Qed.
Lemma ready_total U T env s : ready U T env s -> s_final s = true -> 0 <= s_total s. Proof. intros (_ & _ & G & _) Fi. apply (G Fi). Qed.
(** a quiet step before *)
Lemma done_after U T env env' pc pc' o s s1 s' : ready U T env s -> qt s s1 -> obs s1 = obs s -> done U T env' pc pc' o s1 s' -> done U T env' pc pc' o s s'.
Proof.
  intros R Q O (E & H & P). split; [|auto]. apply (eff_trans [] o s s1 s'); [exact (ready_total _ _ _ _ R)|apply eff_quiet; assumption|exact E].
Qed.
Lemma done_trans U T env env1 env2 pc pc1 pc2 o1 o2 s s1 s2 : ready U T env s -> done U T env1 pc pc1 o1 s s1 -> done U T env2 pc1 pc2 o2 s1 s2 -> done U T env2 pc pc2 (o1 ++ o2) s s2.
Proof.
  intros R (E1 & H1 & P1) (E2 & H2 & P2). split; [apply (eff_trans _ _ _ s1); auto; exact (ready_total _ _ _ _ R)|]. split; [exact H2|]. rewrite app_length, Nat2Z.inj_add. lia.
Qed.
Lemma done_quiet U T env pc s s' : holds U T env s' -> qt s s' -> obs s' = obs s -> done U T env pc pc [] s s'.
Proof. intros H Q O. split; [apply eff_quiet; assumption|]. split; [exact H|]. cbn. lia. Qed.
Lemma done_then U T env pc o s s1 s2 pc' : ready U T env s -> forall env1, done U T env1 pc pc' o s s1 -> qt s1 s2 -> obs s2 = obs s1 -> holds U T env1 s2 -> done U T env1 pc pc' o s s2.
Proof.
  intros R env1 (E & H & P) Q O H2. split; [|auto]. rewrite <- (app_nil_r o). apply (eff_trans _ _ _ s1); [exact (ready_total _ _ _ _ R)|exact E|apply eff_quiet; assumption].
Qed.
Lemma cond U T env F e s c v : (height e <= F)%nat -> ready U T env s -> tied s c e -> incl (names e) U -> val_of env (s_pc s) e = Some v ->
  exists s1, expand F c s = Ok v s1 /\ qt s s1 /\ obs s1 = obs s /\ ready U T env s1 /\ s_pc s1 = s_pc s.
Proof.
  intros HF R Tc I V. destruct (eval_ok U T env F e s c v HF (ready_calm _ _ _ _ R) Tc (ready_holds _ _ _ _ R) I V) as (s1 & E & Q & O & M & P).
  exists s1. split; [exact E|]. split; [exact Q|]. split; [exact O|]. split; [|exact P].
  apply (ready_eff U T env env [] s); [exact R|apply eff_quiet; assumption|]. apply (holds_same _ _ _ s); [apply R|apply Q|exact M].
Qed.
Lemma expand_body F p q r s : s_stop s = false -> nth_error (s_nodes s) p = Some (mkNode (KOpr OStatement) [q; r]) ->
  expand (S F) p s = (_ <- expand F q ;; _ <- expand F r ;; ret 0) s.
Proof.
  intros St N. rewrite (expand_node _ _ _ _ St N). unfold x_node. cbn [n_kind]. unfold x_opr, x_statement. cbn [n_ops expand_all]. unfold bind, ret.
  destruct (expand F q s) as [v s1| | |]; try reflexivity. destruct (expand F r s1); reflexivity.
Qed.
Lemma done_pc U T env' pc pc' o s s' : s_pc s = pc -> done U T env' pc pc' o s s' -> s_pc s' = pc'.
Proof. intros P (E & _ & ->). destruct (eff_get _ _ _ E) as (X & _). congruence. Qed.
Lemma done_ready U T env env' pc pc' o s s' : ready U T env s -> done U T env' pc pc' o s s' -> ready U T env' s'.
Proof. intros R (E & H & _). exact (ready_eff _ _ _ _ _ _ _ R E H). Qed.
Lemma snoc_plainly l ln st : plainly_all (l ++ [(ln, st)]) -> plainly st /\ (l = [] \/ plainly_all l).
Proof.
  intros H. inversion H as [ln0 st0 P E|l0 ln0 st0 P1 P2 E].
  - destruct l as [|x l]; [injection E as _ <-; auto|]. destruct l; discriminate E.
  - apply app_inj_tail in E. destruct E as [-> E]. injection E as _ <-. auto.
Qed.
Lemma snoc_btied s p l ln st : btied s p (l ++ [(ln, st)]) -> (l = [] /\ stied s p st) \/
  exists q r, nth_error (s_nodes s) p = Some (mkNode (KOpr OStatement) [q; r]) /\ btied s q l /\ stied s r st.
Proof.
  intros H. inversion H as [p0 ln0 st0 P Ep E|p0 q r l0 ln0 st0 N P1 P2 Ep E].
  - destruct l as [|x l]; [injection E as _ <-; auto|]. destruct l; discriminate E.
  - apply app_inj_tail in E. destruct E as [-> E]. injection E as _ <-. right. eauto.
Qed.
Lemma dict_fk k n s : calm s -> plain k -> plain n -> fk k = fk n -> dict_search (s_dict s) k = dict_search (s_dict s) n.
Proof.
  intros (Tb & Sc & _) Pk P E. destruct Tb as [[[T0 T1] T2] T3]. rewrite (dict_search_stack _ _ _ T0 (proj1 Pk)), (dict_search_stack _ _ _ T0 (proj1 P)).
  replace (stackof (s_dict s) k) with (stackof (s_dict s) n); auto. unfold stackof. apply filter_ext. intros x. unfold matches. rewrite E. reflexivity.
Qed.
Lemma btied_ne s p l : btied s p l -> l <> [].
Proof. intros H ->. inversion H. destruct l; discriminate. Qed.
Lemma body_nil_run env pc env' pc' o l : body_runs env pc l env' pc' o -> l = [] -> env' = env /\ pc' = pc /\ o = [].
Proof. intros H E. destruct H as [|? ? l]; [auto|]. destruct l; discriminate. Qed.
Lemma items_nonempty env size pc l o : size = 1 \/ size = 2 -> l <> [] -> Forall (fun i => match i with IExpr e => wfe e = true /\ eager e = true | IStr raw => exists a t, text_of raw = Some (a :: t) end) l ->
  items_bytes env size pc l = Some o -> o <> [].
Proof.
  intros Sz Ne Fa. destruct l as [|i l]; [contradiction|]. apply Forall_inv in Fa. cbn [items_bytes].
  destruct (item_size env size pc i); [|discriminate]. destruct (item_bytes env size pc i) as [b|] eqn:E; [|discriminate].
  destruct (items_bytes env size (pc + z) l); [|discriminate]. intros [= <-]. enough (b <> []) by (destruct b; [contradiction|discriminate]).
  destruct i as [e|raw]; cbn [item_bytes] in E.
  - destruct (item_value_at env pc e); [|discriminate]. destruct (value_fits size z0); [|discriminate]. injection E as <-. unfold value_bytes. destruct Sz as [->| ->]; discriminate.
  - destruct Fa as (a & t & Ht). rewrite Ht in E. injection E as <-. discriminate.
Qed.

Theorem exec : (forall env pc st env' pc' o, runs env pc st env' pc' o -> ex_stmt env pc st env' pc' o) /\
  (forall env pc l env' pc' o, body_runs env pc l env' pc' o -> ex_body env pc l env' pc' o) /\
  (forall e b env pc env' pc' o, while_runs e b env pc env' pc' o -> ex_while e b env pc env' pc' o) /\
  (forall until e b env pc env' pc' o, do_runs until e b env pc env' pc' o -> ex_do until e b env pc env' pc' o) /\
  (forall n w k b env pc env' pc' o, for_runs n w k b env pc env' pc' o -> ex_for n w k b env pc env' pc' o).
Proof.
  apply all_runs.
  - intros env pc. exists 1%nat. intros U T s p F HF Pl St Iu It R Pc. destruct F as [|F]; [lia|].
    inversion St as [p0 N| | | | | | | | | |]; subst p0. rewrite (expand_node _ _ _ _ (ready_stop _ _ _ _ R) N).
    exists 0, s. split; [reflexivity|]. apply done_quiet; [apply R|apply qt_refl|reflexivity].
  - intros env pc size l o Sz By. exists (S (list_fuel l)). intros U T s p F HF Pl St Iu It R Pc.
    inversion Pl as [|size0 l0 Hs Ne Fa E1| | | | | | | |]; subst size0 l0. inversion St as [|p0 size0 q l0 N L E1| | | | | | | | |]; subst p0 size0 l0.
    destruct (data_run U T env F size l q p s o R N L Iu Sz) as (s' & E & Ef & H); auto.
    + apply forallb_forall. intros i Hi. rewrite Forall_forall in Fa. specialize (Fa i Hi). destruct i; [apply Fa|reflexivity].
    + rewrite Pc. exact By.
    + eapply items_nonempty; eauto.
    + exists 0, s'. split; [exact E|]. split; [exact Ef|]. split; [exact H|reflexivity].
  - (* an instruction *)
    intros env pc instr f o By. exists (S (S (list_sum (map height (operand_of f))))). intros U T s p F HF Pl St Iu It R Pc.
    inversion Pl as [| |instr0 f0 Kn E1| | | | | | |]; subst instr0 f0.
    destruct (op_run U T env F instr f p s o R St Kn Iu ltac:(rewrite Pc; exact By) HF) as (s' & E & Ef & H).
    exists 0, s'. split; [exact E|]. split; [exact Ef|]. split; [exact H|reflexivity].
  - intros env pc n e v V. exists (S (S (height e))). intros U T s p F HF Pl St Iu It R Pc. destruct F as [|F]; [lia|].
    inversion St as [| |p0 q r n0 i a e0 N1 N2 D I Tr| | | | | | | |]; subst p0 n0 e0. rewrite (expand_node _ _ _ _ (ready_stop _ _ _ _ R) N1).
    destruct (assign_ok U T env F e n q r i a v s ltac:(lia) (ready_calm _ _ _ _ R) Tr (ready_holds _ _ _ _ R) Iu ltac:(apply It; left; reflexivity)
      ltac:(rewrite Pc; exact V) D N2 I) as (s' & E & Rs & _).
    exists v, s'. split; [exact E|]. apply done_quiet; [eapply holds_reset; eauto; apply R|apply Rs|apply Rs].
  - (* .IF taken *)
    intros env pc e b el v env' pc' o V Nz _ (F0 & IH). exists (S (height e + F0)). intros U T s p F HF Pl St Iu It R Pc. destruct F as [|F]; [lia|].
    assert (X : exists c q rest, nth_error (s_nodes s) p = Some (mkNode (KOpr OIf) ([c; q] ++ rest)) /\ tied s c e /\ btied s q b /\ incl (names e) U /\ incl (all_uses b) U /\ incl (all_targets b) T /\ plainly_all b).
    { inversion St as [| | |p0 c q e0 b0 N Tc B|p0 c q r e0 b0 el0 N Tc B B2| | | | | |]; subst; inversion Pl; subst; cbn [uses targets] in Iu, It.
      - exists c, q, []. split; [exact N|]. split; [exact Tc|]. split; [exact B|]. split; [intros x Hx; apply Iu, in_or_app; auto|].
        split; [intros x Hx; apply Iu, in_or_app; auto|]. split; [exact It|assumption].
      - exists c, q, [r]. split; [exact N|]. split; [exact Tc|]. split; [exact B|]. split; [intros x Hx; apply Iu, in_or_app; auto|].
        split; [intros x Hx; apply Iu; rewrite !in_app_iff; auto|]. split; [intros x Hx; apply It, in_or_app; auto|assumption]. }
    destruct X as (c & q & rest & N & Tc & B & I1 & I2 & I3 & Pb). rewrite (node_if _ _ _ _ _ _ (ready_stop _ _ _ _ R) N).
    destruct (cond U T env F e s c v ltac:(lia) R Tc I1 ltac:(rewrite Pc; exact V)) as (s1 & E1 & Q1 & O1 & R1 & P1). rewrite E1.
    destruct (v =? 0) eqn:Ev; [apply Z.eqb_eq in Ev; contradiction|].
    destruct (IH U T s1 q F ltac:(lia) Pb (proj2 (all_qt _ _ Q1) _ _ B) I2 I3 R1 ltac:(congruence)) as (w & s2 & E2 & D2). rewrite E2.
    exists 0, s2. split; [reflexivity|]. exact (done_after _ _ _ _ _ _ _ _ _ _ R Q1 O1 D2).
  - (* .ELSE *)
    intros env pc e b el env' pc' o V _ (F0 & IH). exists (S (height e + F0)). intros U T s p F HF Pl St Iu It R Pc. destruct F as [|F]; [lia|].
    inversion St as [| | | |p0 c q r e0 b0 el0 N Tc B B2| | | | | |]; subst. inversion Pl; subst. cbn [uses targets] in Iu, It.
    change [c; q; r] with ([c; q] ++ [r]) in N. rewrite (node_if _ _ _ _ _ _ (ready_stop _ _ _ _ R) N).
    destruct (cond U T env F e s c 0 ltac:(lia) R Tc ltac:(intros x Hx; apply Iu, in_or_app; auto) V) as (s1 & E1 & Q1 & O1 & R1 & P1). rewrite E1.
    cbn [Z.eqb hd_error].
    destruct (IH U T s1 r F ltac:(lia) ltac:(assumption) (proj2 (all_qt _ _ Q1) _ _ B2) ltac:(intros x Hx; apply Iu; rewrite !in_app_iff; auto) ltac:(intros x Hx; apply It; rewrite in_app_iff; auto) R1 ltac:(congruence)) as (w & s2 & E2 & D2). rewrite E2.
    exists 0, s2. split; [reflexivity|]. exact (done_after _ _ _ _ _ _ _ _ _ _ R Q1 O1 D2).
  - (* .IF not taken *)
    intros env pc e b V. exists (S (height e)). intros U T s p F HF Pl St Iu It R Pc. destruct F as [|F]; [lia|].
    inversion St as [| | |p0 c q e0 b0 N Tc B| | | | | | |]; subst. cbn [uses targets] in Iu, It.
    change [c; q] with ([c; q] ++ []) in N. rewrite (node_if _ _ _ _ _ _ (ready_stop _ _ _ _ R) N).
    destruct (cond U T env F e s c 0 ltac:(lia) R Tc ltac:(intros x Hx; apply Iu, in_or_app; auto) V) as (s1 & E1 & Q1 & O1 & R1 & P1). rewrite E1.
    cbn [Z.eqb hd_error]. exists 0, s1. split; [reflexivity|]. apply done_quiet; [apply R1|exact Q1|exact O1].
  - (* .WHILE *)
    intros env pc e b env' pc' o _ (F0 & IH). exists (S F0). intros U T s p F HF Pl St Iu It R Pc. destruct F as [|F]; [lia|].
    inversion St as [| | | | |p0 c q e0 b0 N Tc B| | | | |]; subst. inversion Pl; subst. cbn [uses targets] in Iu, It.
    rewrite (expand_node _ _ _ _ (ready_stop _ _ _ _ R) N).
    destruct (IH U T s c q F F ltac:(lia) ltac:(lia) ltac:(assumption) Tc B ltac:(intros x Hx; apply Iu, in_or_app; auto) ltac:(intros x Hx; apply Iu, in_or_app; auto) It R eq_refl) as (s' & E & D).
    exists 0, s'. split; [exact E|exact D].
  - (* .REPEAT *)
    intros env pc e b env' pc' o _ (F0 & IH). exists (S F0). intros U T s p F HF Pl St Iu It R Pc. destruct F as [|F]; [lia|].
    inversion St as [| | | | | |p0 q c e0 b0 N Tc B| | | |]; subst. inversion Pl; subst. cbn [uses targets] in Iu, It.
    rewrite (expand_node _ _ _ _ (ready_stop _ _ _ _ R) N).
    destruct (IH U T s c q F F ltac:(lia) ltac:(lia) ltac:(assumption) Tc B ltac:(intros x Hx; apply Iu, in_or_app; auto) ltac:(intros x Hx; apply Iu, in_or_app; auto) It R eq_refl) as (s' & E & D).
    exists 0, s'. split; [exact E|exact D].
  - (* .DO *)
    intros env pc e b env' pc' o _ (F0 & IH). exists (S F0). intros U T s p F HF Pl St Iu It R Pc. destruct F as [|F]; [lia|].
    inversion St as [| | | | | | |p0 q c e0 b0 N Tc B| | |]; subst. inversion Pl; subst. cbn [uses targets] in Iu, It.
    rewrite (expand_node _ _ _ _ (ready_stop _ _ _ _ R) N).
    destruct (IH U T s c q F F ltac:(lia) ltac:(lia) ltac:(assumption) Tc B ltac:(intros x Hx; apply Iu, in_or_app; auto) ltac:(intros x Hx; apply Iu, in_or_app; auto) It R eq_refl) as (s' & E & D).
    exists 0, s'. split; [exact E|exact D].
  - (* .FOR *)
    intros env pc n e0 e1 step b next k v w env' pc' o Vk V0 V1 Nx _ (F0 & IH).
    exists (S (S (height e0 + height e1 + match step with Some e => height e | None => 0 end + F0))). intros U T s p F HF Pl St Iu It R Pc. destruct F as [|F]; [lia|].
    inversion St as [| | | | | | | |p0 asg q r c wb j i kk a a' n0 next0 e00 e10 step0 sv b0 N1 N2 N3 Da Ia T0 T1 B N4 Da' Ia' Sv| |]; subst. inversion Pl; subst. cbn [uses targets] in Iu, It.
    rewrite (expand_node _ _ _ _ (ready_stop _ _ _ _ R) N1). unfold x_node. cbn [n_kind]. unfold x_opr, x_for.
    (* the step *)
    assert (X : exists s1, (match nth_error (n_ops (mkNode (KOpr OFor) ([asg; c; wb; j] ++ sv))) 4 with Some m => expand F m | None => ret 1 end) s = Ok k s1 /\
      qt s s1 /\ obs s1 = obs s /\ ready U T env s1 /\ s_pc s1 = s_pc s).
    { destruct step as [es|], sv as [|x [|]]; try contradiction; cbn [n_ops app nth_error].
      - apply (cond U T env F es s x k ltac:(lia) R Sv); [|exact Vk]. intros y Hy. apply Iu. cbn [In]. rewrite !in_app_iff. auto 10.
      - injection Vk as <-. exists s. split; [reflexivity|]. split; [apply qt_refl|]. auto. }
    destruct X as (s1 & E1 & Q1 & O1 & R1 & P1). unfold bind at 1. rewrite E1. clear E1.
    pose proof (node_opr _ _ _ _ _ Q1 N2) as N2'. destruct (node_name _ _ _ _ _ _ _ Q1 N3 Da Ia) as (i1 & N3' & I1).
    assert (Da1 : dict_search (s_dict s1) n = Some a) by (rewrite (q_dict _ _ Q1); exact Da).
    assert (Un : In n U) by (apply Iu; left; reflexivity). assert (Tn : In n T) by (apply It; left; reflexivity).
    destruct (ready_holds _ _ _ _ R n Un) as (Pn & _).
    unfold opn. cbn [n_ops app nth_error]. unfold bind at 1, ret at 1. unfold bind at 1, node_get at 1. unfold bind at 1, gets at 1. rewrite N2'. unfold ret at 1. cbn [n_ops nth_error].
    unfold bind at 1, ret at 1.
    destruct (cached_ok n a i1 q [] s1 (ready_calm _ _ _ _ R1) Pn Da1 N3' I1) as (s2 & E2 & Q2 & O2 & M2 & P2). unfold bind at 1. rewrite E2.
    assert (R2 : ready U T env s2).
    { apply (ready_eff U T env env [] s1); [exact R1|apply eff_quiet; assumption|]. apply (holds_same _ _ _ s1); [apply R1|apply Q2|exact M2]. }
    (* the assignment *)
    pose proof (qt_trans _ _ _ Q1 Q2) as Q12. destruct (node_name _ _ _ _ _ _ _ Q12 N3 Da Ia) as (i2 & N3'' & I2).
    assert (Da2 : dict_search (s_dict s2) n = Some a) by (rewrite (q_dict _ _ Q12); exact Da).
    destruct F as [|F]; [lia|].
    destruct (assign_ok U T env F e0 n q r i2 a v s2 ltac:(lia) (ready_calm _ _ _ _ R2) (tied_qt _ _ _ _ Q12 T0) (ready_holds _ _ _ _ R2)
      ltac:(intros y [<-|Hy]; [exact Un|]; apply Iu; cbn [In]; rewrite !in_app_iff; auto 10) Tn ltac:(rewrite P2, P1; exact V0) Da2 N3'' I2) as (s3 & E3 & Rs3 & P3).
    unfold bind at 1. rewrite (expand_node F asg s2 _ (ready_stop _ _ _ _ R2) (node_opr _ _ _ _ _ Q12 N2)).
    change (x_node (expand F) F asg (mkNode (KOpr OEqu) [q; r]) s2) with (x_equ (expand F) (mkNode (KOpr OEqu) [q; r]) s2). rewrite E3.
    pose proof Rs3 as (Q3 & O3 & M3). pose proof (qt_trans _ _ _ Q12 Q3) as Q13.
    assert (R3 : ready U T (with_value env n v) s3).
    { apply (ready_eff U T env _ [] s2); [exact R2|apply eff_quiet; assumption|]. eapply holds_reset; [apply R2|exact Rs3]. }
    (* .NEXT *)
    assert (Unx : In next U) by (apply Iu; right; left; reflexivity). destruct (ready_holds _ _ _ _ R next Unx) as (Pnx & _).
    assert (a' = a). { rewrite (dict_fk next n s (ready_calm _ _ _ _ R) Pnx Pn Nx) in Da'. congruence. } subst a'.
    destruct (node_name _ _ _ _ _ _ _ Q13 N4 Da' Ia') as (k3 & N4' & K3).
    assert (Da3 : dict_search (s_dict s3) next = Some a) by (rewrite (q_dict _ _ Q13); exact Da').
    destruct (cached_ok next a k3 j [] s3 (ready_calm _ _ _ _ R3) Pnx Da3 N4' K3) as (s4 & E4 & Q4 & O4 & M4 & P4).
    unfold bind at 1, ret at 1. unfold bind at 1. rewrite E4.
    assert (R4 : ready U T (with_value env n v) s4).
    { apply (ready_eff U T (with_value env n v) _ [] s3); [exact R3|apply eff_quiet; assumption|]. apply (holds_same _ _ _ s3); [apply R3|apply Q4|exact M4]. }
    (* the end *)
    pose proof (qt_trans _ _ _ Q13 Q4) as Q14.
    destruct (cond U T (with_value env n v) (S F) e1 s4 c w ltac:(lia) R4 (tied_qt _ _ _ _ Q14 T1)
      ltac:(intros y Hy; apply Iu; cbn [In]; rewrite !in_app_iff; auto 10) ltac:(rewrite P4, P3, P2, P1; exact V1)) as (s5 & E5 & Q5 & O5 & R5 & P5).
    unfold bind at 1, ret at 1. unfold bind at 1. rewrite E5. rewrite Nat.eqb_refl. cbn [negb]. unfold bind at 1, ret at 1.
    pose proof (qt_trans _ _ _ Q14 Q5) as Q15.
    destruct (IH U T s5 a wb (S F) (S F) ltac:(lia) ltac:(lia) ltac:(assumption) ltac:(rewrite (q_dict _ _ Q15); exact Da) Un Tn (proj2 (all_qt _ _ Q15) _ _ B)
      ltac:(intros y Hy; apply Iu; cbn [In]; rewrite !in_app_iff; auto 10) ltac:(intros y Hy; apply It; right; exact Hy) R5 ltac:(congruence)) as (s6 & E6 & D6).
    exists 0, s6. split; [exact E6|]. apply (done_after U T env env' _ _ _ s s5); auto. congruence.
  - (* no statement *)
    intros env pc. exists 0%nat. intros U T s p F _ _ B. destruct (btied_ne _ _ _ B eq_refl).
  - (* one more statement *)
    intros env pc l ln st env1 pc1 o1 env2 pc2 o2 Hl (F1 & IH1) _ (F2 & IH2). exists (S (F1 + F2)). intros U T s p F HF Pl B Iu It R Pc.
    destruct (snoc_plainly _ _ _ Pl) as [Ps Pll]. unfold all_uses, all_targets in Iu, It. rewrite flat_map_app in Iu, It. cbn [flat_map snd] in Iu, It. rewrite app_nil_r in Iu, It.
    destruct (snoc_btied _ _ _ _ _ B) as [(-> & St)|(q & r & N & Bq & St)].
    + destruct (body_nil_run _ _ _ _ _ _ Hl eq_refl) as (-> & -> & ->). apply (IH2 U T s p F ltac:(lia) Ps St Iu It R Pc).
    + destruct Pll as [->|Pll]; [destruct (btied_ne _ _ _ Bq eq_refl)|]. destruct F as [|F]; [lia|].
      rewrite (expand_body _ _ _ _ _ (ready_stop _ _ _ _ R) N).
      destruct (IH1 U T s q F ltac:(lia) Pll Bq ltac:(intros x Hx; apply Iu, in_or_app; auto) ltac:(intros x Hx; apply It, in_or_app; auto) R Pc) as (v1 & s1 & E1 & D1).
      pose proof (proj1 (all_qt _ _ (f_qt _ _ _ (proj1 D1))) _ _ St) as St1.
      destruct (IH2 U T s1 r F ltac:(lia) Ps St1 ltac:(intros x Hx; apply Iu, in_or_app; auto) ltac:(intros x Hx; apply It, in_or_app; auto) (done_ready _ _ _ _ _ _ _ _ _ R D1)
        (done_pc _ _ _ _ _ _ _ _ Pc D1)) as (v2 & s2 & E2 & D2).
      unfold bind. rewrite E1, E2. exists 0, s2. split; [reflexivity|]. exact (done_trans _ _ _ _ _ _ _ _ _ _ _ _ _ R D1 D2).
  - (* the condition fails *)
    intros e b env pc V. exists (S (height e)). intros U T s c q F f HF Hf Pl Tc B I1 I2 I3 R Pc. destruct f as [|f]; [lia|]. cbn [while_loop].
    destruct (cond U T env F e s c 0 ltac:(lia) R Tc I1 ltac:(rewrite Pc; exact V)) as (s1 & E1 & Q1 & O1 & R1 & P1). unfold bind at 1. rewrite E1.
    exists s1. split; [reflexivity|]. apply done_quiet; [apply R1|exact Q1|exact O1].
  - (* a turn of .WHILE *)
    intros e b env pc v env1 pc1 o1 env2 pc2 o2 V Nz _ (F1 & IH1) Le _ (F2 & IH2). exists (S (height e + F1 + F2)).
    intros U T s c q F f HF Hf Pl Tc B I1 I2 I3 R Pc. destruct f as [|f]; [lia|]. cbn [while_loop].
    destruct (cond U T env F e s c v ltac:(lia) R Tc I1 ltac:(rewrite Pc; exact V)) as (s1 & E1 & Q1 & O1 & R1 & P1). unfold bind at 1. rewrite E1.
    destruct (v =? 0) eqn:Ev; [apply Z.eqb_eq in Ev; contradiction|].
    destruct (IH1 U T s1 q F ltac:(lia) Pl (proj2 (all_qt _ _ Q1) _ _ B) I2 I3 R1 ltac:(congruence)) as (w & s2 & E2 & D2).
    unfold bind at 1. rewrite E2. unfold bind at 1, gets at 1.
    pose proof (done_after _ _ _ _ _ _ _ _ _ _ R Q1 O1 D2) as D2'. pose proof (done_pc _ _ _ _ _ _ _ _ Pc D2') as P2.
    destruct (max_address <? s_pc s2) eqn:Em; [unfold max_address in Em; lia|].
    pose proof (f_qt _ _ _ (proj1 D2')) as Q2.
    destruct (IH2 U T s2 c q F f ltac:(lia) ltac:(lia) Pl (tied_qt _ _ _ _ Q2 Tc) (proj2 (all_qt _ _ Q2) _ _ B) I1 I2 I3 (done_ready _ _ _ _ _ _ _ _ _ R D2') P2) as (s3 & E3 & D3).
    exists s3. split; [exact E3|]. exact (done_trans _ _ _ _ _ _ _ _ _ _ _ _ _ R D2' D3).
  - (* the last turn of .DO and .REPEAT *)
    intros unt e b env pc env1 pc1 o v _ (F1 & IH1) Le V Hu. exists (S (height e + F1)).
    intros U T s c q F f HF Hf Pl Tc B I1 I2 I3 R Pc. destruct f as [|f]; [lia|]. cbn [do_loop].
    destruct (IH1 U T s q F ltac:(lia) Pl B I2 I3 R Pc) as (w & s1 & E1 & D1). unfold bind at 1. rewrite E1. unfold bind at 1, gets at 1.
    pose proof (done_pc _ _ _ _ _ _ _ _ Pc D1) as P1. destruct (max_address <? s_pc s1) eqn:Em; [unfold max_address in Em; lia|].
    pose proof (f_qt _ _ _ (proj1 D1)) as Q1. pose proof (done_ready _ _ _ _ _ _ _ _ _ R D1) as R1.
    destruct (cond U T env1 F e s1 c v ltac:(lia) R1 (tied_qt _ _ _ _ Q1 Tc) I1 ltac:(rewrite P1; exact V)) as (s2 & E2 & Q2 & O2 & R2 & P2). unfold bind at 1. rewrite E2.
    replace (Bool.eqb (v =? 0) unt) with false by (symmetry; destruct unt; cbn; destruct (Z.eqb_spec v 0); cbn; congruence).
    exists s2. split; [reflexivity|]. apply (done_then U T env pc o s s1 s2 pc1 R env1 D1 Q2 O2). apply R2.
  - (* another turn *)
    intros unt e b env pc env1 pc1 o1 v env2 pc2 o2 _ (F1 & IH1) Le V Hu _ (F2 & IH2). exists (S (height e + F1 + F2)).
    intros U T s c q F f HF Hf Pl Tc B I1 I2 I3 R Pc. destruct f as [|f]; [lia|]. cbn [do_loop].
    destruct (IH1 U T s q F ltac:(lia) Pl B I2 I3 R Pc) as (w & s1 & E1 & D1). unfold bind at 1. rewrite E1. unfold bind at 1, gets at 1.
    pose proof (done_pc _ _ _ _ _ _ _ _ Pc D1) as P1. destruct (max_address <? s_pc s1) eqn:Em; [unfold max_address in Em; lia|].
    pose proof (f_qt _ _ _ (proj1 D1)) as Q1. pose proof (done_ready _ _ _ _ _ _ _ _ _ R D1) as R1.
    destruct (cond U T env1 F e s1 c v ltac:(lia) R1 (tied_qt _ _ _ _ Q1 Tc) I1 ltac:(rewrite P1; exact V)) as (s2 & E2 & Q2 & O2 & R2 & P2). unfold bind at 1. rewrite E2.
    replace (Bool.eqb (v =? 0) unt) with true by (symmetry; destruct unt; cbn; destruct (Z.eqb_spec v 0); cbn; congruence).
    pose proof (qt_trans _ _ _ Q1 Q2) as Q12. pose proof (done_then U T env pc o1 s s1 s2 pc1 R env1 D1 Q2 O2 (ready_holds _ _ _ _ R2)) as D2.
    destruct (IH2 U T s2 c q F f ltac:(lia) ltac:(lia) Pl (tied_qt _ _ _ _ Q12 Tc) (proj2 (all_qt _ _ Q12) _ _ B) I1 I2 I3 R2 ltac:(congruence)) as (s3 & E3 & D3).
    exists s3. split; [exact E3|]. exact (done_trans _ _ _ _ _ _ _ _ _ _ _ _ _ R D2 D3).
  - (* the variable has passed the end *)
    intros n w k b env pc Bd. exists 1%nat. intros U T s a q F f HF Hf Pl Da Un Tn B I2 I3 R Pc. destruct f as [|f]; [lia|]. cbn [for_loop].
    destruct (ready_holds _ _ _ _ R n Un) as (Pn & _ & bb & M & Hb). pose proof (ready_calm _ _ _ _ R) as (Tb & Sc & _).
    destruct (found _ _ _ Tb Sc Pn Da) as (y & Y & E & _). rewrite M in E. unfold ycore in E. injection E as Y1 _ _ _ _.
    unfold bind at 1. rewrite (sym_get_eq _ _ _ Y), Y1. exists s. split; [|apply done_quiet; [apply R|apply qt_refl|reflexivity]].
    unfold beyond in Bd. destruct ((0 <? k) && (w <? env n)) eqn:C1; [reflexivity|]. destruct ((k <? 0) && (env n <? w)) eqn:C2; [reflexivity|]. lia.
  - (* a turn of .FOR *)
    intros n w k b env pc env1 pc1 o1 env2 pc2 o2 Nb _ (F1 & IH1) Le _ (F2 & IH2). exists (S (F1 + F2)).
    intros U T s a q F f HF Hf Pl Da Un Tn B I2 I3 R Pc. destruct f as [|f]; [lia|]. cbn [for_loop].
    destruct (ready_holds _ _ _ _ R n Un) as (Pn & _ & bb & M & Hb). pose proof (ready_calm _ _ _ _ R) as (Tb & Sc & _).
    destruct (found _ _ _ Tb Sc Pn Da) as (y & Y & E & _). rewrite M in E. unfold ycore in E. injection E as Y1 _ _ _ _.
    unfold bind at 1. rewrite (sym_get_eq _ _ _ Y), Y1.
    unfold beyond in Nb. destruct ((0 <? k) && (w <? env n)) eqn:C1; [lia|]. destruct ((k <? 0) && (env n <? w)) eqn:C2; [lia|]. clear y Y Y1 M.
    destruct (IH1 U T s q F ltac:(lia) Pl B I2 I3 R Pc) as (u & s1 & E1 & D1). unfold bind at 1. rewrite E1. unfold bind at 1, gets at 1.
    pose proof (done_pc _ _ _ _ _ _ _ _ Pc D1) as P1. destruct (max_address <? s_pc s1) eqn:Em; [unfold max_address in Em; lia|].
    pose proof (f_qt _ _ _ (proj1 D1)) as Q1. pose proof (done_ready _ _ _ _ _ _ _ _ _ R D1) as R1.
    destruct (ready_holds _ _ _ _ R1 n Un) as (_ & _ & b1 & M1 & Hb1). rewrite (Hb1 Tn) in M1. pose proof (ready_calm _ _ _ _ R1) as Cm1. pose proof Cm1 as (Tb1 & Sc1 & _).
    assert (Da1 : dict_search (s_dict s1) n = Some a) by (rewrite (q_dict _ _ Q1); exact Da).
    destruct (found _ _ _ Tb1 Sc1 Pn Da1) as (y & Y & E & _). rewrite M1 in E. unfold ycore in E. injection E as Y1 _ _ _ _.
    unfold bind at 1. rewrite (sym_get_eq _ _ _ Y), Y1.
    destruct (set_value_ok n a (env1 n) (env1 n + k) s1 Cm1 Pn Da1 M1) as (s2 & E2 & Rs2 & P2). unfold bind at 1. rewrite E2. pose proof Rs2 as (Q2 & O2 & _).
    pose proof (holds_reset _ _ _ _ _ _ _ (ready_holds _ _ _ _ R1) Rs2) as H2.
    assert (R2 : ready U T (with_value env1 n (env1 n + k)) s2) by (apply (ready_eff U T env1 _ [] s1); [exact R1|apply eff_quiet; assumption|exact H2]).
    pose proof (qt_trans _ _ _ Q1 Q2) as Q12.
    assert (D2 : done U T (with_value env1 n (env1 n + k)) pc pc1 o1 s s2).
    { destruct D1 as (Ef & _ & Pe). split; [|split; [exact H2|exact Pe]]. rewrite <- (app_nil_r o1). apply (eff_trans _ _ _ s1); [exact (ready_total _ _ _ _ R)|exact Ef|apply eff_quiet; assumption]. }
    destruct (IH2 U T s2 a q F f ltac:(lia) ltac:(lia) Pl ltac:(rewrite (q_dict _ _ Q12); exact Da) Un Tn (proj2 (all_qt _ _ Q12) _ _ B) I2 I3 R2 ltac:(congruence)) as (s3 & E3 & D3).
    exists s3. split; [exact E3|]. exact (done_trans _ _ _ _ _ _ _ _ _ _ _ _ _ R D2 D3).
Qed.
End Cpu.
