(** Statements with conditions and loops: expanding their nodes is running them. *)
From Coq Require Import String Lia.
From Verif Require Import Base BaseProofs Hash Dict DictProofs DictMore Str Opcodes OpcodesProofs Err State Sym Machine Build Pass
  GenX Gen Inv SymProofs Sem ExprProofs ListRel ExprMore OpProofs OpMore InstrProofs InstrMore DataProofs DataMore DefProofs BadProofs DataWalk LoopProofs IfProofs Layout LineTwo Struct StructRep StructOp.
Open Scope string_scope.
Open Scope list_scope.
Open Scope Z_scope.
Open Scope m_scope.

(** ** Variables in the table *)
Definition var_core (v : Z) : core_t := (v, true, false, false, true).
(** the names [U] are in the table with the values of [env]; those of [T] are variables *)
Definition holds (U T : list cstr) (env : cstr -> Z) (s : state) : Prop :=
  forall n, In n U -> plain n /\ dict_search (s_dict s) n <> None /\ exists b, meaning s n = (env n, true, false, false, b) /\ (In n T -> b = true).
Lemma holds_val U T env s e : holds U T env s -> incl (names e) U -> forall pc, sem (fun n => cval (meaning s n)) pc e = sem env pc e.
Proof.
  intros H I pc. apply sem_ext. intros n Hn. destruct (H n (I n Hn)) as (_ & _ & b & E & _). rewrite E. reflexivity.
Qed.
(** evaluation in a quiet table *)
Lemma eval_ok U T env F e s p v : (height e <= F)%nat -> calm s -> tied s p e -> holds U T env s -> incl (names e) U -> val_of env (s_pc s) e = Some v ->
  exists s', expand F p s = Ok v s' /\ qt s s' /\ obs s' = obs s /\ (forall n, plain n -> meaning s' n = meaning s n) /\ s_pc s' = s_pc s.
Proof.
  intros HF Cm R H I V. pose proof Cm as (Tb & Sc & St).
  pose proof (eval_rep _ true e F s p HF Tb St (tied_rep _ _ _ Tb Sc R)) as X. rewrite (holds_val _ _ _ _ _ H I) in X.
  unfold val_of in V. destruct (sem env (s_pc s) e) as [[w k]|]; [|discriminate]. destruct k; try discriminate. injection V as ->.
  destruct X as (s1 & E1 & V1 & Er & _). exists s1. split; [exact E1|].
  pose proof (qm_eval e F s p HF Cm R) as Q. unfold qm in Q. rewrite E1 in Q. split; [apply Q|].
  assert (O : obs s1 = obs s). { rewrite (obs_evo _ _ V1), Er, Z.add_0_r. rewrite <- (obs_get_errs s). apply errs_id. }
  split; [exact O|]. split; [apply (e_res _ _ V1)|]. rewrite <- (obs_get_pc s1), O. apply obs_get_pc.
Qed.
Lemma holds_same U T env s s' : holds U T env s -> s_dict s' = s_dict s -> (forall n, plain n -> meaning s' n = meaning s n) -> holds U T env s'.
Proof. intros H D M n Hn. destruct (H n Hn) as (P & X & b & E & Hb). split; [exact P|]. rewrite D. split; [exact X|]. exists b. rewrite (M n P). auto. Qed.

(** ** Setting a variable *)
Definition reset (n : cstr) (v : Z) (s s' : state) : Prop :=
  qt s s' /\ obs s' = obs s /\ forall k, plain k -> meaning s' k = if list_eq_dec Z.eq_dec (fk k) (fk n) then var_core v else meaning s k.
Lemma holds_reset U T env n v s s' : holds U T env s -> reset n v s s' -> holds U T (with_value env n v) s'.
Proof.
  intros H (Q & _ & M) k Hk. destruct (H k Hk) as (P & X & b & E & Hb). split; [exact P|]. rewrite (q_dict _ _ Q). split; [exact X|].
  rewrite (M k P). unfold with_value. fold (fk k) (fk n). destruct (list_eq_dec _ _ _); [exists true|exists b]; auto.
Qed.
Lemma reset_upd n a y v s : calm s -> plain n -> dict_search (s_dict s) n = Some a -> nth_error (s_syms s) a = Some y ->
  isvar y -> forall y', ycore y' = var_core v -> y_pm y' = y_pm y -> reset n v s (set_syms (upd a y' (s_syms s)) s).
Proof.
  intros (Tb & Sc & St) P D Y Iv y' C Pm. split; [apply (qt_sym a y); [exact Y|right; split; [exact Iv|exists v; exact C]]|]. split; [apply obs_set_syms|].
  assert (X : dfn n (ycore y') s (set_syms (upd a y' (s_syms s)) s)).
  { apply (dfn_upd n a y y' s); auto; unfold hand; rewrite Sc; exact D. }
  intros k Pk. destruct (list_eq_dec Z.eq_dec (fk k) (fk n)) as [E|E]; [rewrite (d_here _ _ _ _ X k Pk E); exact C|apply (d_other _ _ _ _ X k Pk E)].
Qed.
Lemma meaning_fk k n s : calm s -> plain k -> plain n -> fk k = fk n -> meaning s k = meaning s n.
Proof.
  intros (Tb & Sc & _) Pk P E. unfold meaning, resolve. rewrite Sc. f_equal. unfold dl, dlookup. cbn [fst snd].
  replace (dict_search (s_dict s) k) with (dict_search (s_dict s) n); [reflexivity|].
  destruct Tb as [[[T0 T1] T2] T3]. rewrite (dict_search_stack _ _ _ T0 (proj1 Pk)), (dict_search_stack _ _ _ T0 (proj1 P)).
  replace (stackof (s_dict s) k) with (stackof (s_dict s) n); auto. unfold stackof. apply filter_ext. intros x. unfold matches. rewrite E. reflexivity.
Qed.
Lemma reset_same n v s : plain n -> calm s -> meaning s n = var_core v -> reset n v s s.
Proof.
  intros P Cm M. split; [apply qt_refl|]. split; [reflexivity|]. intros k Pk. destruct (list_eq_dec _ _ _) as [E|E]; [|reflexivity].
  rewrite <- M. apply meaning_fk; auto.
Qed.
Lemma reset_quiet n v s s1 s2 : qt s s1 -> obs s1 = obs s -> (forall k, plain k -> meaning s1 k = meaning s k) -> reset n v s1 s2 -> reset n v s s2.
Proof.
  intros Q O M (Q2 & O2 & M2). split; [exact (qt_trans _ _ _ Q Q2)|]. split; [congruence|]. intros k Pk. rewrite (M2 k Pk), (M k Pk). reflexivity.
Qed.
Lemma set_value_ok n a w v s : calm s -> plain n -> dict_search (s_dict s) n = Some a -> meaning s n = var_core w ->
  exists s', set_symbol_value a v s = Ok tt s' /\ reset n v s s' /\ s_pc s' = s_pc s.
Proof.
  intros Cm P D M. pose proof Cm as (Tb & Sc & St). destruct (found _ _ _ Tb Sc P D) as (y & Y & E & _). rewrite M in E. unfold ycore, var_core in E. injection E as E1 E2 E3 E4 E5.
  destruct (set_symbol_value_spec a v s y Y) as (s1 & E6 & H). exists s1. split; [exact E6|].
  destruct H as [(-> & Hv)|[(_ & X & _)|(_ & _ & ->)]]; [|congruence|].
  - split; [apply reset_same; auto; rewrite M; congruence|reflexivity].
  - rewrite E5, orb_true_r. cbv zeta. split; [|reflexivity]. apply (reset_upd n a y v s Cm P D Y); [exists w; unfold ycore, var_core in *; congruence|unfold ycore, var_core; cbn; congruence|reflexivity].
Qed.
(** finding the record of an identifier node *)
Lemma cached_ok n a i p l s : calm s -> plain n -> dict_search (s_dict s) n = Some a -> nth_error (s_nodes s) p = Some (mkNode (KId n i) l) -> i = None \/ i = Some a ->
  exists s', cached_symbol p s = Ok a s' /\ qt s s' /\ obs s' = obs s /\ (forall k, plain k -> meaning s' k = meaning s k) /\ s_pc s' = s_pc s.
Proof.
  intros Cm P D N [->| ->]; unfold cached_symbol; unfold bind at 1; unfold node_get; unfold bind at 1, gets; rewrite N; unfold ret at 1; cbn [n_kind n_ops].
  - destruct Cm as (Tb & Sc & St). destruct (add_found n a s Tb Sc P D) as (y & Y & C & E). unfold bind, ret. rewrite E. unfold node_set, modify.
    eexists. split; [reflexivity|]. split; [apply (qt_cache p n a y l s N D Y), like_times|]. cbn [s_nodes set_syms].
    split; [rewrite obs_set_nodes; apply obs_set_syms|]. split; [|reflexivity].
    intros k Pk. assert (X : dfn n (ycore (y_times_inc y)) s (set_syms (upd a (y_times_inc y) (s_syms s)) s)).
    { apply (dfn_upd n a y _ s); auto; unfold hand; rewrite Sc; exact D. }
    change (meaning (set_syms (upd a (y_times_inc y) (s_syms s)) s) k = meaning s k).
    destruct (list_eq_dec Z.eq_dec (fk k) (fk n)) as [E1|E1]; [|apply (d_other _ _ _ _ X k Pk E1)].
    rewrite (d_here _ _ _ _ X k Pk E1), core_times, C. symmetry. apply meaning_fk; auto. exact (conj Tb (conj Sc St)).
  - unfold ret. eexists. split; [reflexivity|]. split; [apply qt_refl|]. auto.
Qed.

(** name = expression *)
Lemma assign_ok U T env F e n n0 n1 i a v s : (height e <= F)%nat -> calm s -> tied s n1 e -> holds U T env s -> incl (n :: names e) U -> In n T ->
  val_of env (s_pc s) e = Some v -> dict_search (s_dict s) n = Some a -> nth_error (s_nodes s) n0 = Some (mkNode (KId n i) []) -> i = None \/ i = Some a ->
  exists s', x_equ (expand F) (mkNode (KOpr OEqu) [n0; n1]) s = Ok v s' /\ reset n v s s' /\ s_pc s' = s_pc s.
Proof.
  intros HF Cm R H I Tn V D N Ii. destruct (H n (I n (or_introl eq_refl))) as (P & _ & b & M & Hb). rewrite (Hb Tn) in M. clear b Hb.
  destruct (eval_ok U T env F e s n1 v HF Cm R H (fun k Hk => I k (or_intror Hk)) V) as (s1 & E1 & Q1 & O1 & M1 & Pc1).
  destruct (plain_pm n P) as [P1 P2]. destruct (direct_head _ (plain_direct _ P)) as [D1 D2]. destruct (node_name _ _ _ _ _ _ _ Q1 N D Ii) as (j & N1 & Ij).
  pose proof (calm_qt _ _ Q1 Cm) as Cm1. assert (D' : dict_search (s_dict s1) n = Some a) by (rewrite (q_dict _ _ Q1); exact D).
  unfold x_equ, opn. cbn [nth_error n_ops]. unfold bind at 1, ret at 1. unfold bind at 1. rewrite E1.
  unfold bind at 1, ret at 1. unfold bind at 1. unfold node_get at 1. unfold bind at 1, gets at 1. rewrite N1. unfold ret at 1. cbn [n_kind n_ops]. rewrite P1, P2.
  assert (X : exists s2, (match j with
           | Some a => if hd0 n =? 64 then a <- add_symbol n ;; node_set n0 (mkNode (KId n a) []) ;;; ret a else ret (Some a)
           | None => a <- add_symbol n ;; node_set n0 (mkNode (KId n a) []) ;;; ret a
           end) s1 = Ok (Some a) s2 /\ qt s1 s2 /\ obs s2 = obs s1 /\ (forall k, plain k -> meaning s2 k = meaning s1 k) /\ s_pc s2 = s_pc s1).
  { destruct (cached_ok n a j n0 [] s1 Cm1 P D' N1 Ij) as (s2 & E2 & R2). exists s2. split; [|exact R2].
    unfold cached_symbol in E2. unfold bind at 1 in E2. unfold node_get in E2. unfold bind at 1, gets in E2. rewrite N1 in E2. unfold ret at 1 in E2. cbn [n_kind n_ops] in E2.
    destruct Ij as [->| ->].
    - unfold bind, ret in *. destruct (add_symbol n s1) as [r t| | |]; try discriminate. cbn in E2 |- *. destruct r; [congruence|discriminate].
    - unfold ret in *. rewrite D2. congruence. }
  destruct X as (s2 & E2 & Q2 & O2 & M2 & Pc2). unfold bind at 1. rewrite E2. pose proof (calm_qt _ _ Q2 Cm1) as Cm2.
  assert (D2' : dict_search (s_dict s2) n = Some a) by (rewrite (q_dict _ _ Q2); exact D').
  assert (Mn : meaning s2 n = var_core (env n)) by (rewrite (M2 n P), (M1 n P); exact M).
  pose proof Cm2 as (Tb2 & Sc2 & _). destruct (found _ _ _ Tb2 Sc2 P D2') as (y & Y & E & _). rewrite Mn in E.
  unfold ycore, var_core in E. injection E as Y1 Y2 Y3 Y4 Y5.
  unfold bind at 1. rewrite (sym_get_eq _ _ _ Y). rewrite Y2. cbn [negb orb].
  assert (Fin : forall s', reset n v s2 s' -> reset n v s s').
  { intros s' X. eapply reset_quiet; [exact (qt_trans _ _ _ Q1 Q2)|congruence| |exact X]. intros k Pk. rewrite (M2 k Pk). apply M1, Pk. }
  destruct (y_value y =? v) eqn:Ev; cbn [negb].
  - unfold ret. exists s2. split; [reflexivity|]. split; [|congruence]. apply Fin, reset_same; auto. apply Z.eqb_eq in Ev. rewrite Mn. congruence.
  - destruct (set_value_ok n a (env n) v s2 Cm2 P D2' Mn) as (s3 & E3 & R3 & Pc3). pose proof R3 as (Q3 & O3 & M3).
    assert (Rr : forall t, (match y_scope y, s_scope s2 with None, Some c => add_symbol (dotted c (y_name y)) | _, _ => ret (Some a) end) t = Ok (Some a) t).
    { intros t. rewrite Sc2. destruct (y_scope y); reflexivity. }
    unfold bind at 1, gets at 1. unfold bind at 1. rewrite Rr. unfold bind at 1. rewrite E3.
    pose proof (calm_qt _ _ Q3 Cm2) as Cm3. pose proof Cm3 as (Tb3 & Sc3 & _). assert (D3 : dict_search (s_dict s3) n = Some a) by (rewrite (q_dict _ _ Q3); exact D2').
    destruct (found _ _ _ Tb3 Sc3 P D3) as (y3 & Y' & E & _). rewrite (M3 n P) in E. destruct (list_eq_dec _ _ _) as [_|X]; [|congruence].
    unfold ycore, var_core in E. injection E as Z1 Z2 Z3 Z4 Z5.
    unfold bind at 1. rewrite (sym_get_eq _ _ _ Y'). unfold sym_set, modify, bind, ret. eexists. split; [reflexivity|]. split; [|cbn; congruence].
    apply Fin.
    assert (R4 : reset n v s3 (set_syms (upd a (y_set_init true y3) (s_syms s3)) s3)).
    { apply (reset_upd n a y3 v s3 Cm3 P D3 Y'); [exists v; unfold ycore; congruence|unfold ycore, var_core; cbn; congruence|reflexivity]. }
    destruct R4 as (Q4 & O4 & M4). split; [exact (qt_trans _ _ _ Q3 Q4)|]. split; [congruence|]. intros k Pk. rewrite (M4 k Pk), (M3 k Pk).
    destruct (list_eq_dec _ _ _); reflexivity.
Qed.

(** ** The nodes of statements *)
Section Cpu.
Variables c02 ill : bool.
Inductive stied (s : state) : nat -> stmt -> Prop :=
| StEmpty p : nth_error (s_nodes s) p = Some (mkNode (KOpr OStatement) []) -> stied s p SEmpty
| StData p size q l : nth_error (s_nodes s) p = Some (mkNode (KData size q) []) -> ltied s q l -> stied s p (SData size l)
| StAssign p q r n i a e : nth_error (s_nodes s) p = Some (mkNode (KOpr OEqu) [q; r]) -> nth_error (s_nodes s) q = Some (mkNode (KId n i) []) ->
    dict_search (s_dict s) n = Some a -> i = None \/ i = Some a -> tied s r e -> stied s p (SAssign n e)
| StIf p c q e b : nth_error (s_nodes s) p = Some (mkNode (KOpr OIf) [c; q]) -> tied s c e -> btied s q b -> stied s p (SIf e b None)
| StElse p c q r e b el : nth_error (s_nodes s) p = Some (mkNode (KOpr OIf) [c; q; r]) -> tied s c e -> btied s q b -> btied s r el -> stied s p (SIf e b (Some el))
| StWhile p c q e b : nth_error (s_nodes s) p = Some (mkNode (KOpr OWhile) [c; q]) -> tied s c e -> btied s q b -> stied s p (SWhile e b)
| StRepeat p q c e b : nth_error (s_nodes s) p = Some (mkNode (KOpr ORepeat) [q; c]) -> tied s c e -> btied s q b -> stied s p (SRepeat b e)
| StDo p q c e b : nth_error (s_nodes s) p = Some (mkNode (KOpr ODo) [q; c]) -> tied s c e -> btied s q b -> stied s p (SDo b e)
| StFor p asg q r c w j i k a a' n next e0 e1 step sv b :
    nth_error (s_nodes s) p = Some (mkNode (KOpr OFor) ([asg; c; w; j] ++ sv)) -> nth_error (s_nodes s) asg = Some (mkNode (KOpr OEqu) [q; r]) ->
    nth_error (s_nodes s) q = Some (mkNode (KId n i) []) -> dict_search (s_dict s) n = Some a -> i = None \/ i = Some a -> tied s r e0 ->
    tied s c e1 -> btied s w b -> nth_error (s_nodes s) j = Some (mkNode (KId next k) []) -> dict_search (s_dict s) next = Some a' -> k = None \/ k = Some a' ->
    match step, sv with None, [] => True | Some e, [x] => tied s x e | _, _ => False end -> stied s p (SFor n e0 e1 step b next)
| StImp p instr f k n : form f = inl k -> nth_error (s_nodes s) p = Some (mkNode (KOp instr (get_op_code c02 ill instr k) k n) []) -> stied s p (SOp instr f)
| StOp p q instr f m e vb hu n : form f = inr (m, e) -> ctied s q e ->
    nth_error (s_nodes s) p = Some (mkNode (KOp instr (snd (build_mode (get_op_code c02 ill instr) m vb hu)) (fst (build_mode (get_op_code c02 ill instr) m vb hu)) n) [q]) ->
    stied s p (SOp instr f)
with btied (s : state) : nat -> list (Z * stmt) -> Prop :=
| BtOne p ln st : stied s p st -> btied s p [(ln, st)]
| BtSnoc p q r l ln st : nth_error (s_nodes s) p = Some (mkNode (KOpr OStatement) [q; r]) -> btied s q l -> stied s r st -> btied s p (l ++ [(ln, st)]).
Scheme stied_mut := Minimality for stied Sort Prop with btied_mut := Minimality for btied Sort Prop.
Combined Scheme all_tied from stied_mut, btied_mut.
Lemma node_data s s' p k d : qt s s' -> nth_error (s_nodes s) p = Some (mkNode (KData k d) []) -> nth_error (s_nodes s') p = Some (mkNode (KData k d) []).
Proof. intros Q H. destruct (q_node _ _ Q _ _ H) as (x & H1 & N). inversion N; subst. exact H1. Qed.
Lemma node_op s s' p i o m c l : qt s s' -> nth_error (s_nodes s) p = Some (mkNode (KOp i o m c) l) -> exists c', nth_error (s_nodes s') p = Some (mkNode (KOp i o m c') l).
Proof. intros Q H. destruct (q_node _ _ Q _ _ H) as (x & H1 & N). inversion N; subst; eauto. Qed.
Lemma all_qt s s' : qt s s' -> (forall p st, stied s p st -> stied s' p st) /\ (forall p l, btied s p l -> btied s' p l).
Proof.
  intros Q. apply (all_tied s).
  - intros. apply StEmpty. eauto using node_opr.
  - intros. eapply StData; eauto using node_data, ltied_qt.
  - intros p q r n i a e N1 N2 D I T. destruct (node_name _ _ _ _ _ _ _ Q N2 D I) as (i' & N' & I').
    eapply StAssign; eauto using node_opr, tied_qt. rewrite (q_dict _ _ Q). exact D.
  - intros. eapply StIf; eauto using node_opr, tied_qt.
  - intros. eapply StElse; eauto using node_opr, tied_qt.
  - intros. eapply StWhile; eauto using node_opr, tied_qt.
  - intros. eapply StRepeat; eauto using node_opr, tied_qt.
  - intros. eapply StDo; eauto using node_opr, tied_qt.
  - intros p asg q r c w j i k a a' n next e0 e1 step sv b N1 N2 N3 D I T0 T1 B IB N4 D' I' Sv.
    destruct (node_name _ _ _ _ _ _ _ Q N3 D I) as (i2 & N3' & I2). destruct (node_name _ _ _ _ _ _ _ Q N4 D' I') as (k2 & N4' & K2).
    eapply StFor; eauto using node_opr, tied_qt; try (rewrite (q_dict _ _ Q); eassumption).
    destruct step, sv as [|x [|]]; auto. eauto using tied_qt.
  - intros p instr f k n Ef N. destruct (node_op _ _ _ _ _ _ _ _ Q N) as (c' & N'). eapply StImp; [exact Ef|exact N'].
  - intros p q instr f m e vb hu n Ef T N. destruct (node_op _ _ _ _ _ _ _ _ Q N) as (c' & N'). eapply StOp; eauto using ctied_qt.
  - intros. apply BtOne. auto.
  - intros. eapply BtSnoc; eauto using node_opr.
Qed.

(** ** What a run leaves *)
Definition outs (o : list Z) (s : state) : state := match o with [] => obs s | _ => if s_final s then writes o (obs s) else obs s end.
Record eff (o : list Z) (s s' : state) : Prop := mkEff {
  f_qt : qt s s';
  f_obs : obs s' = set_code_gen (s_code_gen s') (set_ety (s_ety s') (set_pc (s_pc s + Z.of_nat (length o)) (outs o s))) }.
Lemma cg_cg v w z : set_code_gen v (set_code_gen w z) = set_code_gen v z. Proof. reflexivity. Qed.
Lemma cg_ety v w z : set_ety v (set_code_gen w z) = set_code_gen w (set_ety v z). Proof. reflexivity. Qed.
Lemma cg_pc v w z : set_pc v (set_code_gen w z) = set_code_gen w (set_pc v z). Proof. reflexivity. Qed.
Lemma cg_origin v z : s_origin (set_code_gen v z) = s_origin z. Proof. reflexivity. Qed.
Lemma cg_get v z : s_code_gen (set_pc v z) = s_code_gen z. Proof. reflexivity. Qed.
Lemma cg_get2 v z : s_code_gen (set_ety v z) = s_code_gen z. Proof. reflexivity. Qed.
Lemma cg_id z : set_code_gen (s_code_gen z) z = z. Proof. destruct z; reflexivity. Qed.
Lemma writes_set_cg l v z : writes l (set_code_gen v z) = set_code_gen v (writes l z).
Proof.
  unfold writes. change (s_opened (set_code_gen v z)) with (s_opened z). change (s_org_spec (set_code_gen v z)) with (s_org_spec z). destruct (s_opened z && s_org_spec z); [|reflexivity].
  unfold header. change (s_total (set_code_gen v z)) with (s_total z). change (s_c64 (set_code_gen v z)) with (s_c64 z). destruct ((s_total z =? 0) && s_c64 z); reflexivity.
Qed.
Lemma ety_pc v z : s_pc (set_ety v z) = s_pc z. Proof. reflexivity. Qed.
Lemma ety_final v z : s_final (set_ety v z) = s_final z. Proof. reflexivity. Qed.
Lemma ety_stop v z : s_stop (set_ety v z) = s_stop z. Proof. reflexivity. Qed.
Lemma ety_opened v z : s_opened (set_ety v z) = s_opened z. Proof. reflexivity. Qed.
Lemma ety_org v z : s_org_spec (set_ety v z) = s_org_spec z. Proof. reflexivity. Qed.
Lemma ety_total v z : s_total (set_ety v z) = s_total z. Proof. reflexivity. Qed.
Lemma ety_origin v z : s_origin (set_ety v z) = s_origin z. Proof. reflexivity. Qed.
Lemma ety_ety v w z : set_ety v (set_ety w z) = set_ety v z. Proof. reflexivity. Qed.
Lemma ety_pcs v w z : set_pc v (set_ety w z) = set_ety w (set_pc v z). Proof. reflexivity. Qed.
Lemma ety_id z : set_ety (s_ety z) z = z. Proof. destruct z; reflexivity. Qed.
Lemma pc_id z : set_pc (s_pc z) z = z. Proof. destruct z; reflexivity. Qed.
Lemma writes_set_ety l v z : writes l (set_ety v z) = set_ety v (writes l z).
Proof. unfold writes. rewrite ety_opened, ety_org. destruct (s_opened z && s_org_spec z); [|reflexivity]. unfold header. rewrite ety_total. change (s_c64 (set_ety v z)) with (s_c64 z). destruct ((s_total z =? 0) && s_c64 z); reflexivity. Qed.
Lemma writes_set_pc l v z : writes l (set_pc v z) = set_pc v (writes l z).
Proof. unfold writes. rewrite pc_opened, pc_org_spec. destruct (s_opened z && s_org_spec z); [|reflexivity]. unfold header. rewrite pc_total, pc_c64. destruct ((s_total z =? 0) && s_c64 z); reflexivity. Qed.
Lemma outs_same o s : s_final (outs o s) = s_final s /\ s_stop (outs o s) = s_stop s /\ s_opened (outs o s) = s_opened s /\ s_org_spec (outs o s) = s_org_spec s /\ s_errs (outs o s) = s_errs s.
Proof.
  unfold outs. destruct o as [|b o]; [repeat split; obs_simp; reflexivity|]. destruct (s_final s) eqn:E; [|repeat split; obs_simp; auto].
  destruct (writes_more (b :: o) (obs s)) as (M1 & M2 & _ & _ & _ & M6 & _). destruct (writes_same (b :: o) (obs s)) as (_ & _ & M9 & _ & M10 & _).
  rewrite M1, M2, M6, M9, M10. repeat split; obs_simp; auto.
Qed.
Lemma eff_get o s s' : eff o s s' -> s_pc s' = s_pc s + Z.of_nat (length o) /\ s_final s' = s_final s /\ s_opened s' = s_opened s /\ s_org_spec s' = s_org_spec s /\ s_errs s' = s_errs s.
Proof.
  intros [Q O]. destruct (outs_same o s) as (A1 & A2 & A3 & A4 & A5).
  split; [rewrite <- (obs_get_pc s'), O; reflexivity|]. split; [rewrite <- (obs_get_final s'), O; exact A1|].
  split; [rewrite <- (obs_get_opened s'), O; exact A3|]. split; [rewrite <- (obs_get_org_spec s'), O; exact A4|]. rewrite <- (obs_get_errs s'), O; exact A5.
Qed.
Lemma eff_quiet s s' : qt s s' -> obs s' = obs s -> eff [] s s'.
Proof.
  intros Q O. split; [exact Q|]. cbn [outs length]. rewrite Z.add_0_r, O. rewrite <- (obs_get_pc s), pc_id, <- (obs_get_ety s'), <- (obs_get_code_gen s'), O, ety_id. symmetry. apply cg_id.
Qed.
Lemma eff_trans a b s s1 s2 : (s_final s = true -> 0 <= s_total s) -> eff a s s1 -> eff b s1 s2 -> eff (a ++ b) s s2.
Proof.
  intros Tt A B. destruct (eff_get _ _ _ A) as (P1 & F1 & _). split; [exact (qt_trans _ _ _ (f_qt _ _ _ A) (f_qt _ _ _ B))|].
  rewrite (f_obs _ _ _ B), P1, app_length, Nat2Z.inj_add, Z.add_assoc.
  assert (X : outs b s1 = set_code_gen (s_code_gen s1) (set_ety (s_ety s1) (set_pc (s_pc s + Z.of_nat (length a)) (outs (a ++ b) s)))).
  { unfold outs at 1. destruct b as [|x b]; [rewrite app_nil_r; apply (f_obs _ _ _ A)|]. rewrite F1, (f_obs _ _ _ A).
    rewrite writes_set_cg, writes_set_ety, writes_set_pc. unfold outs. destruct a as [|y a]; cbn [app]; destruct (s_final s) eqn:E; try reflexivity.
    rewrite (writes_app (y :: a) (x :: b)); [reflexivity|]. rewrite obs_get_total. auto. }
  rewrite X. reflexivity.
Qed.
Definition ready (U T : list cstr) (env : cstr -> Z) (s : state) : Prop :=
  calm s /\ (s_org_spec s = true /\ s_c02 s = c02 /\ s_ill s = ill) /\ (s_final s = true -> no_gap s /\ 0 <= s_total s) /\ holds U T env s.
Lemma cpu_outs o s : s_c02 (outs o s) = s_c02 s /\ s_ill (outs o s) = s_ill s.
Proof.
  assert (W : forall l z, s_c02 (writes l z) = s_c02 z /\ s_ill (writes l z) = s_ill z).
  { intros l z. unfold writes. destruct (_ && _); [|auto]. unfold put, header. destruct (_ && _); auto. }
  unfold outs. destruct o as [|b o]; [split; [apply obs_get_c02|apply obs_get_ill]|]. destruct (s_final s); [|split; [apply obs_get_c02|apply obs_get_ill]].
  destruct (W (b :: o) (obs s)) as [-> ->]. split; [apply obs_get_c02|apply obs_get_ill].
Qed.
Lemma eff_cpu o s s' : eff o s s' -> s_c02 s' = s_c02 s /\ s_ill s' = s_ill s.
Proof.
  intros [_ O]. destruct (cpu_outs o s) as [A1 A2]. split; [rewrite <- (obs_get_c02 s'), O; exact A1|rewrite <- (obs_get_ill s'), O; exact A2].
Qed.
Lemma header_cg v s : s_total (header (set_code_gen v s)) = s_total (header s).
Proof. unfold header. change (s_total (set_code_gen v s)) with (s_total s). change (s_c64 (set_code_gen v s)) with (s_c64 s). destruct ((s_total s =? 0) && s_c64 s); reflexivity. Qed.
Lemma no_gap_cg s v : no_gap (set_code_gen v s) <-> no_gap s.
Proof. unfold no_gap. rewrite header_cg. reflexivity. Qed.
Lemma header_ety v s : s_total (header (set_ety v s)) = s_total (header s).
Proof. unfold header. rewrite ety_total. change (s_c64 (set_ety v s)) with (s_c64 s). destruct ((s_total s =? 0) && s_c64 s); reflexivity. Qed.
Lemma no_gap_ety s v : no_gap (set_ety v s) <-> no_gap s.
Proof. unfold no_gap. rewrite ety_opened, ety_org, ety_pc, header_ety. reflexivity. Qed.
Lemma total_writes l z : 0 <= s_total z -> 0 <= s_total (writes l z).
Proof.
  intros T. unfold writes. destruct (_ && _); [|exact T]. unfold put, header. destruct (_ && _); cbn [s_total set_out set_total put]; lia.
Qed.
Lemma ready_eff U T env env' o s s' : ready U T env s -> eff o s s' -> holds U T env' s' -> ready U T env' s'.
Proof.
  intros (Cm & (Or & Or2 & Or3) & G & _) E H. destruct (eff_get _ _ _ E) as (P1 & F1 & O1 & S1 & _). split; [exact (calm_qt _ _ (f_qt _ _ _ E) Cm)|].
  destruct (eff_cpu _ _ _ E) as [K1 K2]. split; [split; [congruence|split; congruence]|].
  split; [|exact H]. rewrite F1. intros Fi. destruct (G Fi) as [G1 G2]. pose proof (f_obs _ _ _ E) as O.
  assert (Tt : s_total s' = s_total (outs o s)) by (rewrite <- (obs_get_total s'), O; reflexivity).
  unfold outs in O, Tt. destruct o as [|x o].
  - split; [|rewrite Tt; obs_simp; exact G2].
    assert (Hh : s_total (header s') = s_total (header s)) by (rewrite <- (header_obs s'), O, header_cg, header_ety, header_set_pc, header_obs; reflexivity).
    assert (Og : s_origin s' = s_origin s) by (rewrite <- (obs_get_origin s'), O, cg_origin, ety_origin, pc_origin; apply obs_get_origin).
    unfold no_gap in *. rewrite O1, S1, Hh, Og, P1. cbn [length]. rewrite Z.add_0_r. exact G1.
  - rewrite Fi in O, Tt. split; [|rewrite Tt; apply total_writes; obs_simp; exact G2].
    apply (no_gap_ety s' (s_ety s)), (no_gap_cg (set_ety (s_ety s) s') (s_code_gen s)). apply (no_gap_writes (x :: o) (Z.of_nat (length (x :: o))) s); [exact G2|lia| |exact G1].
    rewrite obs_set_code_gen, obs_set_ety, O, cg_ety, cg_cg, ety_ety. destruct (writes_same (x :: o) (obs s)) as (_ & W & _).
    rewrite <- (obs_get_ety s), <- (writes_ety (x :: o) (obs s)), <- ety_pcs, ety_id, <- cg_pc. rewrite <- (obs_get_code_gen s), <- W, cg_id. reflexivity.
Qed.

(** ** Data *)
Lemma item_bytes_ext env env' size pc i : (forall n, In n (item_uses i) -> env n = env' n) -> item_bytes env size pc i = item_bytes env' size pc i /\ item_size env size pc i = item_size env' size pc i.
Proof.
  destruct i as [e|raw]; cbn [item_uses item_bytes item_size]; [|auto]. intros H. unfold item_value_at. rewrite (sem_ext e env env' pc H). auto.
Qed.
Lemma items_bytes_ext env env' size l : forall pc, (forall n, In n (flat_map item_uses l) -> env n = env' n) -> items_bytes env size pc l = items_bytes env' size pc l.
Proof.
  induction l as [|i l IH]; intros pc H; cbn [items_bytes]; [reflexivity|]. cbn [flat_map] in H.
  destruct (item_bytes_ext env env' size pc i) as [-> ->]; [intros; apply H, in_or_app; auto|].
  destruct (item_size env' size pc i); [|reflexivity]. rewrite IH; [reflexivity|]. intros. apply H, in_or_app; auto.
Qed.
Lemma item_len env size pc i o : size = 1 \/ size = 2 -> item_bytes env size pc i = Some o -> item_size env size pc i = Some (Z.of_nat (length o)).
Proof.
  intros Sz. destruct i as [e|raw]; cbn [item_bytes item_size].
  - destruct (item_value_at env pc e); [|discriminate]. destruct (value_fits size z); [|discriminate]. intros [= <-].
    unfold value_step, value_bytes. destruct Sz as [->| ->]; reflexivity.
  - destruct (text_of raw); [|discriminate]. congruence.
Qed.
Lemma items_len env size l : size = 1 \/ size = 2 -> forall pc o, items_bytes env size pc l = Some o -> items_size env size pc l = Some (Z.of_nat (length o)).
Proof.
  intros Sz. induction l as [|i l IH]; intros pc o; cbn [items_bytes items_size]; [intros [= <-]; reflexivity|].
  destruct (item_size env size pc i) as [n|] eqn:E1; [|discriminate]. destruct (item_bytes env size pc i) as [b|] eqn:E2; [|discriminate].
  destruct (items_bytes env size (pc + n) l) as [r|] eqn:E3; [|discriminate]. intros [= <-]. rewrite (IH _ _ E3).
  rewrite (item_len _ _ _ _ _ Sz E2) in E1. rewrite app_length, Nat2Z.inj_add. congruence.
Qed.
Lemma org_id z : s_org_spec z = true -> set_org_spec true z = z. Proof. destruct z; cbn. intros ->. reflexivity. Qed.
Lemma dety_ety v z : s_ety (set_ety v z) = v. Proof. reflexivity. Qed.
Lemma data_run U T env F size l q p s o : ready U T env s -> nth_error (s_nodes s) p = Some (mkNode (KData size q) []) -> ltied s q l -> incl (flat_map item_uses l) U ->
  size = 1 \/ size = 2 -> forallb item_eager l = true -> items_bytes env size (s_pc s) l = Some o -> o <> [] -> (S (list_fuel l) <= F)%nat ->
  exists s', expand F p s = Ok 0 s' /\ eff o s s' /\ holds U T env s'.
Proof.
  intros (Cm & (Or & _) & G & H) N L I Sz Ea By Ne HF. destruct F as [|F]; [lia|]. pose proof Cm as (Tb & Sc & St).
  rewrite (expand_data F s p size q St N). set (ds := data_start size s).
  assert (Qd : qt s ds) by (apply qt_frame; reflexivity).
  assert (Od : obs ds = set_ety (dety size) (obs s)).
  { unfold ds, data_start. rewrite obs_set_dsz, obs_set_ety, obs_set_org_spec, org_id; [reflexivity|]. rewrite obs_get_org_spec. exact Or. }
  assert (Md : forall n, meaning ds n = meaning s n) by reflexivity.
  pose proof (calm_qt _ _ Qd Cm) as Cd. pose proof (ltied_qt _ _ _ _ Qd L) as Ld. pose proof Cd as (Tbd & Scd & Std).
  pose proof (ltied_lrep _ _ _ Tbd Scd Ld) as R.
  assert (Ed : forall n, In n (flat_map item_uses l) -> cval (meaning ds n) = env n).
  { intros n Hn. rewrite Md. destruct (H n (I n Hn)) as (_ & _ & b & E & _). rewrite E. reflexivity. }
  assert (Bd : items_bytes (fun n => cval (meaning ds n)) size (s_pc ds) l = Some o).
  { rewrite (items_bytes_ext _ env); [exact By|exact Ed]. }
  pose proof (items_len _ _ _ Sz _ _ Bd) as Sd.
  assert (Et : s_ety ds = dety size) by reflexivity. assert (Dz : s_dsz ds = size) by reflexivity.
  assert (Si : In size [0; 1; 2]) by (destruct Sz as [->| ->]; cbn; auto).
  assert (Ety : s_ety ds = EtBytes \/ s_ety ds = EtStrings) by (destruct Sz as [->| ->]; left; reflexivity).
  pose proof (qm_list l q F ds Ld ltac:(lia) Cd Ety) as Qm. unfold qm in Qm.
  assert (X : exists s', expand F q ds = Ok 0 s' /\ hv0 ds s' /\ obs s' = set_pc (s_pc ds + Z.of_nat (length o)) (if s_final s then writes o (obs ds) else obs ds)).
  { destruct (s_final s) eqn:Fi.
    - destruct (G eq_refl) as [G1 G2].
      assert (Un : forallb (fun i => negb (item_unknown (meaning ds) i)) l = true).
      { apply forallb_forall. intros i Hi. destruct i as [e|raw]; [|reflexivity]. cbn [item_unknown]. unfold inner.
        assert (unknown_name (meaning ds) e = false) as Un0; [|destruct e; rewrite ?Un0; reflexivity].
        unfold unknown_name. destruct (existsb _ _) eqn:Ex; [|reflexivity]. apply existsb_exists in Ex. destruct Ex as (n & Hn & Cn).
        destruct (H n (I n ltac:(apply in_flat_map; exists (IExpr e); auto))) as (_ & _ & b & E & _). rewrite Md, E in Cn. discriminate Cn. }
      assert (Gd : no_gap ds).
      { unfold no_gap in *. intros W. rewrite Or in G1. specialize (G1 W). replace (s_total (header ds)) with (s_total (header s)); [exact G1|].
        unfold header. change (s_total ds) with (s_total s). change (s_c64 ds) with (s_c64 s). destruct ((s_total s =? 0) && s_c64 s); reflexivity. }
      destruct (list_final (meaning ds) size l q F ds _ o R ltac:(lia) Tbd Std Ea Un Et Dz Si Fi Gd G2 Sd Bd) as (s' & E' & H' & O' & _).
      exists s'. split; [exact E'|]. split; [exact H'|exact O'].
    - destruct (list_analysis (meaning ds) size l q F ds _ R ltac:(lia) Tbd Std Ea Et Dz Si Fi Sd) as (s' & E' & H' & O' & _).
      exists s'. split; [exact E'|]. split; [exact H'|exact O']. }
  destruct X as (s' & E' & H' & O'). exists s'. split; [exact E'|]. rewrite E' in Qm. destruct Qm as [Qm Qe].
  split.
  - split; [exact (qt_trans _ _ _ Qd Qm)|]. rewrite Qe. unfold outs. destruct o as [|x o]; [contradiction|]. rewrite O', Od, Et. assert (Pd : s_pc ds = s_pc s) by reflexivity. rewrite Pd.
    assert (Cg : s_code_gen s' = s_code_gen s).
    { rewrite <- (obs_get_code_gen s'), O', Od. destruct (s_final s); [rewrite writes_set_ety|]; rewrite ?cg_get, ?cg_get2;
        [destruct (writes_same (x :: o) (obs s)) as (_ & W & _); rewrite W|]; apply obs_get_code_gen. }
    rewrite Cg. destruct (s_final s).
    + rewrite writes_set_ety, ety_pcs, <- cg_ety, <- cg_pc. destruct (writes_same (x :: o) (obs s)) as (_ & W & _). rewrite <- (obs_get_code_gen s), <- W, cg_id. reflexivity.
    + rewrite ety_pcs, <- cg_ety, <- cg_pc, <- (obs_get_code_gen s), cg_id. reflexivity.
  - apply (holds_same _ _ _ ds); [|exact (q_dict _ _ Qm)|exact (h_res _ _ H')]. apply (holds_same _ _ _ s); [exact H|reflexivity|intros; apply Md].
Qed.

(** ** Instructions *)
Lemma org_spec_id s : s_org_spec s = true -> org s = s.
Proof. intros H. unfold org. destruct (0 <? _); [apply org_id, H|reflexivity]. Qed.
Lemma step_ety o z : s_ety (step_op o false z) = s_ety z.
Proof.
  unfold step_op. cbv zeta. unfold org. destruct (0 <? s_pc_assigned z); destruct (s_final z); cbn [s_ety set_code_gen set_pc]; rewrite ?writes_ety; reflexivity.
Qed.
(** the effect of an instruction *)
Lemma op_eff o s s' : o <> [] -> s_org_spec s = true -> qt s s' -> obs s' = step_op o false (obs s) -> eff o s s'.
Proof.
  intros Ne Or Q O. assert (Et : s_ety s' = s_ety s) by (rewrite <- (obs_get_ety s'), O, step_ety; apply obs_get_ety). split; [exact Q|].
  assert (X : s_ety (outs o s) = s_ety s /\ s_pc (outs o s) = s_pc s).
  { unfold outs. destruct o as [|x o]; [contradiction|]. destruct (s_final s); [|split; [apply obs_get_ety|apply obs_get_pc]].
    destruct (writes_same (x :: o) (obs s)) as (W & _). rewrite W, writes_ety. split; [apply obs_get_ety|apply obs_get_pc]. }
  destruct X as [X1 X2].
  assert (Y : obs s' = set_code_gen (s_code_gen (outs o s) + Z.of_nat (length o)) (set_pc (s_pc s + Z.of_nat (length o)) (outs o s))).
  { rewrite O. unfold step_op. rewrite org_spec_id by (rewrite obs_get_org_spec; exact Or). cbv zeta. rewrite obs_get_final. rewrite <- X2. unfold outs. destruct o as [|x o]; [contradiction|]. reflexivity. }
  rewrite Y. rewrite Et, <- X1. rewrite <- (obs_get_code_gen s'), Y. generalize (outs o s), (s_pc s + Z.of_nat (length o)), (Z.of_nat (length o)). intros z a b. destruct z; reflexivity.
Qed.
Lemma op_run U T env F instr f p s o : ready U T env s -> stied s p (SOp instr f) -> known_op c02 ill instr f -> incl (uses (SOp instr f)) U ->
  instr_bytes c02 ill env (s_pc s) instr f = Some o -> (S (S (list_sum (map height (operand_of f)))) <= F)%nat ->
  exists s', expand F p s = Ok 0 s' /\ eff o s s' /\ holds U T env s'.
Proof.
  intros (Cm & (Or & C1 & C2) & G & H) St Kn I By HF. pose proof Cm as (Tb & Sc & Sp). destruct F as [|F]; [lia|].
  inversion St as [| | | | | | | | |p0 instr0 f0 k n Ef N|p0 q instr0 f0 m e vb hu n Ef Ct N]; subst p0 instr0.
  - subst f0. unfold instr_bytes in By. rewrite Ef in By. injection By as <-. unfold known_op in Kn. rewrite Ef in Kn. destruct Kn as (_ & Kn & _).
    assert (Hk : k = m_i \/ k = m_A) by (destruct (form_inl _ _ Ef) as [[_ ->]|(? & _ & _ & ->)]; auto).
    destruct (x_op_code0 F s p instr (get_op_code c02 ill instr k) k n Tb ltac:(destruct Hk as [->| ->]; vm_compute; intuition congruence) ltac:(destruct Hk as [->| ->]; reflexivity)) as (s' & E & Hv & O & N').
    { intros Fi. rewrite org_spec_id by exact Or. apply (G Fi). } { exact N. }
    { intros _. unfold has, opc in Kn. apply negb_true_iff, Z.eqb_neq in Kn. pose proof (get_op_code_range c02 ill instr k). lia. }
    exists s'. rewrite (expand_op _ _ _ _ _ _ _ _ Sp N). split; [exact E|].
    pose proof (qmx_op0 F p s _ _ _ _ ltac:(lia) Cm N) as Q. unfold qmx in Q. rewrite E in Q. pose proof (qx_qt _ _ _ _ _ _ _ _ _ Q N N') as Q'.
    split.
    + apply op_eff; [discriminate|exact Or|exact Q'|exact O].
    + apply (holds_same _ _ _ s); [exact H|apply Q'|apply (h_res _ _ Hv)].
  - subst f0. unfold instr_bytes in By. rewrite Ef in By. unfold known_op in Kn. rewrite Ef in Kn. destruct Kn as (Wf & Ea & Us).
    destruct (val_of env (s_pc s) e) as [v|] eqn:V; [|discriminate].
    set (g := get_op_code c02 ill instr) in *.
    pose proof (form_inr _ _ _ Ef) as Fm.
    assert (Hg : forall k, has c02 ill instr k = hasg g k) by reflexivity. fold (has c02 ill instr) in *.
    destruct (select (has c02 ill instr) m v) as [k refused] eqn:Sel. destruct (is_word v) eqn:W; [|discriminate]. cbn [negb orb] in By.
    destruct refused; [discriminate|]. cbn [orb] in By. destruct (far k (s_pc s) v) eqn:Fr; [discriminate|]. injection By as <-.
    pose proof (mode_free g m vb hu v (form_src _ _ _ Fm) ltac:(intros; apply get_op_code_range) Us W (no_both c02 ill instr)) as X. cbv zeta in X.
    change (hasg g) with (has c02 ill instr) in X. rewrite Sel in X.
    destruct (build_mode g m vb hu) as [m2 c2]. cbn [fst snd] in *. destruct X as (X1 & X2 & X3 & X4 & X5).
    assert (In1 : incl (names e) U). { intros x Hx. apply I. cbn [uses]. replace (operand_of f) with [e]; [cbn [flat_map]; rewrite app_nil_r; exact Hx|]. unfold operand_of. rewrite Ef. reflexivity. }
    assert (He : (height e <= F)%nat). { assert (operand_of f = [e]) as Eo by (unfold operand_of; rewrite Ef; reflexivity). rewrite Eo in HF. cbn [map list_sum fold_right] in HF. unfold list_sum in HF. cbn [fold_right] in HF. lia. }
    pose proof (ctied_rep _ _ _ Tb Sc Ct) as R.
    assert (K : known (meaning s) (s_pc s) e v).
    { split; [|exact Ea]. rewrite (holds_val _ _ _ _ _ H In1). unfold val_of in V. destruct (sem env (s_pc s) e) as [[w kk]|]; [|discriminate]. destruct kk; try discriminate. congruence. }
    assert (Un : unknown_name (meaning s) e = false).
    { unfold unknown_name. destruct (existsb _ _) eqn:Ex; [|reflexivity]. apply existsb_exists in Ex. destruct Ex as (n0 & Hn & Cn).
        destruct (H n0 (In1 n0 Hn)) as (_ & _ & b & E & _). rewrite E in Cn. discriminate Cn. }
    assert (Fr2 : far m2 (s_pc s) v = false).
    { destruct (Z.eqb_spec m2 m_r) as [->|Hn].
      - assert (k = m_r) as <-; [|exact Fr]. unfold select in Sel. rewrite <- X5 in Sel. change (m_r =? m_r) with true in Sel. cbv iota in Sel. congruence.
      - unfold far. rewrite (proj2 (Z.eqb_neq _ _) Hn). reflexivity. }
    assert (Gg : get_op_code (s_c02 s) (s_ill s) instr = g) by (rewrite C1, C2; reflexivity).
    destruct (x_op_code_ok (meaning s) e v F s p q instr c2 m2 n He Tb Sp R K Un ltac:(lia)) as (s' & E & Hv & O & N' & _).
    { intros Z. rewrite Z in X4. cbn in X4. rewrite andb_false_r in X4. discriminate. } { exact Fr2. } { rewrite Gg. exact X1. }
    { rewrite X1. unfold has, opc in X2. apply negb_true_iff, Z.eqb_neq in X2. pose proof (get_op_code_range c02 ill instr m2). unfold g in *. lia. }
    { intros Fi. rewrite org_spec_id by exact Or. apply (G Fi). } { exact N. }
    rewrite Gg, X3 in O. cbn [fst snd] in O. exists s'. rewrite (expand_op _ _ _ _ _ _ _ _ Sp N). split; [exact E|].
    pose proof (qmx_op (meaning s) F e q p s _ _ _ _ v He Cm (ctied_tied _ _ _ Ct) R K Fr2 N) as Q. unfold qmx in Q. rewrite E in Q. pose proof (qx_qt _ _ _ _ _ _ _ _ _ Q N N') as Q'.
    split.
    + apply op_eff; [discriminate|exact Or|exact Q'|exact O].
    + apply (holds_same _ _ _ s); [exact H|apply Q'|apply (h_res _ _ Hv)].
Qed.
End Cpu.
