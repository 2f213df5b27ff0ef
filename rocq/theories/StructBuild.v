(** Statements with conditions and loops: the nodes the parser makes of them, when all names are in the table. *)
From Coq Require Import String Lia.
From Verif Require Import Base BaseProofs Hash Dict DictProofs DictMore Str Opcodes OpcodesProofs Err State Sym Machine Build Pass
  GenX Gen Inv SymProofs Sem ExprProofs ListRel ExprMore OpProofs OpMore InstrProofs InstrMore DataProofs DataMore DefProofs BadProofs DataWalk LoopProofs IfProofs Layout LineTwo Struct StructRep StructOp StructRun StructExec.
Open Scope string_scope.
Open Scope list_scope.
Open Scope Z_scope.
Open Scope m_scope.

(** nothing changes but the nodes, the counters of the symbols and the line *)
Record sl (s s' : state) : Prop := mkSl {
  sl_qt : qt s s';
  sl_obs : obs s' = set_line (s_line s') (obs s);
  sl_mean : forall n, plain n -> meaning s' n = meaning s n }.
Lemma line_id z : set_line (s_line z) z = z. Proof. destruct z; reflexivity. Qed.
Lemma line_line v w z : set_line v (set_line w z) = set_line v z. Proof. reflexivity. Qed.
Lemma line_macdef v z : s_macdef (set_line v z) = s_macdef z. Proof. reflexivity. Qed.
Lemma line_get v z : s_line (set_line v z) = v. Proof. reflexivity. Qed.
Lemma sl_same s s' : qt s s' -> obs s' = obs s -> (forall n, plain n -> meaning s' n = meaning s n) -> sl s s'.
Proof. intros Q O M. constructor; [exact Q| |exact M]. rewrite <- (obs_get_line s'), O. symmetry. apply line_id. Qed.
Lemma sl_refl s : sl s s. Proof. apply sl_same; [apply qt_refl|reflexivity|reflexivity]. Qed.
Lemma sl_trans a b c : sl a b -> sl b c -> sl a c.
Proof.
  intros [A1 A2 A3] [B1 B2 B3]. constructor; [exact (qt_trans _ _ _ A1 B1)| |intros n P; rewrite (B3 n P); apply A3, P].
  rewrite B2, A2. apply line_line.
Qed.
Lemma sl_alloc k l s : sl s (set_nodes (s_nodes s ++ [mkNode k l]) s).
Proof. apply sl_same; [apply qt_alloc|apply obs_set_nodes|reflexivity]. Qed.
Lemma sl_line v s : sl s (set_line v s).
Proof. constructor; [apply qt_frame; reflexivity|apply obs_set_line|reflexivity]. Qed.
Lemma sl_sym n a y y' s : calm s -> plain n -> dict_search (s_dict s) n = Some a -> nth_error (s_syms s) a = Some y -> ycore y' = ycore y -> y_pm y' = y_pm y ->
  sl s (set_syms (upd a y' (s_syms s)) s).
Proof.
  intros Cm P D Y C Pm. pose proof Cm as (Tb & Sc & St). apply sl_same; [apply (qt_sym a y); [exact Y|left; exact C]|apply obs_set_syms|].
  assert (X : dfn n (ycore y') s (set_syms (upd a y' (s_syms s)) s)).
  { apply (dfn_upd n a y y' s); auto; unfold hand; rewrite Sc; exact D. }
  intros k Pk. destruct (list_eq_dec Z.eq_dec (fk k) (fk n)) as [E|E]; [|apply (d_other _ _ _ _ X k Pk E)].
  rewrite (d_here _ _ _ _ X k Pk E), C, (meaning_fk k n s Cm Pk P E). destruct (found _ _ _ Tb Sc P D) as (z & Z & E2 & _). congruence.
Qed.
Definition knows (U : list cstr) (s : state) : Prop := forall n, In n U -> plain n /\ dict_search (s_dict s) n <> None /\ cmacro (meaning s n) = false.
Lemma knows_sl U s s' : sl s s' -> knows U s -> knows U s'.
Proof. intros L H n Hn. destruct (H n Hn) as (P & D & M). split; [exact P|]. rewrite (q_dict _ _ (sl_qt _ _ L)), (sl_mean _ _ L n P). auto. Qed.
Lemma knows_incl U V s : incl V U -> knows U s -> knows V s. Proof. intros I H n Hn. apply H, I, Hn. Qed.
Lemma look_found n a s : calm s -> plain n -> dict_search (s_dict s) n = Some a ->
  exists y, nth_error (s_syms s) a = Some y /\ ycore y = meaning s n /\ look_up_symbol n s = Ok (Some a) (set_syms (upd a (y_times_inc y) (s_syms s)) s).
Proof.
  intros (T & Sc & St) P D. destruct (found _ _ _ T Sc P D) as (y & Y & E & _). exists y. split; [exact Y|]. split; [exact E|].
  unfold look_up_symbol. unfold bind at 1, gets at 1. rewrite Sc. unfold look_up_in, sym_search, bind, gets. rewrite D. unfold sym_get, sym_set, bind, gets, modify. rewrite Y. reflexivity.
Qed.
Lemma plain_92 n : plain n -> (hd0 n =? 92) = false.
Proof. intros P. apply Z.eqb_neq. intros E. destruct P as (_ & _ & _ & _ & H & _). apply H. cbn. auto. Qed.
Lemma need_found n s : calm s -> knows [n] s -> exists s', need_sym n s = Ok (Some tt) s' /\ sl s s' /\ s_nodes s' = s_nodes s.
Proof.
  intros Cm K. destruct (K n (or_introl eq_refl)) as (P & D & M). destruct (dict_search (s_dict s) n) as [a|] eqn:Da; [|contradiction].
  destruct (look_found n a s Cm P Da) as (y & Y & C & E). destruct (direct_head _ (plain_direct _ P)) as [D1 D2].
  unfold need_sym, tok_sym. rewrite D1, (plain_92 n P). unfold bind, gets. rewrite E. unfold sym_get, gets, bind. cbn [s_syms set_syms].
  rewrite nth_upd_same by (apply nth_error_Some; congruence). unfold ret. change (y_mname (y_times_inc y)) with (y_mname y).
  assert (y_mname y = false) as -> by (rewrite <- C in M; exact M). eexists. split; [reflexivity|]. split; [|reflexivity].
  apply (sl_sym n a y _ s Cm P Da Y); reflexivity.
Qed.
Lemma first_found n s : calm s -> knows [n] s -> s_macdef s = 0 -> exists s', tok_first n s = Ok TLab s' /\ sl s s' /\ s_nodes s' = s_nodes s.
Proof.
  intros Cm K Md. destruct (K n (or_introl eq_refl)) as (P & D & M). destruct (dict_search (s_dict s) n) as [a|] eqn:Da; [|contradiction].
  destruct (look_found n a s Cm P Da) as (y & Y & C & E). destruct (direct_head _ (plain_direct _ P)) as [D1 D2].
  unfold tok_first. rewrite D1, (plain_92 n P). unfold bind, gets. rewrite E. cbn [s_macdef set_syms]. rewrite Md. unfold sym_get, gets, bind. cbn [s_syms set_syms].
  rewrite nth_upd_same by (apply nth_error_Some; congruence). unfold ret. change (y_mname (y_times_inc y)) with (y_mname y).
  assert (y_mname y = false) as -> by (rewrite <- C in M; exact M). unfold sym_set, modify. eexists. split; [reflexivity|]. split; [|reflexivity].
  cbn [s_syms set_syms]. rewrite upd_upd.
  apply (sl_sym n a y _ s Cm P Da Y); reflexivity.
Qed.
Lemma tied_lt s p e : tied s p e -> (p < length (s_nodes s))%nat.
Proof. intros T. apply nth_error_Some. destruct T; congruence. Qed.
Lemma calm_sl s s' : sl s s' -> calm s -> calm s'. Proof. intros L. apply calm_qt, (sl_qt _ _ L). Qed.
Lemma macdef_sl s s' : sl s s' -> s_macdef s' = s_macdef s.
Proof. intros L. rewrite <- (obs_get_macdef s'), (sl_obs _ _ L), line_macdef. apply obs_get_macdef. Qed.
(** nodes as they are built: no record is cached *)
Inductive raw (s : state) : nat -> expr -> Prop :=
| RwInt p v : nth_error (s_nodes s) p = Some (mkNode (KCon v false) []) -> raw s p (EInt v)
| RwPc p v : nth_error (s_nodes s) p = Some (mkNode (KCon v true) []) -> raw s p EPc
| RwName p n : nth_error (s_nodes s) p = Some (mkNode (KId n None) []) -> raw s p (ESym n)
| RwUn p o q e : nth_error (s_nodes s) p = Some (mkNode (KOpr o) [q]) -> is_un o = true -> (q < p)%nat -> raw s q e -> raw s p (EUn o e)
| RwBin p o q1 q2 e1 e2 : nth_error (s_nodes s) p = Some (mkNode (KOpr o) [q1; q2]) -> is_bin o = true ->
    (q1 < p)%nat -> (q2 < p)%nat -> raw s q1 e1 -> raw s q2 e2 -> raw s p (EBin o e1 e2).
Lemma raw_lt s p e : raw s p e -> (p < length (s_nodes s))%nat.
Proof. intros T. apply nth_error_Some. destruct T; congruence. Qed.
Lemma raw_nodes s s' p e : (forall q, (q <= p)%nat -> nth_error (s_nodes s') q = nth_error (s_nodes s) q) -> raw s p e -> raw s' p e.
Proof.
  intros H T. induction T as [p v N|p v N|p n N|p o q e N U L T IH|p o q1 q2 e1 e2 N U L1 L2 T1 IH1 T2 IH2]; rewrite <- (H p (le_n p)) in N.
  - econstructor; eauto.
  - econstructor; eauto.
  - econstructor; eauto.
  - econstructor; eauto. apply IH. intros k Hk. apply H. lia.
  - econstructor; eauto; [apply IH1|apply IH2]; intros k Hk; apply H; lia.
Qed.
Lemma raw_tied s p e : knows (names e) s -> raw s p e -> tied s p e.
Proof.
  intros K T. induction T as [p v N|p v N|p n N|p o q e N U L T IH|p o q1 q2 e1 e2 N U L1 L2 T1 IH1 T2 IH2]; cbn [names] in K.
  - econstructor; eauto.
  - econstructor; eauto.
  - destruct (K n (or_introl eq_refl)) as (P & D & _). destruct (dict_search (s_dict s) n) as [a|] eqn:Da; [|contradiction]. eapply TName; eauto.
  - econstructor; eauto.
  - econstructor; eauto; [apply IH1|apply IH2]; intros n Hn; apply K, in_or_app; auto.
Qed.
Lemma raw_app s s' l p e : s_nodes s' = s_nodes s ++ l -> raw s p e -> raw s' p e.
Proof. intros E R. apply (raw_nodes s); [|exact R]. intros q Hq. rewrite E, nth_error_app1; [reflexivity|]. pose proof (raw_lt _ _ _ R). lia. Qed.
Lemma bexpr_raw e : forall s, calm s -> wfe e = true -> knows (names e) s -> exists p s' l, build_expr e s = Ok (Some p) s' /\ sl s s' /\ raw s' p e /\ s_nodes s' = s_nodes s ++ l.
Proof.
  induction e as [v|n| |o e IH|o e1 IH1 e2 IH2]; intros s Cm W K; cbn [build_expr names wfe] in *.
  - unfold some, bind, constant_node. rewrite alloc_eq. do 3 eexists. split; [reflexivity|]. split; [apply sl_alloc|]. split; [apply RwInt, alloc_nth|reflexivity].
  - destruct (need_found n s Cm K) as (s1 & E1 & L1 & N1). unfold bindo, bind. rewrite E1. unfold some, bind, id_node. rewrite alloc_eq.
    do 3 eexists. split; [reflexivity|]. split; [exact (sl_trans _ _ _ L1 (sl_alloc _ _ _))|]. split; [apply RwName, alloc_nth|].
    cbn [s_nodes set_nodes]. rewrite N1. reflexivity.
  - unfold some, bind, pc_node, gets, bind. rewrite alloc_eq. do 3 eexists. split; [reflexivity|]. split; [apply sl_alloc|]. split; [eapply RwPc, alloc_nth|reflexivity].
  - apply andb_true_iff in W. destruct W as [U W]. destruct (IH s Cm W K) as (q & s1 & l1 & E1 & L1 & T1 & N1). unfold bindo, bind. rewrite E1. unfold some, bind. rewrite alloc_eq.
    do 3 eexists. split; [reflexivity|]. split; [exact (sl_trans _ _ _ L1 (sl_alloc _ _ _))|].
    split; [|cbn [s_nodes set_nodes]; rewrite N1, <- app_assoc; reflexivity].
    eapply RwUn; [apply alloc_nth|exact U|exact (raw_lt _ _ _ T1)|eapply raw_app; [reflexivity|exact T1]].
  - apply andb_true_iff in W. destruct W as [W W2]. apply andb_true_iff in W. destruct W as [U W1].
    destruct (IH1 s Cm W1 ltac:(eapply knows_incl; [|exact K]; apply incl_appl, incl_refl)) as (q1 & s1 & l1 & E1 & L1 & T1 & N1).
    destruct (IH2 s1 (calm_sl _ _ L1 Cm) W2 ltac:(apply (knows_sl _ _ _ L1); eapply knows_incl; [|exact K]; apply incl_appr, incl_refl)) as (q2 & s2 & l2 & E2 & L2 & T2 & N2).
    unfold bindo, bind. rewrite E1, E2. unfold some, bind. rewrite alloc_eq.
    do 3 eexists. split; [reflexivity|]. split; [exact (sl_trans _ _ _ (sl_trans _ _ _ L1 L2) (sl_alloc _ _ _))|].
    split; [|cbn [s_nodes set_nodes]; rewrite N2, N1, <- !app_assoc; reflexivity].
    pose proof (raw_app _ _ _ _ _ N2 T1) as T1'.
    eapply RwBin; [apply alloc_nth|exact U|exact (raw_lt _ _ _ T1')|exact (raw_lt _ _ _ T2)|eapply raw_app; [reflexivity|exact T1']|eapply raw_app; [reflexivity|exact T2]].
Qed.
Lemma bexpr e s : calm s -> wfe e = true -> knows (names e) s -> exists p s', build_expr e s = Ok (Some p) s' /\ sl s s' /\ tied s' p e.
Proof.
  intros Cm W K. destruct (bexpr_raw e s Cm W K) as (p & s' & l & E & L & R & _). exists p, s'. split; [exact E|]. split; [exact L|].
  apply raw_tied; [exact (knows_sl _ _ _ L K)|exact R].
Qed.
Definition good_item (i : item) : Prop := match i with IExpr e => wfe e = true /\ eager e = true | IStr raw => exists a t, text_of raw = Some (a :: t) end.
Lemma bitem i s : calm s -> good_item i -> knows (item_uses i) s -> exists p s', build_item i s = Ok (Some p) s' /\ sl s s' /\ itied s' p i.
Proof.
  intros Cm G K. destruct i as [e|raw]; cbn [build_item good_item item_uses itied] in *; [apply bexpr; auto; apply G|].
  destruct G as (a & t & E). unfold some, bind, ret. rewrite (string_node_ok _ _ _ E). do 2 eexists. split; [reflexivity|]. split; [apply sl_alloc|].
  exists (a :: t). split; [exact E|apply alloc_nth].
Qed.
Lemma bmore l : forall s acc done, calm s -> Forall good_item l -> knows (flat_map item_uses l) s -> ltied s acc done ->
  exists p s', more_items acc l s = Ok (Some p) s' /\ sl s s' /\ ltied s' p (done ++ l).
Proof.
  induction l as [|i l IH]; intros s acc done Cm G K L; cbn [more_items flat_map] in *.
  - exists acc, s. rewrite app_nil_r. split; [reflexivity|]. split; [apply sl_refl|exact L].
  - destruct (bitem i s Cm (Forall_inv G) ltac:(eapply knows_incl; [|exact K]; apply incl_appl, incl_refl)) as (q & s1 & E1 & L1 & T1).
    unfold bindo, bind. rewrite E1. rewrite alloc_eq. set (s2 := set_nodes _ s1). assert (L2 : sl s s2) by exact (sl_trans _ _ _ L1 (sl_alloc _ _ _)).
    destruct (IH s2 (length (s_nodes s1)) (done ++ [i]) (calm_sl _ _ L2 Cm) (Forall_inv_tail G)
      ltac:(apply (knows_sl _ _ _ L2); eapply knows_incl; [|exact K]; apply incl_appr, incl_refl)
      ltac:(eapply LtMore; [apply alloc_nth|exact (ltied_qt _ _ _ _ (sl_qt _ _ L2) L)|exact (itied_qt _ _ _ _ (qt_alloc _ _ _) T1)])) as (p & s3 & E3 & L3 & T3).
    exists p, s3. split; [exact E3|]. split; [exact (sl_trans _ _ _ L2 L3)|]. rewrite <- app_assoc in T3. exact T3.
Qed.
Lemma bitems l s : calm s -> l <> [] -> Forall good_item l -> knows (flat_map item_uses l) s -> exists p s', build_items l s = Ok (Some p) s' /\ sl s s' /\ ltied s' p l.
Proof.
  intros Cm Ne G K. destruct l as [|i l]; [contradiction|]. cbn [build_items flat_map] in *.
  destruct (bitem i s Cm (Forall_inv G) ltac:(eapply knows_incl; [|exact K]; apply incl_appl, incl_refl)) as (q & s1 & E1 & L1 & T1).
  unfold bindo, bind. rewrite E1. rewrite alloc_eq. set (s2 := set_nodes _ s1). assert (L2 : sl s s2) by exact (sl_trans _ _ _ L1 (sl_alloc _ _ _)).
  destruct (bmore l s2 (length (s_nodes s1)) [i] (calm_sl _ _ L2 Cm) (Forall_inv_tail G)
    ltac:(apply (knows_sl _ _ _ L2); eapply knows_incl; [|exact K]; apply incl_appr, incl_refl)
    ltac:(eapply LtOne; [apply alloc_nth|exact (itied_qt _ _ _ _ (qt_alloc _ _ _) T1)])) as (p & s3 & E3 & L3 & T3).
  exists p, s3. split; [exact E3|]. split; [exact (sl_trans _ _ _ L2 L3)|exact T3].
Qed.

(** bodies *)
Section Body.
Context (ex : nat -> M Z).
Fixpoint build_body (acc : option nat) (l : list (Z * stmt)) {struct l} : M (option nat) :=
    match l with
    | [] => ret acc
    | (ln, st) :: l =>
        modify (set_line ln) ;;;
        n <-o build_stmt ex true st ;;
        match acc with
        | None => build_body (Some n) l
        | Some p => a <- alloc (KOpr OStatement) [p; n] ;; build_body (Some a) l
        end
    end.
End Body.
Lemma body_snoc ex ln st l : l <> [] -> forall acc s, build_body ex acc (l ++ [(ln, st)]) s =
  (p <-o build_body ex acc l ;; modify (set_line ln) ;;; n <-o build_stmt ex true st ;; a <- alloc (KOpr OStatement) [p; n] ;; ret (Some a)) s.
Proof.
  induction l as [|[ln0 st0] l IH]; intros Ne acc s; [contradiction|]. cbn [app build_body]. unfold bindo at 1 3, bind, modify.
  unfold bindo, bind. destruct (build_stmt ex true st0 (set_line ln0 s)) as [[n|] s1| | |]; try reflexivity.
  destruct l as [|x l].
  - cbn [app build_body]. unfold modify, bindo, bind, ret. destruct acc.
    + rewrite alloc_eq. destruct (build_stmt ex true st _) as [[m|] s2| | |]; try reflexivity.
    + destruct (build_stmt ex true st _) as [[m|] s2| | |]; try reflexivity.
  - destruct acc.
    + rewrite alloc_eq. rewrite IH by discriminate. reflexivity.
    + rewrite IH by discriminate. reflexivity.
Qed.

Lemma build_if ex f e b els : build_stmt ex f (SIf e b els) = (c <-o build_expr e ;; n <-o build_body ex None b ;;
  match els with None => some (alloc (KOpr OIf) [c; n]) | Some l => m <-o build_body ex None l ;; some (alloc (KOpr OIf) [c; n; m]) end).
Proof. reflexivity. Qed.
Lemma build_while ex f e b : build_stmt ex f (SWhile e b) = (c <-o build_expr e ;; n <-o build_body ex None b ;; some (alloc (KOpr OWhile) [c; n])).
Proof. reflexivity. Qed.
Lemma build_repeat ex f e b : build_stmt ex f (SRepeat b e) = (n <-o build_body ex None b ;; c <-o build_expr e ;; some (alloc (KOpr ORepeat) [n; c])).
Proof. reflexivity. Qed.
Lemma build_do ex f e b : build_stmt ex f (SDo b e) = (n <-o build_body ex None b ;; c <-o build_expr e ;; some (alloc (KOpr ODo) [n; c])).
Proof. reflexivity. Qed.
Lemma build_for ex f name e0 e1 step b next : build_stmt ex f (SFor name e0 e1 step b next) = (
      _ <-o need_sym name ;;
      n0 <-o build_expr e0 ;;
      i <- id_node name ;;
      asg <- alloc (KOpr OEqu) [i; n0] ;;
      n1 <-o build_expr e1 ;;
      sv <-o match step with None => ret (Some []) | Some e => n <-o build_expr e ;; ret (Some [n]) end ;;
      n <-o build_body ex None b ;;
      _ <-o need_sym next ;;
      j <- id_node next ;;
      some (alloc (KOpr OFor) ([asg; n1; n; j] ++ sv))).
Proof. reflexivity. Qed.
Lemma node_name0 s p x k l : nth_error (s_nodes s) p = Some x -> nth_error (s_nodes (set_nodes (s_nodes s ++ [mkNode k l]) s)) p = Some x.
Proof. intros H. cbn [s_nodes set_nodes]. rewrite nth_error_app1; [exact H|]. apply nth_error_Some. congruence. Qed.
(** ** Instructions *)
Definition qn {A} (s : state) (m : M A) (t : state) : Prop := match m t with Ok _ s' => qt s s' | _ => True end.
Lemma qn_bind {A B} s (m : M A) (k : A -> M B) t : qn s m t -> (forall a t', m t = Ok a t' -> qt s t' -> qn s (k a) t') -> qn s (bind m k) t.
Proof. unfold qn, bind. intros H1 H2. destruct (m t) as [a t1| | |] eqn:E; auto. exact (H2 a t1 eq_refl H1). Qed.
Lemma qm_qn {A} s (m : M A) t : qt s t -> qm m t -> qn s m t.
Proof. unfold qn, qm. intros Q. destruct (m t); auto. intros [Q' _]. exact (qt_trans _ _ _ Q Q'). Qed.
Lemma qt_new s t p x : qt s t -> (length (s_nodes s) <= p)%nat -> qt s (set_nodes (upd p x (s_nodes t)) t).
Proof.
  intros Q L. destruct Q as [A1 A2 A3 A4 A5 A6 A7]. constructor; auto. intros r y H. cbn [s_nodes set_nodes].
  rewrite nth_upd_other; [apply A7, H|]. intros ->. assert (r < length (s_nodes s))%nat by (apply nth_error_Some; congruence). lia.
Qed.
Lemma qm_is_A p s : qm (is_id_A p) s.
Proof. unfold is_id_A. apply qm_bind; [apply qm_node_get|]. intros x t _ _. destruct (n_kind x); apply qm_ret. Qed.
Lemma qn_opcode F instr m l s : calm s -> (forall q, In q l -> exists e, tied s q e /\ (height e <= F)%nat) -> qn s (opcode_node (expand F) instr m l) s.
Proof.
  intros Cm T. assert (Ev : forall t v, qt s t -> qn s (expand_all (expand F) l v) t).
  { intros t v Q. apply qm_qn; [exact Q|]. apply qm_expand_all; [|exact (calm_qt _ _ Q Cm)]. intros q Hq. destruct (T q Hq) as (e & Te & He). exists e. split; [exact (tied_qt _ _ _ _ Q Te)|exact He]. }
  unfold opcode_node. apply qn_bind; [apply qm_qn; [apply qt_refl|apply qm_op_code]|]. intros cr t1 E1 Q1.
  assert (t1 = s) as -> by (unfold op_code in E1; apply gets_inv in E1; apply E1). clear E1 Q1.
  cbv zeta. apply qn_bind; [unfold qn; rewrite alloc_eq; apply qt_alloc|]. intros p t1 E1 Q1. rewrite alloc_eq in E1. injection E1 as <- <-.
  apply qn_bind; [apply Ev, Q1|]. intros v t2 _ Q2.
  apply qn_bind; [apply qm_qn; [exact Q2|unfold has_uninitialized; apply qm_bind; [apply qm_gets|intros; apply qm_has_uninit]]|]. intros hu t3 _ Q3.
  apply qn_bind; [apply qm_qn; [exact Q3|destruct l; [apply qm_ret|]; match goal with |- qm (if ?b then _ else _) _ => destruct b end; [apply qm_is_A|apply qm_ret]]|]. intros acc t4 _ Q4.
  apply qn_bind; [apply qm_qn; [exact Q4|apply qm_op_code]|]. intros c t5 _ Q5.
  apply qn_bind; [apply qm_qn; [exact Q5|apply qm_op_code]|]. intros c2 t6 _ Q6.
  apply qn_bind; [unfold qn, node_set, modify; apply qt_new; [exact Q6|apply le_n]|]. intros u t7 _ Q7.
  apply qn_bind; [apply Ev, Q7|]. intros v2 t8 _ Q8.
  apply qn_bind; [apply qm_qn; [exact Q8|apply qm_when, qm_err]|]. intros u2 t9 _ Q9. apply qm_qn; [exact Q9|apply qm_ret].
Qed.
(** the operands have values; the processor is the one of the program *)
Section Cpu.
Variables c02 ill : bool.
Local Notation plainly := (Struct.plainly c02 ill).
Local Notation plainly_all := (Struct.plainly_all c02 ill).
Local Notation stied := (StructRun.stied c02 ill).
Local Notation btied := (StructRun.btied c02 ill).
Local Notation all_qt := (StructRun.all_qt c02 ill).
(** A is no name of the table *)
Definition no_A (s : state) : Prop := forall n, In n [cs "A"; cs "a"] -> dict_search (s_dict s) n = None.
Definition fit (F : nat) (s : state) (l : list expr) : Prop :=
  s_c02 s = c02 /\ s_ill s = ill /\ ((1 <= F)%nat /\ no_A s) /\ forall e, In e l -> (height e <= F)%nat /\ (forall n, In n (names e) -> plain n) /\ exists v, sem (fun n => cval (meaning s n)) (s_pc s) e = Some (v, 0).
Lemma line_c02 v z : s_c02 (set_line v z) = s_c02 z. Proof. reflexivity. Qed.
Lemma line_ill v z : s_ill (set_line v z) = s_ill z. Proof. reflexivity. Qed.
Lemma line_pc v z : s_pc (set_line v z) = s_pc z. Proof. reflexivity. Qed.
Lemma cpu_sl s s' : sl s s' -> s_c02 s' = s_c02 s /\ s_ill s' = s_ill s /\ s_pc s' = s_pc s.
Proof.
  intros L. split; [rewrite <- (obs_get_c02 s'), (sl_obs _ _ L), line_c02; apply obs_get_c02|].
  split; [rewrite <- (obs_get_ill s'), (sl_obs _ _ L), line_ill; apply obs_get_ill|rewrite <- (obs_get_pc s'), (sl_obs _ _ L), line_pc; apply obs_get_pc].
Qed.
Lemma fit_sl F s s' l : sl s s' -> fit F s l -> fit F s' l.
Proof.
  intros L (C1 & C2 & (HF & NA) & H). destruct (cpu_sl _ _ L) as (D1 & D2 & D3). split; [congruence|]. split; [congruence|].
  split; [split; [exact HF|]; intros n Hn; rewrite (q_dict _ _ (sl_qt _ _ L)); exact (NA n Hn)|].
  intros e He. destruct (H e He) as (Hh & Pl & v & V). split; [exact Hh|]. split; [exact Pl|]. exists v. rewrite D3, <- V. apply sem_ext. intros n Hn. rewrite (sl_mean _ _ L n (Pl n Hn)). reflexivity.
Qed.
Lemma fit_incl F s l l' : incl l' l -> fit F s l -> fit F s l'.
Proof. intros I (C1 & C2 & H0 & H). split; [exact C1|]. split; [exact C2|]. split; [exact H0|]. intros e He. apply H, I, He. Qed.
Lemma upd_last {A} (x y : A) l : upd (length l) x (l ++ [y]) = l ++ [x].
Proof. induction l as [|a l IH]; [reflexivity|]. cbn. f_equal. exact IH. Qed.
Lemma acc_built F instr n s : (1 <= F)%nat -> calm s -> is_A n = true -> dict_search (s_dict s) n = None -> valids n -> get_op_code (s_c02 s) (s_ill s) instr m_r = -1 -> 0 <= get_op_code (s_c02 s) (s_ill s) instr m_A ->
  exists p s', build_op (expand F) instr (FAbs (ESym n)) s = Ok (Some p) s' /\ sl s s' /\ nth_error (s_nodes s') p = Some (mkNode (KOp instr (get_op_code (s_c02 s) (s_ill s) instr m_A) m_A 0) []).
Proof.
  intros HF Cm IA Dn Vn B C0. pose proof Cm as (T & Sc & St). set (c := get_op_code (s_c02 s) (s_ill s) instr m_A) in *.
  assert (E0 : build_expr (ESym n) s = Ok (Some (length (s_nodes s))) (set_nodes (s_nodes s ++ [mkNode (KId n None) []]) s)).
  { destruct (is_A_head _ IA) as (Hp & _ & Hb). cbn [build_expr]. unfold bindo, bind, need_sym, tok_sym. rewrite Hp, Hb.
    unfold bind, look_up_symbol, gets. unfold bind. rewrite Sc. unfold look_up_in, sym_search, bind, gets. rewrite Dn. unfold ret, some, bind, id_node. rewrite alloc_eq. reflexivity. }
  set (q := length (s_nodes s)) in *. set (s0 := set_nodes (s_nodes s ++ [mkNode (KId n None) []]) s) in *.
  assert (Q0 : nth_error (s_nodes s0) q = Some (mkNode (KId n None) [])) by apply alloc_nth.
  assert (L0 : sl s s0) by apply sl_alloc. assert (St0 : s_stop s0 = false) by exact St.
  assert (B0 : get_op_code (s_c02 s0) (s_ill s0) instr m_r = -1) by exact B. assert (Cc : get_op_code (s_c02 s0) (s_ill s0) instr m_A = c) by reflexivity. clearbody q s0.
  destruct F as [|F]; [lia|]. unfold build_op. unfold bindo, bind at 1. rewrite E0. unfold some, bind at 1.
  unfold opcode_node. unfold bind at 1, op_code, gets. rewrite B0. change (-1 =? -1) with true. cbv iota.
  unfold bind at 1. rewrite alloc_eq. set (p := length (s_nodes s0)).
  set (s1 := set_nodes (s_nodes s0 ++ [mkNode (KOp instr 0 m_a 0) [q]]) s0).
  assert (Lq : (q < p)%nat) by (apply nth_error_Some; congruence).
  assert (Q1 : nth_error (s_nodes s1) q = Some (mkNode (KId n None) [])).
  { unfold s1. cbn [s_nodes set_nodes]. rewrite nth_error_app1 by exact Lq. exact Q0. }
  cbn [expand_all]. unfold bind at 1. unfold bind at 1. rewrite (eval_A F s1 q n St0 IA Q1). unfold ret at 1.
  assert (N1 : nth_error (s_nodes s1) p = Some (mkNode (KOp instr 0 m_a 0) [q])) by apply alloc_nth.
  assert (U : exists b, has_uninitialized p s1 = Ok b s1).
  { unfold has_uninitialized, bind, gets. cbn [has_uninit]. unfold bind, node_get, gets. unfold bind. rewrite N1. unfold ret. cbn [n_ops].
    unfold s1. cbn [s_nodes set_nodes]. rewrite app_length. cbn [length]. rewrite Nat.add_1_r. fold s1.
    cbn [has_uninit]. unfold bind, node_get, gets. unfold bind. rewrite Q1. unfold ret. cbn [n_ops].
    unfold is_uninit, bind, node_get, gets. unfold bind. rewrite Q1. unfold ret. cbn [n_kind]. eauto. }
  destruct U as (b & U). unfold bind at 1. rewrite U.
  assert (A : is_id_A q s1 = Ok true s1).
  { unfold is_id_A, node_get, gets, bind. rewrite Q1. unfold ret. cbn [n_kind]. unfold is_A in IA. rewrite IA. reflexivity. }
  unfold bind at 1. change (m_a =? m_a) with true. cbv iota. rewrite A. unfold bind at 1.
  change (s_c02 s1) with (s_c02 s0). change (s_ill s1) with (s_ill s0). rewrite Cc. change (short_mode m_A) with m_A.
  assert (Z0 : (if negb (over 0 255) && negb b || (c =? -1) then m_A else m_A) = m_A) by (destruct (_ || _); reflexivity).
  rewrite Z0. unfold bind at 1. rewrite ?Cc. change (m_A =? m_A) with true. cbn [negb andb removelast]. cbv iota.
  unfold bind at 1, node_set, modify.
  set (s3 := set_nodes (upd p (mkNode (KOp instr c m_A 0) []) (s_nodes s1)) s1).
  assert (N3 : nth_error (s_nodes s3) p = Some (mkNode (KOp instr c m_A 0) [])) by (eapply upd_here, N1).
  assert (Q3 : nth_error (s_nodes s3) q = Some (mkNode (KId n None) [])).
  { unfold s3. cbn [s_nodes set_nodes]. rewrite nth_upd_other by lia. exact Q1. }
  unfold bind at 1. unfold bind at 1. rewrite (eval_A F s3 q n St0 IA Q3). unfold ret at 1.
  assert (E3 : s3 = set_nodes (s_nodes s0 ++ [mkNode (KOp instr c m_A 0) []]) s0).
  { unfold s3, s1, p. cbn [s_nodes set_nodes]. rewrite upd_last. reflexivity. }
  assert (c <? 0 = false) as X by lia. unfold bind, when. rewrite X. unfold ret. exists p, s3. split; [reflexivity|]. split; [|exact N3].
  rewrite E3. exact (sl_trans _ _ _ L0 (sl_alloc _ _ s0)).
Qed.
Lemma bop F instr f s : known_op c02 ill instr f -> calm s -> knows (uses (SOp instr f)) s -> fit F s (operand_of f) ->
  exists p s', build_op (expand F) instr f s = Ok (Some p) s' /\ sl s s' /\ stied s' p (SOp instr f).
Proof.
  intros Kn Cm K (C1 & C2 & (HF & NA) & Fi). unfold known_op in Kn. destruct (form f) as [k|[m e]] eqn:Ef.
  - destruct Kn as (If & Kn & Kr). pose proof Cm as (Tb & Sc & St).
    unfold has, opc in Kn, Kr. apply negb_false_iff, Z.eqb_eq in Kr. apply negb_true_iff, Z.eqb_neq in Kn. pose proof (get_op_code_range c02 ill instr k) as Rg.
    rewrite <- C1, <- C2 in Kr. assert (IA : f = FImp \/ exists n, f = FAbs (ESym n) /\ In n [cs "A"; cs "a"] /\ is_A n = true).
    { destruct If as [<-|[<-|[<-|[]]]]; [left; reflexivity|right; exists (cs "A"); cbn; auto|right; exists (cs "a"); cbn; auto]. }
    clear If. destruct IA as [->|(n & -> & In1 & IA)].
    2: { cbn [form] in Ef. rewrite IA in Ef. injection Ef as <-.
      destruct (acc_built F instr n s HF Cm IA (NA n In1) ltac:(destruct In1 as [<-|[<-|[]]]; repeat constructor; unfold validc; cbn; lia) Kr) as (p & s' & E & L & N); [rewrite C1, C2; lia|].
      rewrite C1, C2 in N. exists p, s'. split; [exact E|]. split; [exact L|]. eapply StImp; [cbn [form]; rewrite IA; reflexivity|exact N]. }
    cbn [form] in Ef. injection Ef as <-.
    destruct (opcode_node_implied instr s (expand F) Tb Kr) as (p & s' & E & Hv & O & N). rewrite C1, C2 in O, N.
    destruct (get_op_code c02 ill instr m_i <? 0) eqn:Lt; [lia|].
    pose proof (qn_opcode F instr m_i [] s Cm ltac:(intros q [])) as Q. unfold qn in Q. rewrite E in Q.
    exists p, s'. cbn [build_op]. unfold some, bind. rewrite E. split; [reflexivity|]. split; [apply sl_same; [exact Q|exact O|apply (h_res _ _ Hv)]|]. eapply StImp; [reflexivity|exact N].
  - destruct Kn as (Wf & Ea & Us). pose proof (form_inr _ _ _ Ef) as Fm. rewrite (build_op_form _ _ _ _ _ _ Fm).
    assert (Eo : operand_of f = [e]) by (unfold operand_of; rewrite Ef; reflexivity). rewrite Eo in Fi. destruct (Fi e (or_introl eq_refl)) as (He & Pl & v & V).
    destruct (bexpr e s Cm Wf ltac:(eapply knows_incl; [|exact K]; cbn [uses]; rewrite Eo; cbn [flat_map]; rewrite app_nil_r; apply incl_refl)) as (q & s1 & E1 & L1 & T1).
    unfold bindo, bind at 1. rewrite E1. pose proof (calm_sl _ _ L1 Cm) as Cm1. pose proof Cm1 as (Tb & Sc & St). destruct (cpu_sl _ _ L1) as (D1 & D2 & D3).
    assert (Kv : known (meaning s1) (s_pc s1) e v).
    { split; [|exact Ea]. rewrite D3, <- V. apply sem_ext. intros n Hn. rewrite (sl_mean _ _ L1 n (Pl n Hn)). reflexivity. }
    pose proof (opcode_node_ok (meaning s1) true e v F s1 q instr m He Tb St (tied_rep _ _ _ Tb Sc T1) Kv (plain_not_A _ Pl)) as OK.
    rewrite D1, D2, C1, C2 in OK.
    pose proof (mode_free (get_op_code c02 ill instr) m v (unknown_name (meaning s1) e) 0 (form_src _ _ _ Fm) ltac:(intros; apply get_op_code_range) Us eq_refl (no_both c02 ill instr)) as X. cbv zeta in X.
    destruct (build_mode (get_op_code c02 ill instr) m v (unknown_name (meaning s1) e)) as [m2 c2] eqn:BM. cbn [fst snd] in X. destruct X as (X1 & X2 & _).
    destruct OK as (p & s' & E & Hv & O & R & N & _).
    assert (c2 <? 0 = false) as Lt. { rewrite X1. unfold hasg in X2. apply negb_true_iff, Z.eqb_neq in X2. pose proof (get_op_code_range c02 ill instr m2). lia. }
    rewrite Lt in O.
    pose proof (qn_opcode F instr m [q] s1 Cm1 ltac:(intros r [<-|[]]; eauto)) as Q. unfold qn in Q. rewrite E in Q.
    exists p, s'. unfold some, bind. rewrite E. split; [reflexivity|]. split; [apply (sl_trans _ _ _ L1), sl_same; [exact Q|exact O|apply (h_res _ _ Hv)]|].
    eapply (StOp c02 ill s' p q instr f m e v (unknown_name (meaning s1) e)); [exact Ef|eapply tied_rep_ctied; [exact (tied_qt _ _ _ _ Q T1)|exact R]|]. rewrite BM. exact N.
Qed.
Definition all_operands (l : list (Z * stmt)) : list expr := flat_map (fun x => operands (snd x)) l.
Lemma bstmt F : (forall st, plainly st -> forall s, calm s -> s_macdef s = 0 -> knows (uses st) s -> fit F s (operands st) -> exists p s', build_stmt (expand F) true st s = Ok (Some p) s' /\ sl s s' /\ stied s' p st) /\
  (forall l, plainly_all l -> forall s, calm s -> s_macdef s = 0 -> knows (all_uses l) s -> fit F s (all_operands l) -> exists p s', build_body (expand F) None l s = Ok (Some p) s' /\ sl s s' /\ btied s' p l).
Proof.
  apply all_plainly.
  - intros s Cm Md K Fi. cbn [build_stmt]. unfold some, bind. rewrite alloc_eq. do 2 eexists. split; [reflexivity|]. split; [apply sl_alloc|apply StEmpty, alloc_nth].
  - intros size l Sz Ne G s Cm Md K Fi. cbn [build_stmt uses] in *. destruct (bitems l s Cm Ne G K) as (q & s1 & E1 & L1 & T1). unfold bindo, some, bind. rewrite E1, alloc_eq.
    do 2 eexists. split; [reflexivity|]. split; [exact (sl_trans _ _ _ L1 (sl_alloc _ _ _))|]. eapply StData; [apply alloc_nth|exact (ltied_qt _ _ _ _ (qt_alloc _ _ _) T1)].
  - intros instr f Kn s Cm Md K Fi. exact (bop F instr f s Kn Cm K Fi).
  - intros n e W s Cm Md K Fi. cbn [build_stmt uses] in *.
    destruct (first_found n s Cm ltac:(eapply knows_incl; [|exact K]; intros x [<-|[]]; left; reflexivity) Md) as (s1 & E1 & L1 & _). unfold bind at 1. rewrite E1.
    destruct (bexpr e s1 (calm_sl _ _ L1 Cm) W ltac:(apply (knows_sl _ _ _ L1); eapply knows_incl; [|exact K]; intros x Hx; right; exact Hx)) as (r & s2 & E2 & L2 & T2).
    unfold bindo, bind at 1. rewrite E2. unfold some, id_node, bind. rewrite alloc_eq. set (s3 := set_nodes _ s2). rewrite alloc_eq.
    assert (L3 : sl s s3) by exact (sl_trans _ _ _ L1 (sl_trans _ _ _ L2 (sl_alloc _ _ _))).
    do 2 eexists. split; [reflexivity|]. split; [exact (sl_trans _ _ _ L3 (sl_alloc _ _ _))|].
    destruct (K n (or_introl eq_refl)) as (_ & D & _). destruct (dict_search (s_dict s) n) as [a|] eqn:Da; [|contradiction].
    eapply StAssign; [apply alloc_nth|apply (node_name0 s3); apply alloc_nth| |left; reflexivity|].
    + cbn [s_dict set_nodes]. rewrite (q_dict _ _ (sl_qt _ _ L3)). exact Da.
    + exact (tied_qt _ _ _ _ (qt_alloc _ _ _) (tied_qt _ _ _ _ (qt_alloc _ _ _) T2)).
  - intros e b W Pb IH s Cm Md K Fi. rewrite build_if. cbn [uses] in K.
    destruct (bexpr e s Cm W ltac:(eapply knows_incl; [|exact K]; apply incl_appl, incl_refl)) as (c & s1 & E1 & L1 & T1).
    destruct (IH s1 (calm_sl _ _ L1 Cm) ltac:(rewrite (macdef_sl _ _ L1); exact Md) ltac:(apply (knows_sl _ _ _ L1); eapply knows_incl; [|exact K]; apply incl_appr, incl_refl) ltac:(first [exact Fi|exact (fit_sl _ _ _ _ L1 Fi)])) as (q & s2 & E2 & L2 & B2).
    unfold bindo, bind. rewrite E1, E2. unfold some, bind. rewrite alloc_eq. do 2 eexists. split; [reflexivity|].
    split; [exact (sl_trans _ _ _ (sl_trans _ _ _ L1 L2) (sl_alloc _ _ _))|].
    eapply StIf; [apply alloc_nth|exact (tied_qt _ _ _ _ (qt_alloc _ _ _) (tied_qt _ _ _ _ (sl_qt _ _ L2) T1))|exact (proj2 (all_qt _ _ (qt_alloc _ _ _)) _ _ B2)].
  - intros e b el W Pb IH Pe IHe s Cm Md K Fi. rewrite build_if. cbn [uses] in K.
    destruct (bexpr e s Cm W ltac:(eapply knows_incl; [|exact K]; apply incl_appl, incl_refl)) as (c & s1 & E1 & L1 & T1).
    destruct (IH s1 (calm_sl _ _ L1 Cm) ltac:(rewrite (macdef_sl _ _ L1); exact Md) ltac:(apply (knows_sl _ _ _ L1); eapply knows_incl; [|exact K]; intros x Hx; rewrite !in_app_iff; auto) ltac:(apply (fit_sl _ _ _ _ L1); eapply fit_incl; [|exact Fi]; apply incl_appl, incl_refl)) as (q & s2 & E2 & L2 & B2).
    pose proof (sl_trans _ _ _ L1 L2) as L12.
    destruct (IHe s2 (calm_sl _ _ L12 Cm) ltac:(rewrite (macdef_sl _ _ L12); exact Md) ltac:(apply (knows_sl _ _ _ L12); eapply knows_incl; [|exact K]; intros x Hx; rewrite !in_app_iff; auto) ltac:(apply (fit_sl _ _ _ _ L12); eapply fit_incl; [|exact Fi]; apply incl_appr, incl_refl)) as (r & s3 & E3 & L3 & B3).
    unfold bindo, bind. rewrite E1, E2, E3. unfold some, bind. rewrite alloc_eq. do 2 eexists. split; [reflexivity|].
    split; [exact (sl_trans _ _ _ (sl_trans _ _ _ L12 L3) (sl_alloc _ _ _))|].
    pose proof (qt_trans _ _ _ (sl_qt _ _ L3) (qt_alloc (KOpr OIf) [c; q; r] s3)) as Q3.
    eapply StElse; [apply alloc_nth|exact (tied_qt _ _ _ _ (qt_trans _ _ _ (sl_qt _ _ L2) Q3) T1)|exact (proj2 (all_qt _ _ Q3) _ _ B2)|exact (proj2 (all_qt _ _ (qt_alloc _ _ _)) _ _ B3)].
  - intros e b W Pb IH s Cm Md K Fi. rewrite build_while. cbn [uses] in K.
    destruct (bexpr e s Cm W ltac:(eapply knows_incl; [|exact K]; apply incl_appl, incl_refl)) as (c & s1 & E1 & L1 & T1).
    destruct (IH s1 (calm_sl _ _ L1 Cm) ltac:(rewrite (macdef_sl _ _ L1); exact Md) ltac:(apply (knows_sl _ _ _ L1); eapply knows_incl; [|exact K]; apply incl_appr, incl_refl) ltac:(first [exact Fi|exact (fit_sl _ _ _ _ L1 Fi)])) as (q & s2 & E2 & L2 & B2).
    unfold bindo, bind. rewrite E1, E2. unfold some, bind. rewrite alloc_eq. do 2 eexists. split; [reflexivity|].
    split; [exact (sl_trans _ _ _ (sl_trans _ _ _ L1 L2) (sl_alloc _ _ _))|].
    eapply StWhile; [apply alloc_nth|exact (tied_qt _ _ _ _ (qt_alloc _ _ _) (tied_qt _ _ _ _ (sl_qt _ _ L2) T1))|exact (proj2 (all_qt _ _ (qt_alloc _ _ _)) _ _ B2)].
  - intros e b W Pb IH s Cm Md K Fi. rewrite build_repeat. cbn [uses] in K.
    destruct (IH s Cm Md ltac:(eapply knows_incl; [|exact K]; apply incl_appr, incl_refl) ltac:(first [exact Fi|exact (fit_sl _ _ _ _ L1 Fi)])) as (q & s2 & E2 & L2 & B2).
    destruct (bexpr e s2 (calm_sl _ _ L2 Cm) W ltac:(apply (knows_sl _ _ _ L2); eapply knows_incl; [|exact K]; apply incl_appl, incl_refl)) as (c & s1 & E1 & L1 & T1).
    unfold bindo, bind. rewrite E2, E1. unfold some, bind. rewrite alloc_eq. do 2 eexists. split; [reflexivity|].
    split; [exact (sl_trans _ _ _ (sl_trans _ _ _ L2 L1) (sl_alloc _ _ _))|].
    eapply StRepeat; [apply alloc_nth|exact (tied_qt _ _ _ _ (qt_alloc _ _ _) T1)|exact (proj2 (all_qt _ _ (qt_trans _ _ _ (sl_qt _ _ L1) (qt_alloc _ _ _))) _ _ B2)].
  - intros e b W Pb IH s Cm Md K Fi. rewrite build_do. cbn [uses] in K.
    destruct (IH s Cm Md ltac:(eapply knows_incl; [|exact K]; apply incl_appr, incl_refl) ltac:(first [exact Fi|exact (fit_sl _ _ _ _ L1 Fi)])) as (q & s2 & E2 & L2 & B2).
    destruct (bexpr e s2 (calm_sl _ _ L2 Cm) W ltac:(apply (knows_sl _ _ _ L2); eapply knows_incl; [|exact K]; apply incl_appl, incl_refl)) as (c & s1 & E1 & L1 & T1).
    unfold bindo, bind. rewrite E2, E1. unfold some, bind. rewrite alloc_eq. do 2 eexists. split; [reflexivity|].
    split; [exact (sl_trans _ _ _ (sl_trans _ _ _ L2 L1) (sl_alloc _ _ _))|].
    eapply StDo; [apply alloc_nth|exact (tied_qt _ _ _ _ (qt_alloc _ _ _) T1)|exact (proj2 (all_qt _ _ (qt_trans _ _ _ (sl_qt _ _ L1) (qt_alloc _ _ _))) _ _ B2)].
  - intros n e0 e1 step b next W0 W1 Ws Pb IH s Cm Md K Fi. rewrite build_for. cbn [uses] in K.
    assert (Kn : knows [n] s) by (eapply knows_incl; [|exact K]; intros x [<-|[]]; left; reflexivity).
    assert (Kx : knows [next] s) by (eapply knows_incl; [|exact K]; intros x [<-|[]]; right; left; reflexivity).
    assert (K0 : knows (names e0) s) by (eapply knows_incl; [|exact K]; intros x Hx; cbn [In]; rewrite !in_app_iff; auto 10).
    assert (K1 : knows (names e1) s) by (eapply knows_incl; [|exact K]; intros x Hx; cbn [In]; rewrite !in_app_iff; auto 10).
    assert (Ks : knows (match step with Some e => names e | None => [] end) s) by (eapply knows_incl; [|exact K]; intros x Hx; cbn [In]; rewrite !in_app_iff; auto 10).
    assert (Kb : knows (all_uses b) s) by (eapply knows_incl; [|exact K]; intros x Hx; cbn [In]; rewrite !in_app_iff; auto 10). clear K.
    destruct (need_found n s Cm Kn) as (s1 & E1 & L1 & _).
    destruct (bexpr e0 s1 (calm_sl _ _ L1 Cm) W0 (knows_sl _ _ _ L1 K0)) as (r & s2 & E2 & L2 & T2).
    unfold bindo at 1, bind at 1. rewrite E1. unfold bindo at 1, bind at 1. rewrite E2. unfold bind at 1, id_node at 1. rewrite alloc_eq. set (s3 := set_nodes _ s2).
    assert (L3 : sl s2 s3) by apply sl_alloc. assert (N3 : nth_error (s_nodes s3) (length (s_nodes s2)) = Some (mkNode (KId n None) [])) by apply alloc_nth.
    unfold bind at 1. rewrite alloc_eq. set (s4 := set_nodes _ s3). assert (L4 : sl s3 s4) by apply sl_alloc.
    assert (N4 : nth_error (s_nodes s4) (length (s_nodes s3)) = Some (mkNode (KOpr OEqu) [length (s_nodes s2); r])) by apply alloc_nth.
    pose proof (node_name0 _ _ _ (KOpr OEqu) [length (s_nodes s2); r] N3) as N3'. fold s4 in N3'. clear N3. clearbody s4 s3.
    assert (L14 : sl s s4) by exact (sl_trans _ _ _ (sl_trans _ _ _ L1 L2) (sl_trans _ _ _ L3 L4)).
    destruct (bexpr e1 s4 (calm_sl _ _ L14 Cm) W1 (knows_sl _ _ _ L14 K1)) as (c & s5 & E5 & L5 & T5). unfold bindo at 1, bind at 1. rewrite E5.
    pose proof (sl_trans _ _ _ L14 L5) as L15.
    assert (X : exists sv s6, (match step with None => ret (Some []) | Some e => n <-o build_expr e ;; ret (Some [n]) end) s5 = Ok (Some sv) s6 /\ sl s5 s6 /\
      match step, sv with None, [] => True | Some e, [x] => tied s6 x e | _, _ => False end).
    { destruct step as [e|].
      - destruct (bexpr e s5 (calm_sl _ _ L15 Cm) Ws (knows_sl _ _ _ L15 Ks)) as (x & s6 & E6 & L6 & T6). exists [x], s6. unfold bindo, bind. rewrite E6. auto.
      - exists [], s5. split; [reflexivity|]. split; [apply sl_refl|exact I]. }
    destruct X as (sv & s6 & E6 & L6 & T6). unfold bindo at 1, bind at 1. rewrite E6. pose proof (sl_trans _ _ _ L15 L6) as L16.
    destruct (IH s6 (calm_sl _ _ L16 Cm) ltac:(rewrite (macdef_sl _ _ L16); exact Md) (knows_sl _ _ _ L16 Kb) (fit_sl _ _ _ _ L16 Fi)) as (w & s7 & E7 & L7 & B7).
    unfold bindo at 1, bind at 1. rewrite E7. pose proof (sl_trans _ _ _ L16 L7) as L17.
    destruct (need_found next s7 (calm_sl _ _ L17 Cm) (knows_sl _ _ _ L17 Kx)) as (s8 & E8 & L8 & _).
    unfold bindo at 1, bind at 1. rewrite E8. unfold bind at 1, id_node at 1. rewrite alloc_eq. set (s9 := set_nodes _ s8).
    assert (N9 : nth_error (s_nodes s9) (length (s_nodes s8)) = Some (mkNode (KId next None) [])) by apply alloc_nth.
    assert (L9 : sl s8 s9) by apply sl_alloc. clearbody s9.
    unfold some, bind. rewrite alloc_eq. set (s10 := set_nodes _ s9). assert (L10 : sl s9 s10) by apply sl_alloc.
    assert (N10 : nth_error (s_nodes s10) (length (s_nodes s9)) = Some (mkNode (KOpr OFor) ([length (s_nodes s3); c; w; length (s_nodes s8)] ++ sv))) by apply alloc_nth.
    pose proof (node_name0 _ _ _ (KOpr OFor) ([length (s_nodes s3); c; w; length (s_nodes s8)] ++ sv) N9) as N9'. fold s10 in N9'. clearbody s10.
    pose proof (sl_trans _ _ _ (sl_trans _ _ _ L8 L9) L10) as L8_10. pose proof (sl_trans _ _ _ L7 L8_10) as L7_10. pose proof (sl_trans _ _ _ L6 L7_10) as L6_10.
    pose proof (sl_trans _ _ _ L5 L6_10) as L5_10. pose proof (sl_trans _ _ _ L14 L5_10) as L.
    do 2 eexists. split; [reflexivity|]. split; [exact L|].
    destruct (Kn n (or_introl eq_refl)) as (_ & D & _). destruct (dict_search (s_dict s) n) as [a|] eqn:Da; [|contradiction].
    destruct (Kx next (or_introl eq_refl)) as (_ & D' & _). destruct (dict_search (s_dict s) next) as [a'|] eqn:Da'; [|contradiction].
    destruct (node_name s4 s10 _ n None [] a (sl_qt _ _ L5_10) N3' ltac:(rewrite (q_dict _ _ (sl_qt _ _ L14)); exact Da) (or_introl eq_refl)) as (i & Ni & Ii).
    eapply (StFor c02 ill s10) with (i := i) (a := a) (a' := a') (k := None); [exact N10|exact (node_opr _ _ _ _ _ (sl_qt _ _ L5_10) N4)|exact Ni| |exact Ii| | | |exact N9'| |left; reflexivity|].
    + rewrite (q_dict _ _ (sl_qt _ _ L)). exact Da.
    + exact (tied_qt _ _ _ _ (sl_qt _ _ (sl_trans _ _ _ (sl_trans _ _ _ L3 L4) L5_10)) T2).
    + exact (tied_qt _ _ _ _ (sl_qt _ _ L6_10) T5).
    + exact (proj2 (all_qt _ _ (sl_qt _ _ L8_10)) _ _ B7).
    + rewrite (q_dict _ _ (sl_qt _ _ L)). exact Da'.
    + destruct step, sv as [|x [|]]; auto. exact (tied_qt _ _ _ _ (sl_qt _ _ L7_10) T6).
  - intros ln st Pst IH s Cm Md K Fi. cbn [build_body]. unfold bind at 1, modify.
    pose proof (sl_line ln s) as L0. unfold all_uses in K. cbn [flat_map snd] in K. rewrite app_nil_r in K.
    destruct (IH (set_line ln s) (calm_sl _ _ L0 Cm) Md (knows_sl _ _ _ L0 K) ltac:(apply (fit_sl _ _ _ _ L0); unfold all_operands in Fi; cbn [flat_map snd] in Fi; rewrite app_nil_r in Fi; exact Fi)) as (p & s1 & E1 & L1 & T1). unfold bindo, bind. rewrite E1. unfold ret.
    do 2 eexists. split; [reflexivity|]. split; [exact (sl_trans _ _ _ L0 L1)|apply BtOne, T1].
  - intros l ln st Pl IHl Pst IH s Cm Md K Fi. rewrite body_snoc by (intros ->; inversion Pl; destruct l; discriminate).
    unfold all_uses in K. rewrite flat_map_app in K. cbn [flat_map snd] in K. rewrite app_nil_r in K.
    destruct (IHl s Cm Md ltac:(eapply knows_incl; [|exact K]; apply incl_appl, incl_refl) ltac:(eapply fit_incl; [|exact Fi]; unfold all_operands; rewrite flat_map_app; apply incl_appl, incl_refl)) as (q & s1 & E1 & L1 & B1).
    unfold bindo at 1, bind at 1. rewrite E1. unfold bind at 1, modify. pose proof (sl_trans _ _ _ L1 (sl_line ln s1)) as L2.
    destruct (IH (set_line ln s1) (calm_sl _ _ L2 Cm) ltac:(rewrite (macdef_sl _ _ L2); exact Md)
      ltac:(apply (knows_sl _ _ _ L2); eapply knows_incl; [|exact K]; apply incl_appr, incl_refl) ltac:(apply (fit_sl _ _ _ _ L2); eapply fit_incl; [|exact Fi]; unfold all_operands; rewrite flat_map_app; apply incl_appr; cbn [flat_map snd]; rewrite app_nil_r; apply incl_refl)) as (r & s3 & E3 & L3 & T3).
    unfold bindo, bind. rewrite E3, alloc_eq. unfold ret. do 2 eexists. split; [reflexivity|]. split; [exact (sl_trans _ _ _ (sl_trans _ _ _ L2 L3) (sl_alloc _ _ _))|].
    eapply BtSnoc; [apply alloc_nth| |exact (proj1 (all_qt _ _ (qt_alloc _ _ _)) _ _ T3)].
    exact (proj2 (all_qt _ _ (qt_trans _ _ _ (qt_trans _ _ _ (sl_qt _ _ (sl_line ln s1)) (sl_qt _ _ L3)) (qt_alloc _ _ _))) _ _ B1).
Qed.
End Cpu.
