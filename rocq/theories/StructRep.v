(** Statements with conditions and loops: the nodes they are built of, and what evaluating them leaves as it was.
    When all names are in the symbol table the table is not changed by evaluation, so the records cached in the nodes
    stay those of the names. *)
From Coq Require Import String Lia.
From Verif Require Import Base BaseProofs Hash Dict DictProofs DictMore Str Opcodes OpcodesProofs Err State Sym Machine Build Pass
  GenX Gen Inv SymProofs Sem ExprProofs ListRel ExprMore OpProofs OpMore InstrProofs InstrMore DataProofs DataMore DefProofs BadProofs DataWalk Struct.
Open Scope string_scope.
Open Scope list_scope.
Open Scope Z_scope.
Open Scope m_scope.

(** ** What stays *)
Inductive qnode (s : state) : node -> node -> Prop :=
| QnSame x : qnode s x x
| QnPc v w l : qnode s (mkNode (KCon v true) l) (mkNode (KCon w true) l)
| QnOp i o m c c' l : qnode s (mkNode (KOp i o m c) l) (mkNode (KOp i o m c') l)
| QnId n a l : dict_search (s_dict s) n = Some a -> qnode s (mkNode (KId n None) l) (mkNode (KId n (Some a)) l).
(** a record of a variable *)
Definition isvar (y : symbol) : Prop := exists v, ycore y = (v, true, false, false, true).
Definition like (y y' : symbol) : Prop := ycore y' = ycore y \/ (isvar y /\ isvar y').
(** variables stay variables, the other records keep their values *)
Definition keeps (s s' : state) : Prop := forall k y', valids k -> dl s' k = Some y' -> exists y, dl s k = Some y /\ like y y'.
Lemma like_refl y : like y y. Proof. left. reflexivity. Qed.
Lemma isvar_eq y y' : ycore y' = ycore y -> isvar y -> isvar y'. Proof. intros E (v & V). exists v. congruence. Qed.
Lemma like_trans a b c : like a b -> like b c -> like a c.
Proof.
  intros [E|[V1 V2]] [E2|[V3 V4]]; [left; congruence|right|right|right]; split; auto.
  - exact (isvar_eq b a (eq_sym E) V3).
  - exact (isvar_eq b c E2 V2).
Qed.
Lemma keeps_refl s : keeps s s. Proof. intros k y _ D. exists y. split; [exact D|apply like_refl]. Qed.
Lemma keeps_trans a b c : keeps a b -> keeps b c -> keeps a c.
Proof. intros A B k z V D. destruct (B k z V D) as (y & Dy & L). destruct (A k y V Dy) as (x & Dx & L1). exists x. split; [exact Dx|exact (like_trans _ _ _ L1 L)]. Qed.
Lemma keeps_same s s' : s_dict s' = s_dict s -> s_syms s' = s_syms s -> keeps s s'.
Proof. intros E1 E2 k y _ D. exists y. split; [|apply like_refl]. unfold dl in *. rewrite E1, E2 in D. exact D. Qed.
Record qt (s s' : state) : Prop := mkQt {
  q_dict : s_dict s' = s_dict s;
  q_scope : s_scope s' = s_scope s;
  q_stop : s_stop s' = s_stop s;
  q_len : length (s_syms s') = length (s_syms s);
  q_tab : tab s -> tab s';
  q_vars : keeps s s';
  q_node : forall p x, nth_error (s_nodes s) p = Some x -> exists x', nth_error (s_nodes s') p = Some x' /\ qnode s x x' }.
Lemma qt_refl s : qt s s.
Proof. constructor; auto using keeps_refl. intros p x H. exists x. split; [exact H|constructor]. Qed.
Lemma qt_trans a b c : qt a b -> qt b c -> qt a c.
Proof.
  intros [A1 A2 A3 A4 A5 A7 A6] [B1 B2 B3 B4 B5 B7 B6]. constructor; auto; try congruence; [exact (keeps_trans _ _ _ A7 B7)|].
  intros p x H. destruct (A6 p x H) as (x1 & H1 & N1). destruct (B6 p x1 H1) as (x2 & H2 & N2). exists x2. split; [exact H2|].
  inversion N1; subst; inversion N2; subst; try constructor; try congruence.
Qed.
Lemma tab_same s s' : s_dict s' = s_dict s -> s_scope s' = s_scope s -> s_syms s' = s_syms s -> tab s -> tab s'.
Proof.
  intros E1 E2 E3 ((T0 & T1) & T2 & T3). split; [split; [rewrite E1, E3; exact T0|rewrite E1; exact T1]|]. split; [|rewrite E2; exact T3].
  intros k Vk. unfold single, recs. rewrite E1, E3. apply T2, Vk.
Qed.
Lemma qt_frame s s' : s_dict s' = s_dict s -> s_scope s' = s_scope s -> s_stop s' = s_stop s -> s_syms s' = s_syms s -> s_nodes s' = s_nodes s -> qt s s'.
Proof.
  intros E1 E2 E3 E4 E5. constructor; auto.
  - rewrite E4. reflexivity.
  - apply tab_same; auto.
  - apply keeps_same; auto.
  - intros p x H. exists x. rewrite E5. split; [exact H|constructor].
Qed.
Lemma qt_nodes s s' l : s_dict s' = s_dict s -> s_scope s' = s_scope s -> s_stop s' = s_stop s -> s_syms s' = s_syms s -> s_nodes s' = s_nodes s ++ l -> qt s s'.
Proof.
  intros E1 E2 E3 E4 E5. constructor; auto.
  - rewrite E4. reflexivity.
  - apply tab_same; auto.
  - apply keeps_same; auto.
  - intros p x H. exists x. rewrite E5. split; [|constructor]. rewrite nth_error_app1; [exact H|]. apply nth_error_Some. congruence.
Qed.
Lemma qt_alloc k l s : qt s (set_nodes (s_nodes s ++ [mkNode k l]) s).
Proof. apply (qt_nodes _ _ [mkNode k l]); reflexivity. Qed.
Lemma qt_sym a y y' s : nth_error (s_syms s) a = Some y -> like y y' -> qt s (set_syms (upd a y' (s_syms s)) s).
Proof.
  intros Y Iv. constructor; auto.
  - cbn [s_syms set_syms]. apply upd_length.
  - intros ((T0 & T1) & T2 & T3). split; [split; [apply WF_upd, T0|exact T1]|]. split; [|exact T3].
    intros k Vk. unfold single. rewrite recs_len_upd. apply T2, Vk.
  - intros k z Vk. unfold dl, dlookup. cbn [fst snd s_dict s_syms set_syms]. destruct (dict_search (s_dict s) k) as [b|] eqn:D; [|discriminate].
    destruct (Nat.eq_dec a b) as [<-|Hn].
    + rewrite nth_upd_same by (apply nth_error_Some; congruence). intros [= <-]. exists y. split; [exact Y|exact Iv].
    + rewrite nth_upd_other by auto. intros E. exists z. split; [exact E|apply like_refl].
  - intros p x H. exists x. split; [exact H|constructor].
Qed.

(** ** Nodes of expressions whose names are in the table *)
Inductive tied (s : state) : nat -> expr -> Prop :=
| TInt p v : nth_error (s_nodes s) p = Some (mkNode (KCon v false) []) -> tied s p (EInt v)
| TPc p v : nth_error (s_nodes s) p = Some (mkNode (KCon v true) []) -> tied s p EPc
| TName p n i a : nth_error (s_nodes s) p = Some (mkNode (KId n i) []) -> plain n -> dict_search (s_dict s) n = Some a ->
    i = None \/ i = Some a -> tied s p (ESym n)
| TUn p o q e : nth_error (s_nodes s) p = Some (mkNode (KOpr o) [q]) -> is_un o = true -> (q < p)%nat -> tied s q e -> tied s p (EUn o e)
| TBin p o q1 q2 e1 e2 : nth_error (s_nodes s) p = Some (mkNode (KOpr o) [q1; q2]) -> is_bin o = true ->
    (q1 < p)%nat -> (q2 < p)%nat -> tied s q1 e1 -> tied s q2 e2 -> tied s p (EBin o e1 e2).
Lemma node_opr s s' p o l : qt s s' -> nth_error (s_nodes s) p = Some (mkNode (KOpr o) l) -> nth_error (s_nodes s') p = Some (mkNode (KOpr o) l).
Proof. intros Q H. destruct (q_node _ _ Q _ _ H) as (x & H1 & N). inversion N; subst. exact H1. Qed.
Lemma node_name s s' p n i l a : qt s s' -> nth_error (s_nodes s) p = Some (mkNode (KId n i) l) -> dict_search (s_dict s) n = Some a -> i = None \/ i = Some a ->
  exists i', nth_error (s_nodes s') p = Some (mkNode (KId n i') l) /\ (i' = None \/ i' = Some a).
Proof.
  intros Q H D I. destruct (q_node _ _ Q _ _ H) as (x & H1 & N). inversion N; subst; [eauto|]. exists (Some a0). split; [exact H1|]. right. congruence.
Qed.
Lemma tied_qt s s' p e : qt s s' -> tied s p e -> tied s' p e.
Proof.
  intros Q T. induction T as [p v N|p v N|p n i a N P D I|p o q e N U L T IH|p o q1 q2 e1 e2 N U L1 L2 T1 IH1 T2 IH2].
  - destruct (q_node _ _ Q _ _ N) as (x & H1 & X). inversion X; subst. econstructor; eauto.
  - destruct (q_node _ _ Q _ _ N) as (x & H1 & X). inversion X; subst; econstructor; eauto.
  - destruct (node_name _ _ _ _ _ _ _ Q N D I) as (i' & N' & I'). eapply TName; eauto. rewrite (q_dict _ _ Q). exact D.
  - econstructor; eauto using node_opr.
  - econstructor; eauto using node_opr.
Qed.
Lemma found s n a : tab s -> s_scope s = None -> plain n -> dict_search (s_dict s) n = Some a ->
  exists y, nth_error (s_syms s) a = Some y /\ ycore y = meaning s n /\ resolve s None n = Some y.
Proof.
  intros T Sc P D. pose proof (dl_search s n (proj1 (proj1 T)) (proj1 P)) as X. rewrite D in X. destruct X as (y & Y & E).
  exists y. split; [exact Y|]. unfold meaning, resolve. rewrite Sc, E. auto.
Qed.
Lemma tied_rep s p e : tab s -> s_scope s = None -> tied s p e -> rep (meaning s) true s p e.
Proof.
  intros Tb Sc T. induction T as [p v N|p v N|p n i a N P D I|p o q e N U L T IH|p o q1 q2 e1 e2 N U L1 L2 T1 IH1 T2 IH2].
  - apply RepInt, N.
  - eapply RepPc, N.
  - destruct I as [->| ->]; [apply RepName; auto|]. destruct (found _ _ _ Tb Sc P D) as (y & Y & E & _). eapply RepCached; eauto. apply plain_direct, P.
  - eapply RepUn; eauto.
  - eapply RepBin; eauto.
Qed.
Lemma tied_kind s p e : tied s p e -> exists x, nth_error (s_nodes s) p = Some x /\ is_kind_con_id_lab_opr (n_kind x) = true /\ n_kind x <> KOpr OExprList /\
  (forall q, In q (n_ops x) -> exists e', tied s q e' /\ (height e' < height e)%nat).
Proof.
  intros T. destruct T as [p v N|p v N|p n i a N P D I|p o q e N U L T|p o q1 q2 e1 e2 N U L1 L2 T1 T2]; (eexists; split; [exact N|]); cbn [n_kind n_ops height];
    (split; [reflexivity|]); (split; [try discriminate; try (intros X; injection X as ->; discriminate)|]).
  1-3: intros q [].
  - intros x [<-|[]]. exists e. split; [exact T|lia].
  - intros x [<-|[<-|[]]]; [exists e1|exists e2]; (split; [assumption|lia]).
Qed.

(** ** Evaluation leaves the table as it is *)
Definition qe (s s' : state) : Prop := qt s s' /\ s_ety s' = s_ety s.
Lemma qe_refl s : qe s s. Proof. split; [apply qt_refl|reflexivity]. Qed.
Lemma qe_trans a b c : qe a b -> qe b c -> qe a c.
Proof. intros [A1 A2] [B1 B2]. split; [exact (qt_trans _ _ _ A1 B1)|congruence]. Qed.
Definition qm {A} (m : M A) (s : state) : Prop := match m s with Ok _ s' => qe s s' | _ => True end.
Lemma qm_bind {A B} (m : M A) (k : A -> M B) s : qm m s -> (forall a s', m s = Ok a s' -> qe s s' -> qm (k a) s') -> qm (bind m k) s.
Proof.
  unfold qm, bind. intros H1 H2. destruct (m s) as [a s1| | |] eqn:E; auto. specialize (H2 a s1 eq_refl H1).
  destruct (k a s1); auto. exact (qe_trans _ _ _ H1 H2).
Qed.
Lemma qm_ret {A} (a : A) s : qm (ret a) s. Proof. apply qe_refl. Qed.
Lemma qm_gets {A} (f : state -> A) s : qm (gets f) s. Proof. apply qe_refl. Qed.
Lemma qm_when b m s : qm m s -> qm (when b m) s.
Proof. intros H. destruct b; [exact H|apply qe_refl]. Qed.
Lemma qm_err n s : qm (err n) s. Proof. split; [apply qt_frame; reflexivity|reflexivity]. Qed.
Lemma qm_node_get p s : qm (node_get p) s.
Proof. unfold qm, node_get, bind, gets. destruct (nth_error _ _); [apply qe_refl|exact I]. Qed.
Lemma qm_sym_get p s : qm (sym_get p) s.
Proof. unfold qm, sym_get, bind, gets. destruct (nth_error _ _); [apply qe_refl|exact I]. Qed.
Lemma node_get_inv p s x s' : node_get p s = Ok x s' -> s' = s /\ nth_error (s_nodes s) p = Some x.
Proof. unfold node_get, bind, gets. destruct (nth_error _ _); intros E; inversion E; subst; auto. Qed.
Lemma gets_inv {A} (f : state -> A) s a s' : gets f s = Ok a s' -> s' = s /\ a = f s.
Proof. unfold gets. intros E; inversion E; auto. Qed.
Definition calm (s : state) : Prop := tab s /\ s_scope s = None /\ s_stop s = false.
Lemma calm_qt s s' : qt s s' -> calm s -> calm s'.
Proof. intros Q (T & Sc & St). split; [apply (q_tab _ _ Q), T|]. split; [rewrite (q_scope _ _ Q); exact Sc|rewrite (q_stop _ _ Q); exact St]. Qed.
Lemma add_found n a s : tab s -> s_scope s = None -> plain n -> dict_search (s_dict s) n = Some a ->
  exists y, nth_error (s_syms s) a = Some y /\ ycore y = meaning s n /\ add_symbol n s = Ok (Some a) (set_syms (upd a (y_times_inc y) (s_syms s)) s).
Proof.
  intros T Sc P D. destruct (found _ _ _ T Sc P D) as (y & Y & E & _). exists y. split; [exact Y|]. split; [exact E|].
  rewrite (add_plain_eq _ _ P), Sc. unfold look_up_in, sym_search, bind, gets. rewrite D. unfold sym_get, sym_set, bind, gets, modify. rewrite Y. reflexivity.
Qed.
Lemma like_times y : like y (y_times_inc y). Proof. left. reflexivity. Qed.
Lemma qt_cache p n a y l s : nth_error (s_nodes s) p = Some (mkNode (KId n None) l) -> dict_search (s_dict s) n = Some a -> nth_error (s_syms s) a = Some y ->
  forall y', like y y' -> qt s (set_nodes (upd p (mkNode (KId n (Some a)) l) (s_nodes s)) (set_syms (upd a y' (s_syms s)) s)).
Proof.
  intros N D Y y' Iv. apply (qt_trans _ _ _ (qt_sym a y y' s Y Iv)). constructor; auto; [apply keeps_same; reflexivity|].
  intros q x H. cbn [s_nodes set_nodes set_syms] in *. destruct (Nat.eq_dec p q) as [<-|Hn].
  - rewrite nth_upd_same by (apply nth_error_Some; congruence). eexists. split; [reflexivity|]. rewrite N in H. injection H as <-. constructor. exact D.
  - rewrite nth_upd_other by auto. exists x. split; [exact H|constructor].
Qed.
Lemma eval_evo F e s p v s' : (height e <= F)%nat -> calm s -> tied s p e -> expand F p s = Ok v s' -> evo s s'.
Proof.
  intros HF (T & Sc & St) R E. pose proof (eval_rep _ true e F s p HF T St (tied_rep _ _ _ T Sc R)) as H. unfold evaluates in H.
  destruct (sem _ _ _) as [[w k]|]; [|congruence]. destruct H as (s1 & E1 & H & _). congruence.
Qed.
Lemma qm_eval e : forall F s p, (height e <= F)%nat -> calm s -> tied s p e -> qm (expand F p) s.
Proof.
  induction e as [v|n| |o e IH|o e1 IH1 e2 IH2]; intros F s p HF Cm T; (destruct F as [|F]; [cbn in HF; lia|]); pose proof Cm as (Tb & Sc & St); unfold qm.
  - inversion T as [p0 v0 N| | | |]; subst. rewrite (expand_eq _ _ _ _ St N). apply qe_refl.
  - inversion T as [| |p0 n0 i a N P D I| |]; subst. rewrite (expand_eq _ _ _ _ St N). unfold x_node. cbn [n_kind]. unfold x_id.
    destruct (direct_head _ (plain_direct _ P)) as [D1 D2]. rewrite D1, D2. destruct I as [->| ->].
    + destruct (add_found n a s Tb Sc P D) as (y & Y & _ & E). unfold bind, ret. rewrite E. unfold node_set, modify, sym_get, gets, bind. cbn [s_syms set_nodes set_syms].
      rewrite nth_upd_same by (apply nth_error_Some; congruence). cbn [n_ops]. split; [apply (qt_cache p n a y [] s N D Y), like_times|reflexivity].
    + unfold bind, ret, sym_get, gets, bind. destruct (nth_error (s_syms s) a); [apply qe_refl|exact I].
  - inversion T as [|p0 v N| | |]; subst. rewrite (expand_eq _ _ _ _ St N). unfold x_node. cbn [n_kind]. unfold x_constant, bind, gets, node_set, modify, ret.
    split; [|reflexivity]. constructor; auto; [apply keeps_same; reflexivity|]. intros q x H. cbn [s_nodes set_nodes n_ops]. destruct (Nat.eq_dec p q) as [<-|Hn].
    + rewrite nth_upd_same by (apply nth_error_Some; congruence). eexists. split; [reflexivity|]. rewrite N in H. injection H as <-. constructor.
    + rewrite nth_upd_other by auto. exists x. split; [exact H|constructor].
  - inversion T as [| | |p0 o0 q e0 N U L T'|]; subst. cbn [height] in HF. rewrite (expand_eq _ _ _ _ St N). unfold x_node. cbn [n_kind].
    assert (x_opr (expand F) F p (mkNode (KOpr o) [q]) o s = bind (expand F q) (fun v => un_op o v) s) as -> by (destruct o; try discriminate U; reflexivity).
    apply (qm_bind (expand F q) (fun v => un_op o v) s); [apply IH; auto; lia|]. intros v s1 _ _. unfold qm. rewrite (un_op_sem _ _ _ U). destruct (sem_un o v); [apply qe_refl|exact I].
  - inversion T as [| | | |p0 o0 q1 q2 e10 e20 N U L1 L2 T1 T2]; subst. cbn [height] in HF. rewrite (expand_eq _ _ _ _ St N). unfold x_node. cbn [n_kind].
    assert (Q1 : qm (expand F q1) s) by (apply IH1; auto; lia).
    assert (Q2 : forall s1, qe s s1 -> qm (expand F q2) s1) by (intros s1 Q; apply IH2; [lia|exact (calm_qt _ _ (proj1 Q) Cm)|exact (tied_qt _ _ _ _ (proj1 Q) T2)]).
    destruct (strict o) eqn:So.
    + assert (x_opr (expand F) F p (mkNode (KOpr o) [q1; q2]) o s = bind (expand F q1) (fun a => bind (expand F q2) (fun b => bin_op o a b)) s) as ->
        by (destruct o; try discriminate So; reflexivity).
      apply (qm_bind (expand F q1) _ s Q1). intros a s1 _ Q. apply qm_bind; [apply Q2, Q|]. intros b s2 _ _. unfold qm. rewrite (bin_op_sem _ _ _ _ So).
      destruct (sem_bin o a b); [apply qe_refl|exact I].
    + destruct o; try discriminate So; try discriminate U; unfold x_opr.
      * change (qm (x_divide (expand F) {| n_kind := KOpr ODiv; n_ops := [q1; q2] |}) s). unfold x_divide, opn. cbn [n_ops nth_error].
        apply qm_bind; [apply qm_ret|]. intros n1 s0 E0 _. inversion E0; subst n1 s0; clear E0.
        apply qm_bind; [apply Q2, qe_refl|]. intros b s1 _ Qb. destruct (b =? 0); [apply qm_bind; [apply qm_err|intros; apply qm_ret]|].
        apply qm_bind; [apply qm_ret|]. intros n1 s0 E0 _. inversion E0; subst n1 s0; clear E0.
        apply qm_bind; [apply IH1; [lia|exact (calm_qt _ _ (proj1 Qb) Cm)|exact (tied_qt _ _ _ _ (proj1 Qb) T1)]|]. intros a s2 _ Qa.
        apply qm_bind; [apply Q2, (qe_trans _ _ _ Qb Qa)|]. intros b' s3 _ _. destruct (b' =? 0); [exact I|].
        unfold qm, ck. destruct (in_int _); [apply qe_refl|exact I].
      * change (qm (x_or (expand F) {| n_kind := KOpr OOr; n_ops := [q1; q2] |}) s). unfold x_or, opn. cbn [n_ops nth_error].
        apply qm_bind; [apply qm_ret|]. intros n1 s0 E0 _. inversion E0; subst n1 s0; clear E0.
        apply qm_bind; [exact Q1|]. intros b s1 _ Qb. destruct (b =? 0); [|apply qm_ret].
        apply qm_bind; [apply qm_ret|]. intros n1 s0 E0 _. inversion E0; subst n1 s0; clear E0.
        apply qm_bind; [apply Q2, Qb|]. intros; apply qm_ret.
      * change (qm (x_and (expand F) {| n_kind := KOpr OAnd; n_ops := [q1; q2] |}) s). unfold x_and, opn. cbn [n_ops nth_error].
        apply qm_bind; [apply qm_ret|]. intros n1 s0 E0 _. inversion E0; subst n1 s0; clear E0.
        apply qm_bind; [exact Q1|]. intros b s1 _ Qb. destruct (b =? 0); [apply qm_ret|].
        apply qm_bind; [apply qm_ret|]. intros n1 s0 E0 _. inversion E0; subst n1 s0; clear E0.
        apply qm_bind; [apply Q2, Qb|]. intros; apply qm_ret.
Qed.

(** ** Data *)
Lemma qm_modify f s : (forall z, s_dict (f z) = s_dict z /\ s_scope (f z) = s_scope z /\ s_stop (f z) = s_stop z /\ s_syms (f z) = s_syms z /\ s_nodes (f z) = s_nodes z /\ s_ety (f z) = s_ety z) -> qm (modify f) s.
Proof. intros H. destruct (H s) as (A & B & C & D & E & G). split; [apply qt_frame; assumption|exact G]. Qed.
Ltac qmod := apply qm_modify; intros z; repeat split; reflexivity.
Lemma qm_emit b s : qm (emit b) s. Proof. qmod. Qed.
Lemma qm_emit_word b s : qm (emit_word b) s. Proof. apply qm_bind; intros; apply qm_emit. Qed.
Lemma qm_emit_list l : forall s, qm (emit_list l) s.
Proof. induction l as [|b l IH]; intros s; [apply qm_ret|]. apply qm_bind; [apply qm_emit|intros; apply IH]. Qed.
Lemma qm_add_list d b s : qm (add_list d b) s. Proof. qmod. Qed.
Lemma qm_list_groups k : forall pc v pr pad s, qm (list_groups k pc v pr pad) s.
Proof.
  induction k as [|k IH]; intros pc v pr pad s; cbn [list_groups]; [apply qm_ret|].
  destruct v as [|a [|b [|c v]]]; try apply qm_add_list.
  - destruct pad; [destruct pr as [[]|]; [apply qm_add_list|apply qm_ret]|apply qm_ret].
  - apply qm_bind; [apply qm_add_list|intros; apply IH].
Qed.
Lemma qm_write_header s : qm write_header s.
Proof.
  unfold write_header. apply qm_bind; [qmod|]. intros. apply qm_bind; [apply qm_gets|]. intros. apply qm_bind; [apply qm_when; qmod|].
  intros. apply qm_bind; [apply qm_gets|]. intros. apply qm_when. apply qm_bind; [apply qm_gets|]. intros. apply qm_bind; [apply qm_emit_word|]. intros. qmod.
Qed.
Definition itied (s : state) (q : nat) (i : item) : Prop :=
  match i with IExpr e => tied s q e | IStr raw => exists t, text_of raw = Some t /\ nth_error (s_nodes s) q = Some (mkNode (KStr t) []) end.
Lemma itied_qt s s' q i : qt s s' -> itied s q i -> itied s' q i.
Proof.
  intros Q. destruct i as [e|raw]; cbn [itied]; [apply tied_qt, Q|]. intros (t & E & N). exists t. split; [exact E|].
  destruct (q_node _ _ Q _ _ N) as (x & H1 & X). inversion X; subst. exact H1.
Qed.
Lemma itied_irep s q i : tab s -> s_scope s = None -> itied s q i -> irep (meaning s) true s q i.
Proof. intros T Sc. destruct i as [e|raw]; cbn [itied irep]; [apply tied_rep; auto|auto]. Qed.
Definition iheight (i : item) : nat := match i with IExpr e => height e | IStr _ => 1 end.
Lemma itied_node s q i : itied s q i -> exists x, nth_error (s_nodes s) q = Some x /\ n_kind x <> KOpr OExprList /\
  match i with IExpr e => is_kind_con_id_lab_opr (n_kind x) = true /\ (forall r, In r (n_ops x) -> exists e', tied s r e' /\ (height e' < height e)%nat)
  | IStr _ => n_ops x = [] /\ exists t, n_kind x = KStr t end.
Proof.
  destruct i as [e|raw]; cbn [itied].
  - intros T. destruct (tied_kind _ _ _ T) as (x & N & A & B & C). exists x. auto.
  - intros (t & _ & N). eexists. split; [exact N|]. split; [discriminate|]. split; [reflexivity|]. eexists; reflexivity.
Qed.
Lemma calm_tabs s : calm s -> tab s /\ s_scope s = None. Proof. intros (A & B & _). auto. Qed.
Lemma qm_write_string str s : qm (write_string_node str) s.
Proof. unfold write_string_node. apply qm_bind; [apply qm_emit_list|]. intros. apply qm_bind; [apply qm_gets|]. intros. apply qm_when, qm_emit. Qed.
Lemma qm_write_data F e q s : (height e <= F)%nat -> calm s -> tied s q e -> qm (write_data_node (expand F) q) s.
Proof.
  intros HF Cm T. unfold write_data_node. apply qm_bind; [eapply qm_eval; eauto|]. intros. apply qm_bind; [apply qm_gets|]. intros.
  repeat match goal with |- qm (if ?b then _ else _) _ => destruct b end; first [apply qm_err|apply qm_emit|apply qm_emit_word].
Qed.
Lemma qm_list_and_output F i q s : (iheight i <= F)%nat -> calm s -> itied s q i -> qm (list_and_output (expand F) q) s.
Proof.
  intros HF Cm R. destruct (itied_node _ _ _ R) as (x & N & Kx & Sh). unfold list_and_output. apply qm_bind.
  - unfold generate_list_node. apply qm_bind; [apply qm_node_get|]. intros x0 s0 E0 _. apply node_get_inv in E0. destruct E0 as [-> E0].
    rewrite N in E0. injection E0 as <-. apply qm_bind; [apply qm_gets|]. intros pc s0 E0 _. apply gets_inv in E0. destruct E0 as [-> _].
    destruct i as [e|raw]; cbn [iheight] in HF.
    + destruct Sh as [Kk _].
      assert (X : qm (op <- expand F q ;; d <- gets s_dsz ;;
        (if negb ((if (op <? 0) && (d =? 1) then 0 else Z.land op 65280 / 256) =? 0) && (d <? 2) then modify (fun s => set_soft (1 :: s_soft s) s)
         else add_list false (LData (Z.land pc 65535) (if 1 <? d then [Z.land op 255; (if (op <? 0) && (d =? 1) then 0 else Z.land op 65280 / 256)] else [Z.land op 255])))) s).
      { apply qm_bind; [eapply qm_eval; eauto|]. intros. apply qm_bind; [apply qm_gets|]. intros. destruct (_ && _); [qmod|apply qm_add_list]. }
      destruct (n_kind x); try discriminate Kk; exact X.
    + destruct Sh as (_ & t & ->). apply qm_bind; [apply qm_gets|]. intros. apply qm_list_groups.
  - intros a s1 _ Q1. apply qm_bind; [|intros; apply qm_ret]. unfold generate_output.
    apply qm_bind; [apply qm_gets|]. intros o s0 E0 _. apply gets_inv in E0. destruct E0 as [-> _].
    apply qm_bind; [apply qm_gets|]. intros os s0 E0 _. apply gets_inv in E0. destruct E0 as [-> _].
    destruct (_ || _); [apply qm_ret|].
    apply qm_bind; [apply qm_gets|]. intros st s0 E0 _. apply gets_inv in E0. destruct E0 as [-> _].
    apply qm_bind; [apply qm_when, qm_write_header|]. intros u s2 _ Q2.
    apply qm_bind; [apply qm_gets|]. intros d s0 E0 _. apply gets_inv in E0. destruct E0 as [-> _].
    destruct (0 <? d); [apply qm_bind; [apply qm_err|intros; exact I]|].
    apply qm_bind; [apply qm_node_get|]. intros x0 s0 E0 _. apply node_get_inv in E0. destruct E0 as [-> E0].
    pose proof (qe_trans _ _ _ Q1 Q2) as [Q _]. pose proof (itied_qt _ _ _ _ Q R) as R'. destruct (itied_node _ _ _ R') as (x' & N' & _ & Sh').
    rewrite N' in E0. injection E0 as <-. apply qm_bind; [|intros; apply qm_bind; [apply qm_gets|intros; apply qm_ret]].
    destruct i as [e|raw]; cbn [iheight itied] in *.
    + assert (X : qm (write_data_node (expand F) q) s2) by (eapply qm_write_data; eauto using calm_qt).
      destruct Sh' as [Kk _]. destruct (n_kind x'); try discriminate Kk; exact X.
    + destruct Sh' as (_ & t & ->). apply qm_write_string.
Qed.
Lemma qm_is_uninit p s : qm (is_uninit p) s.
Proof.
  unfold is_uninit. apply qm_bind; [apply qm_node_get|]. intros x s' _ _.
  assert (X : forall o : option nat, qm (match o with None => ret true | Some a => y <- sym_get a ;; ret (if y_mparam y || y_mname y then false else negb (y_init y)) end) s').
  { intros [a|]; [apply qm_bind; [apply qm_sym_get|intros; apply qm_ret]|apply qm_ret]. }
  destruct (n_kind x); try apply qm_ret; apply X.
Qed.
Lemma qm_has_uninit f : forall p s, qm (has_uninit f p) s.
Proof.
  induction f as [|f IH]; intros p s; cbn [has_uninit]; [exact I|]. apply qm_bind; [apply qm_node_get|]. intros x s' _ _.
  generalize (n_ops x) as l. clear x. intros l. revert s'. induction l as [|q l IHl]; intros s'; [apply qm_ret|].
  apply qm_bind; [apply IH|]. intros b s1 _ _. destruct b; [apply qm_ret|]. apply qm_bind; [apply qm_is_uninit|]. intros c s2 _ _. destruct c; [apply qm_ret|apply IHl].
Qed.
Lemma qm_expand_all F l : forall s, (forall q, In q l -> exists e, tied s q e /\ (height e <= F)%nat) -> calm s -> forall v, qm (expand_all (expand F) l v) s.
Proof.
  induction l as [|q l IH]; intros s H Cm v; cbn [expand_all]; [apply qm_ret|]. destruct (H q (or_introl eq_refl)) as (e & T & He).
  apply qm_bind; [eapply qm_eval; eauto|]. intros a s1 _ Q. apply IH; [|exact (calm_qt _ _ (proj1 Q) Cm)]. intros r Hr. destruct (H r (or_intror Hr)) as (e' & T' & H'). destruct Q as [Q _]. eauto using tied_qt.
Qed.
Lemma qm_elem F i q s x : (iheight i <= F)%nat -> calm s -> itied s q i -> nth_error (s_nodes s) q = Some x -> qm (elem_bytes (expand F) q x) s.
Proof.
  intros HF Cm R N. unfold elem_bytes. apply qm_bind.
  { unfold has_uninitialized. apply qm_bind; [apply qm_gets|]. intros. apply qm_has_uninit. }
  intros hu s1 _ Q1. apply qm_bind; [apply qm_gets|]. intros f s0 E0 _. apply gets_inv in E0. destruct E0 as [-> _].
  destruct (_ && _); [apply qm_bind; [apply qm_err|intros; apply qm_ret]|].
  apply qm_bind; [apply qm_when; apply (qm_list_and_output F i); [exact HF|exact (calm_qt _ _ (proj1 Q1) Cm)|exact (itied_qt _ _ _ _ (proj1 Q1) R)]|].
  intros. apply qm_bind; [apply qm_gets|]. intros. apply qm_bind; [|intros; apply qm_ret]. destruct (n_kind x); qmod.
Qed.
Lemma qm_elem_strings F i q s x : (iheight i <= F)%nat -> calm s -> itied s q i -> nth_error (s_nodes s) q = Some x -> qm (elem_strings (expand F) q x) s.
Proof.
  intros HF Cm R N. unfold elem_strings. destruct (negb _) eqn:Kn; [apply qm_bind; [apply qm_err|intros; apply qm_ret]|].
  apply qm_bind; [apply qm_gets|]. intros f s0 E0 _. apply gets_inv in E0. destruct E0 as [-> _].
  apply qm_bind; [apply qm_when, (qm_list_and_output F i); auto|]. intros u s1 _ [Q1 _]. apply qm_bind; [|intros; apply qm_ret].
  destruct i as [e|raw]; cbn [iheight itied] in *.
  - destruct (tied_kind _ _ _ R) as (x' & N' & Kk & _). assert (x' = x) by congruence. subst x'.
    assert (X : qm (op <- expand F q ;; modify (fun s => set_pc (s_pc s + (if Z.land op 65280 / 256 =? 0 then 1 else 2)) s)) s1).
    { apply qm_bind; [eapply qm_eval; eauto using calm_qt, tied_qt|]. intros; qmod. }
    destruct (n_kind x); try discriminate Kk; exact X.
  - destruct R as (t & _ & N'). assert (x = mkNode (KStr t) []) by congruence. subst x. cbn [n_kind]. qmod.
Qed.
Inductive ltied (s : state) : nat -> list item -> Prop :=
| LtOne p q i : nth_error (s_nodes s) p = Some (mkNode (KOpr OExprList) [q]) -> itied s q i -> ltied s p [i]
| LtMore p a q l i : nth_error (s_nodes s) p = Some (mkNode (KOpr OExprList) [a; q]) -> ltied s a l -> itied s q i -> ltied s p (l ++ [i]).
Lemma ltied_qt s s' p l : qt s s' -> ltied s p l -> ltied s' p l.
Proof.
  intros Q R. induction R as [p q i N I|p a q l i N R IH I].
  - eapply LtOne; [eapply node_opr; eauto|eapply itied_qt; eauto].
  - eapply LtMore; [eapply node_opr; eauto|exact IH|eapply itied_qt; eauto].
Qed.
Lemma ltied_lrep s p l : tab s -> s_scope s = None -> ltied s p l -> lrep (meaning s) s p l.
Proof.
  intros T Sc R. induction R as [p q i N I|p a q l i N R IH I].
  - eapply LrepOne; eauto using itied_irep.
  - eapply LrepMore; eauto using itied_irep.
Qed.
Lemma iheight_le i : (iheight i <= item_height i)%nat.
Proof. destruct i; cbn; lia. Qed.
Lemma qm_item F i q s sp : (iheight i <= F)%nat -> calm s -> itied s q i -> s_ety s = EtBytes \/ s_ety s = EtStrings -> qm (expr_list (expand F) [q] sp) s.
Proof.
  intros HF Cm R Et. destruct (itied_node _ _ _ R) as (x & N & Kx & Sh). unfold qm. rewrite (step_one _ _ _ _ _ _ N Kx).
  match goal with |- match ?m s with Ok _ s' => _ | _ => _ end => change (qm m s) end. apply qm_bind.
  - apply (qm_expand_all F); [|exact Cm]. destruct i as [e|raw]; cbn [iheight] in HF.
    + intros r Hr. destruct (proj2 Sh r Hr) as (e' & T' & H'). exists e'. split; [exact T'|lia].
    + rewrite (proj1 Sh). intros r [].
  - intros v s1 E1 [Q1 Q2]. apply qm_bind; [apply qm_gets|]. intros et s0 E0 _. apply gets_inv in E0. destruct E0 as [-> ->].
    apply qm_bind; [apply qm_node_get|]. intros x1 s0 E0 _. apply node_get_inv in E0. destruct E0 as [-> N1]. rewrite Q2.
    apply qm_bind.
    + destruct Et as [->| ->]; apply qm_bind; try (intros; apply qm_ret); [apply (qm_elem F i)|apply (qm_elem_strings F i)]; eauto using calm_qt, itied_qt.
    + intros [go sp'] s2 _ _. destruct go; apply qm_ret.
Qed.
Lemma qm_list l p : forall F s, ltied s p l -> (list_fuel l <= F)%nat -> calm s -> s_ety s = EtBytes \/ s_ety s = EtStrings -> qm (expand F p) s.
Proof.
  intros F s R. revert F. induction R as [p q i N I|p a q l i N R IH I]; intros F HF Cm Et.
  - destruct F as [|F]; [unfold list_fuel in HF; cbn in HF; lia|]. unfold qm. rewrite (expand_list F s p _ (proj2 (proj2 Cm)) N).
    apply (qm_item F i q s None); auto. unfold list_fuel in HF. cbn in HF. pose proof (iheight_le i). lia.
  - destruct (list_fuel_snoc l i) as [L1 L2]. destruct F as [|F]; [lia|]. unfold qm. rewrite (expand_list F s p _ (proj2 (proj2 Cm)) N).
    assert (exists x, nth_error (s_nodes s) a = Some (mkNode (KOpr OExprList) x)) as (x & Nx) by (inversion R; subst; eauto).
    rewrite (expr_list_sub _ _ _ _ _ _ Nx). apply (qm_bind (expand F a) _ s); [apply IH; auto; lia|].
    intros v s1 _ [Q1 Q2]. apply (qm_item F i); [pose proof (iheight_le i); lia|exact (calm_qt _ _ Q1 Cm)|exact (itied_qt _ _ _ _ Q1 I)|rewrite Q2; exact Et].
Qed.
