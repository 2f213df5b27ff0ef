(** Statements of the fragment: building them and running them. *)
From Coq Require Import String Lia.
From Verif Require Import Base BaseProofs Hash Dict DictProofs DictMore Str Opcodes OpcodesProofs Err State Sym Machine Build Pass
  GenX Gen Inv SymProofs Sem ListRel ExprProofs ExprMore OpProofs OpMore InstrProofs InstrMore DataProofs DataMore DefProofs BadProofs DataWalk OpWalk
  Layout LineProofs.
Open Scope string_scope.
Open Scope list_scope.
Open Scope Z_scope.
Open Scope m_scope.

(** ** States between lines *)
Record good (s : state) : Prop := mkGood {
  g_tab : tab s;
  g_scope : s_scope s = None;
  g_stop : s_stop s = false;
  g_own : owned s;
  g_clean : forall n, plain n -> clean (meaning s n);
  g_raw : forall n, plain n -> cinit (meaning s n) = false -> craw (meaning s n) = 0;
  g_acc : forall k, valids k -> never k -> dl s k = None;
  g_pm : forall n y, plain n -> dl s n = Some y -> y_pm y = false
}.
Lemma kept_pm s s' n y : kept s s' -> (forall y, dl s n = Some y -> y_pm y = false) -> valids n -> dl s' n = Some y -> y_pm y = false.
Proof.
  intros K H V E. destruct (dl s n) as [y0|] eqn:E0; [|apply (k_new _ _ K n y); auto].
  pose proof (k_pm _ _ K n V ltac:(congruence)) as X. rewrite E, E0 in X. cbn in X. rewrite (H y0 eq_refl) in X. congruence.
Qed.
Lemma good_hv0 s s' : hv0 s s' -> s_stop s' = s_stop s -> good s -> good s'.
Proof.
  intros V St G. constructor.
  - apply (h_tab _ _ V).
  - rewrite (h_scope _ _ V). apply G.
  - rewrite St. apply G.
  - apply (k_own _ _ (h_keep _ _ V)), G.
  - intros n P. rewrite (h_res _ _ V) by auto. apply G; auto.
  - intros n P. rewrite (h_res _ _ V) by auto. apply G; auto.
  - intros k Vk Ek. apply (k_acc _ _ (h_keep _ _ V)); auto. apply G; auto.
  - intros n y P. apply (kept_pm s); [apply V|intros; eapply G; eauto|apply P].
Qed.
Lemma good_hv s s' : hv s s' -> s_stop s' = s_stop s -> good s -> good s'.
Proof. intros V. apply good_hv0, V. Qed.
Lemma plain_own_or l n : plain n -> fk n = fk l \/ fk n <> fk l.
Proof. intros _. destruct (list_eq_dec Z.eq_dec (fk n) (fk l)); auto. Qed.
Lemma good_dfn l v s s' : dfn l (dcore v) s s' -> s_stop s' = s_stop s -> good s -> good s'.
Proof.
  intros D St G. constructor.
  - apply (d_tab _ _ _ _ D).
  - rewrite (d_scope _ _ _ _ D). apply G.
  - rewrite St. apply G.
  - apply (k_own _ _ (d_keep _ _ _ _ D)), G.
  - intros n P. destruct (plain_own_or l n P) as [E|E].
    + rewrite (d_here _ _ _ _ D) by auto. exists v, true. reflexivity.
    + rewrite (d_other _ _ _ _ D) by auto. apply G; auto.
  - intros n P. destruct (plain_own_or l n P) as [E|E].
    + rewrite (d_here _ _ _ _ D) by auto. discriminate.
    + rewrite (d_other _ _ _ _ D) by auto. apply G; auto.
  - intros k Vk Ek. apply (k_acc _ _ (d_keep _ _ _ _ D)); auto. apply G; auto.
  - intros n y P. apply (kept_pm s); [apply D|intros; eapply G; eauto|apply P].
Qed.
Lemma bump_same b s : s_stop (bump b s) = s_stop s /\ s_pc (bump b s) = s_pc s /\ s_errs (bump b s) = s_errs s /\
  s_org_spec (bump b s) = s_org_spec s /\ s_changed (bump b s) = s_changed s + (if b then 1 else 0) /\
  s_out (bump b s) = s_out s /\ s_total (bump b s) = s_total s /\ s_final (bump b s) = s_final s.
Proof. destruct b; cbn; repeat split; lia. Qed.
Lemma fk_meaning s n m : s_scope s = None -> fk n = fk m -> plain n -> plain m -> tab s -> meaning s n = meaning s m.
Proof.
  intros Sc E P Q T. unfold meaning. rewrite Sc. unfold resolve. f_equal. unfold dl, dlookup. cbn [fst snd].
  replace (dict_search (s_dict s) n) with (dict_search (s_dict s) m); auto.
  destruct T as [[[T0 T1] T2] _]. rewrite (dict_search_stack _ _ _ T0 (proj1 P)), (dict_search_stack _ _ _ T0 (proj1 Q)).
  unfold stackof. do 2 f_equal. apply filter_ext. intros x. unfold matches. rewrite E. reflexivity.
Qed.
(** what a definition leaves *)
Lemma defines_ok n v s s' : defines n v s s' -> good s -> plain n ->
  good s' /\ kept s s' /\ (forall m, plain m -> fk m <> fk n -> meaning s' m = meaning s m) /\
  (forall m, plain m -> fk m = fk n -> meaning s' m = dcore v) /\
  (obs s' = bump (negb (craw (meaning s n) =? v)) (obs s)) /\
  (meaning s n = dcore v -> hv s s') /\ lk s s' /\ s_list s' = s_list s.
Proof.
  intros (s1 & V & O & K & Ql & C) G P. pose proof (good_hv _ _ V (obs_stop _ _ O) G) as G1.
  destruct C as [(Me & ->)|(Me & D & O2)].
  - split; [exact G1|]. split; [apply V|]. split; [intros m Pm _; apply (h_res _ _ V); auto|]. split; [|split; [|split; [intros _; exact V|split; [apply V|exact Ql]]]].
    + intros m Pm Em. rewrite (h_res _ _ V) by auto. rewrite <- Me. apply fk_meaning; auto; apply G.
    + rewrite O, Me. cbn [craw dcore]. rewrite Z.eqb_refl. reflexivity.
  - assert (St : s_stop s' = s_stop s1).
    { rewrite <- (obs_get_stop s'), O2, (proj1 (bump_same _ _)). rewrite <- O. apply obs_get_stop. }
    split; [eapply good_dfn; eauto|]. split; [eapply kept_trans; [apply V|apply D]|]. split; [|split; [|split; [exact O2|split; [tauto|split]]]].
    + intros m Pm Em. rewrite (d_other _ _ _ _ D) by auto. apply (h_res _ _ V); auto.
    + intros m Pm Em. apply (d_here _ _ _ _ D); auto.
    + eapply lk_trans; [apply V|apply lk_same; [exact (d_view _ _ _ _ D)|]].
      rewrite <- (obs_get_pc s'), O2, (proj1 (proj2 (bump_same _ _))). rewrite <- O. apply obs_get_pc.
    + rewrite <- Ql. pose proof (d_view _ _ _ _ D) as E. unfold lview in E. congruence.
Qed.

(** ** The fragment *)
Definition okexpr (F : nat) (e : expr) : Prop :=
  wfe e = true /\ eager e = true /\ (forall n, In n (names e) -> plain n) /\ (height e <= F)%nat.
Definition okitem (F : nat) (i : item) : Prop :=
  match i with IExpr e => okexpr F e | IStr raw => text_of raw <> None end.
Definition okform (c02 ill : bool) (F : nat) (instr : Z) (f : opform) : Prop :=
  match form f with
  | inl _ => get_op_code c02 ill instr m_r = -1 /\ forall n, f = FAbs (ESym n) -> valids n
  | inr (_, e) => okexpr F e
  end.
Definition okstmt (c02 ill : bool) (F : nat) (st : stmt) : Prop :=
  match st with
  | SEmpty => True
  | SOp instr f => okform c02 ill F instr f
  | SData size l => In size [1; 2] /\ l <> [] /\ (forall i, In i l -> okitem F i) /\ (list_fuel l <= F)%nat
  | _ => False
  end.
Definition form_names (f : opform) : list cstr := match form f with inl _ => [] | inr (_, e) => names e end.
(** the names of a statement *)
Definition stmt_names (st : stmt) : list cstr :=
  match st with
  | SOp _ f => form_names f
  | SData _ l => flat_map item_names l
  | SAssign _ e | SOrg e | SPcAssign e => names e
  | _ => []
  end.
(** the names the analysis needs: all but a name alone as a data item *)
Definition need_names (st : stmt) : list cstr :=
  match st with
  | SOp _ f => form_names f
  | SData _ l => lnames l
  | SAssign _ e | SOrg e | SPcAssign e => names e
  | _ => []
  end.

Lemma form_inr f m e : form f = inr (m, e) -> form_mode f = Some (m, e).
Proof. destruct f as [|e0|e0|e0|e0|e0|e0|e0]; cbn; intros H; try discriminate H; try (injection H as <- <-; reflexivity).
  destruct e0 as [v|n| |o e1|o e1 e2]; try (injection H as <- <-; reflexivity). destruct (is_A n); [discriminate H|]. injection H as <- <-. reflexivity.
Qed.
Lemma form_inl f k : form f = inl k -> f = FImp /\ k = m_i \/ exists n, f = FAbs (ESym n) /\ is_A n = true /\ k = m_A.
Proof.
  destruct f as [|e0|e0|e0|e0|e0|e0|e0]; cbn; intros H; try discriminate H; [injection H as <-; auto|].
  destruct e0 as [v|n| |o e1|o e1 e2]; try discriminate H. destruct (is_A n) eqn:A; [|discriminate H]. injection H as <-. right. eauto.
Qed.

(** ** Built statements.  [Cb], [pcb]: the names and the program counter when the statement was built; [C]: the
    names its tree refers to now *)
Definition built (Cb : cstr -> core_t) (pcb : Z) (C : cstr -> core_t) (s : state) (p : nat) (st : stmt) : Prop :=
  match st with
  | SEmpty => nth_error (s_nodes s) p = Some (mkNode (KOpr OStatement) [])
  | SOp instr f =>
      match form f with
      | inl k => nth_error (s_nodes s) p = Some (mkNode (KOp instr (ops_of s instr k) k 0) []) /\ 0 <= ops_of s instr k
      | inr (m, e) =>
          usable (has_mode s instr) m = true /\ exists v q, known Cb pcb e v /\ rep C false s q e /\
          nth_error (s_nodes s) p = Some (mkNode (KOp instr (snd (build_mode (ops_of s instr) m v (unknown_name Cb e)))
                                                        (fst (build_mode (ops_of s instr) m v (unknown_name Cb e))) 0) [q])
      end
  | SData size l => exists q, nth_error (s_nodes s) p = Some (mkNode (KData size q) []) /\ lrep C s q l
  | _ => False
  end.

Lemma clean_macro c : clean c -> cmacro c = false.
Proof. intros (v & i & ->). reflexivity. Qed.
Lemma good_plain s e : good s -> (forall n, In n (names e) -> plain n) -> plain_expr s e.
Proof. intros G H n Hn. split; auto. apply clean_macro, G; auto. Qed.
Lemma plain_not_A e : (forall n, In n (names e) -> plain n) -> not_A e.
Proof. destruct e as [v|n| |o e1|o e1 e2]; cbn; auto. intros H. apply (H n); auto. Qed.
Lemma okitem_plain s F i : good s -> okitem F i -> item_plain s i.
Proof. destruct i as [e|raw]; cbn; auto. intros G (W & _ & P & _). split; auto. apply good_plain; auto. Qed.
Lemma fk_is_A n : valids n -> is_A n = true -> fk n = fk (cs "A").
Proof. intros V H. apply Z.eqb_eq in H. apply stricmp_0_iff in H; auto. repeat constructor; unfold validc; cbn; lia. Qed.

Lemma obs_c02 s s' : obs s' = obs s -> s_c02 s' = s_c02 s.
Proof. intros H. rewrite <- (obs_get_c02 s'), H. apply obs_get_c02. Qed.
Lemma obs_ill s s' : obs s' = obs s -> s_ill s' = s_ill s.
Proof. intros H. rewrite <- (obs_get_ill s'), H. apply obs_get_ill. Qed.
Lemma ops_fr s s' i : s_c02 s' = s_c02 s -> s_ill s' = s_ill s -> ops_of s' i = ops_of s i.
Proof. unfold ops_of. intros -> ->. reflexivity. Qed.

Lemma build_acc instr n F s : tab s -> s_stop s = false -> valids n -> is_A n = true -> resolve s (s_scope s) n = None ->
  get_op_code (s_c02 s) (s_ill s) instr m_r = -1 -> (1 <= F)%nat ->
  exists p s1, build_op (expand F) instr (FAbs (ESym n)) s = Ok (Some p) s1 /\ hv s s1 /\
    obs s1 = (if ops_of s instr m_A <? 0 then set_errs (s_errs s + 1) (obs s) else obs s) /\
    nth_error (s_nodes s1) p = Some (mkNode (KOp instr (ops_of s instr m_A) m_A 0) []).
Proof.
  intros T St Vn IA Rn B HF.
  assert (E0 : build_expr (ESym n) s = Ok (Some (length (s_nodes s))) (set_nodes (s_nodes s ++ [mkNode (KId n None) []]) s)).
  { destruct (is_A_head _ IA) as (Hp & _ & Hb). cbn [build_expr]. unfold bindo, bind, need_sym, tok_sym. rewrite Hp, Hb.
    unfold bind, look_up_symbol, gets. unfold bind.
    destruct (look_up_in_spec (s_scope s) n s) as (r & s' & E & X); [apply T|exact Vn|apply T|]. rewrite E.
    destruct r as [a|]; [destruct X as (y & _ & X & _); congruence|]. destruct X as [_ ->].
    unfold ret, some, bind, id_node. rewrite alloc_eq. reflexivity. }
  set (q := length (s_nodes s)) in *. set (s0 := set_nodes (s_nodes s ++ [mkNode (KId n None) []]) s) in *.
  assert (H0 : hv s s0) by (apply hv_alloc; [reflexivity|exact T]).
  assert (O0 : obs s0 = obs s) by apply obs_set_nodes.
  destruct (opcode_node_acc n F s0 q instr HF (h_tab _ _ H0) St (alloc_nth _ _ _) IA B) as (p & s1 & E1 & H1 & O1 & N1).
  change (get_op_code (s_c02 s0) (s_ill s0) instr m_A) with (ops_of s instr m_A) in *.
  exists p, s1. unfold build_op, bindo, bind at 1. rewrite E0. unfold some, bind. rewrite E1. split; [reflexivity|].
  split; [eapply hv_trans; eauto|]. split; [|exact N1]. rewrite O1, O0. reflexivity.
Qed.
Lemma build_ok F first st s : good s -> okstmt (s_c02 s) (s_ill s) F st -> (1 <= F)%nat ->
  bad s (build_stmt (expand F) first st s) \/
  exists p s1, build_stmt (expand F) first st s = Ok (Some p) s1 /\ hv s s1 /\ obs s1 = obs s /\
    built (meaning s) (s_pc s) (meaning s) s1 p st.
Proof.
  intros G Ok1 HF. destruct st; cbn [okstmt] in Ok1; try contradiction; cbn [build_stmt built].
  - right. unfold some, bind. rewrite alloc_eq. do 2 eexists. split; [reflexivity|].
    split; [apply hv_alloc; [reflexivity|apply G]|]. split; [apply obs_set_nodes|apply alloc_nth].
  - unfold okform in Ok1. destruct (form f) as [k|[m e]] eqn:Ef.
    + destruct Ok1 as [Nr Va]. destruct (form_inl _ _ Ef) as [(-> & ->)|(n & -> & A & ->)].
      * cbn [build_op]. unfold some, bind.
        destruct (opcode_node_implied instr s (expand F) (g_tab _ G) Nr) as (p & s1 & E & V & O & N).
        rewrite E. destruct (get_op_code (s_c02 s) (s_ill s) instr m_i <? 0) eqn:Lt.
        -- left. cbn. rewrite <- (obs_get_errs s1), O. cbn. lia.
        -- right. exists p, s1. split; [reflexivity|]. split; [exact V|]. split; [exact O|].
           rewrite (ops_fr s s1) by (eauto using obs_c02, obs_ill). split; [exact N|]. apply Z.ltb_ge in Lt. exact Lt.
      * assert (Rn : resolve s (s_scope s) n = None).
        { rewrite (g_scope _ G). unfold resolve. apply (g_acc _ G); [apply (Va n eq_refl)|left; apply fk_is_A; auto]. }
        destruct (build_acc instr n F s (g_tab _ G) (g_stop _ G) (Va n eq_refl) A Rn Nr HF) as (p & s1 & E & V & O & N).
        rewrite E. destruct (ops_of s instr m_A <? 0) eqn:Lt.
        -- left. cbn. rewrite <- (obs_get_errs s1), O. cbn. rewrite ?obs_get_errs. lia.
        -- right. exists p, s1. split; [reflexivity|]. split; [exact V|]. split; [exact O|].
           rewrite (ops_fr s s1) by (eauto using obs_c02, obs_ill). split; [exact N|]. apply Z.ltb_ge in Lt. exact Lt.
    + destruct Ok1 as (W & Ea & Pn & Hh).
      destruct (op_build_w instr f m e F s (form_inr _ _ _ Ef) (g_tab _ G) (g_stop _ G) W (good_plain _ _ G Pn) (plain_not_A _ Pn) Ea Hh)
        as [B|(U & v & p & q & s1 & K & E & V & O & Rp & N)]; [left; exact B|right].
      exists p, s1. split; [exact E|]. split; [exact V|]. split; [exact O|].
      unfold has_mode. rewrite (ops_fr s s1) by (eauto using obs_c02, obs_ill). split; [exact U|]. exists v, q. auto.
  - destruct Ok1 as (Sz & Ne & It & Fu). right.
    destruct (build_data_ok (expand F) first size l s (g_tab _ G) Ne) as (p & q & s1 & E & V & O & N & L).
    { intros i Hi. eapply okitem_plain; eauto. }
    exists p, s1. split; [exact E|]. split; [exact V|]. split; [exact O|]. eauto.
Qed.

(** ** Built statements after other changes *)
Lemma built_hv Cb pcb C s s' p st : hv s s' -> ops_kept s s' -> s_c02 s' = s_c02 s -> s_ill s' = s_ill s ->
  built Cb pcb C s p st -> built Cb pcb C s' p st.
Proof.
  intros [V _] K E1 E2. destruct st; cbn [built]; auto.
  - apply opr_hv; auto.
  - rewrite (ops_fr s s' instr E1 E2). destruct (form f) as [k|[m e]].
    + intros [N H]. split; auto.
    + unfold has_mode. rewrite (ops_fr s s' instr E1 E2). intros (U & v & q & Kn & Rp & N). split; auto. exists v, q.
      split; auto. split; [eapply rep_hv; eauto|]. apply K; auto.
  - intros (q & N & L). exists q. split; [eapply data_hv; eauto|eapply lrep_hv; eauto].
Qed.
Definition agree (l : cstr) (c' : core_t) (ns : list cstr) (C C' : cstr -> core_t) : Prop :=
  (forall n, In n ns -> fk n <> fk l -> C' n = C n) /\ (forall n, In n ns -> fk n = fk l -> C' n = c').
Lemma rep_dfn l c C u s s' p e : dfn l c s s' -> owned s -> s_scope s = None -> plain l ->
  (forall n, In n (names e) -> plain n) -> (owns l (names e) <= 1)%nat -> rep C u s p e ->
  exists c', forall C', agree l c' (names e) C C' -> rep C' u s' p e.
Proof.
  intros D O Sc P Pn Ow Rp. destruct (rep_dfn1 _ _ _ _ _ _ _ _ D O Sc P Pn Ow Rp) as (c' & H). exists c'. intros C' [A1 A2]. auto.
Qed.
Lemma irep_dfn l c C u s s' p i : dfn l c s s' -> owned s -> s_scope s = None -> plain l ->
  (forall n, In n (item_names i) -> plain n) -> (owns l (item_names i) <= 1)%nat -> irep C u s p i ->
  exists c', forall C', agree l c' (item_names i) C C' -> irep C' u s' p i.
Proof.
  intros D O Sc P Pn Ow. destruct i as [e|raw]; cbn [irep item_names] in *; [apply (rep_dfn l c); auto|].
  intros (t & Et & N). exists c. intros C' _. exists t. rewrite (d_nodes _ _ _ _ D). auto.
Qed.
Lemma irep_dfn0 l c C u s s' p i : dfn l c s s' -> owned s -> s_scope s = None -> plain l ->
  (forall n, In n (item_names i) -> plain n) -> owns l (item_names i) = 0%nat -> irep C u s p i ->
  forall C' c', agree l c' (item_names i) C C' -> irep C' u s' p i.
Proof.
  intros D O Sc P Pn Ow. destruct i as [e|raw]; cbn [irep item_names] in *.
  - intros Rp C' c' [A1 A2]. eapply rep_dfn0; eauto. intros n Hn. pose proof (owns_0 _ _ Ow n Hn). auto.
  - intros (t & Et & N) C' c' _. exists t. rewrite (d_nodes _ _ _ _ D). auto.
Qed.
Lemma agree_app l c' a b C C' : agree l c' (a ++ b) C C' -> agree l c' a C C' /\ agree l c' b C C'.
Proof. intros [A1 A2]. split; split; intros n Hn; (apply A1 || apply A2); apply in_or_app; auto. Qed.
Lemma lrep_dfn0 l c C s s' p k : dfn l c s s' -> owned s -> s_scope s = None -> plain l -> lrep C s p k ->
  (forall n, In n (flat_map item_names k) -> plain n) -> owns l (flat_map item_names k) = 0%nat ->
  forall C' c', agree l c' (flat_map item_names k) C C' -> lrep C' s' p k.
Proof.
  intros D O Sc P L. induction L as [p q i N I|p a q k i N L IH I]; intros Pn Ow C' c' A.
  - cbn [flat_map] in *. rewrite app_nil_r in *. apply LrepOne with (q := q); [rewrite (d_nodes _ _ _ _ D); exact N|].
    eapply irep_dfn0; eauto.
  - rewrite flat_map_app in *. cbn [flat_map] in *. rewrite app_nil_r in *. rewrite owns_app in Ow. destruct (agree_app _ _ _ _ _ _ A) as [A1 A2].
    apply LrepMore with (a := a) (q := q); [rewrite (d_nodes _ _ _ _ D); exact N| |].
    + apply IH with (c' := c'); auto; [|lia]. intros n Hn. apply Pn, in_or_app. auto.
    + eapply irep_dfn0; eauto; [|lia]. intros n Hn. apply Pn, in_or_app. auto.
Qed.
Lemma lrep_dfn l c C s s' p k : dfn l c s s' -> owned s -> s_scope s = None -> plain l -> lrep C s p k ->
  (forall n, In n (flat_map item_names k) -> plain n) -> (owns l (flat_map item_names k) <= 1)%nat ->
  exists c', forall C', agree l c' (flat_map item_names k) C C' -> lrep C' s' p k.
Proof.
  intros D O Sc P L. induction L as [p q i N I|p a q k i N L IH I]; intros Pn Ow.
  - cbn [flat_map] in *. rewrite app_nil_r in *. destruct (irep_dfn l c C true s s' q i D O Sc P Pn Ow I) as (c' & H).
    exists c'. intros C' A. apply LrepOne with (q := q); [rewrite (d_nodes _ _ _ _ D); exact N|auto].
  - rewrite flat_map_app in *. cbn [flat_map] in *. rewrite app_nil_r in *. rewrite owns_app in Ow.
    assert (Pk : forall n, In n (flat_map item_names k) -> plain n) by (intros n Hn; apply Pn, in_or_app; auto).
    assert (Pi : forall n, In n (item_names i) -> plain n) by (intros n Hn; apply Pn, in_or_app; auto).
    destruct (Nat.eq_dec (owns l (flat_map item_names k)) 0) as [Z0|Z0].
    + destruct (irep_dfn l c C true s s' q i D O Sc P Pi ltac:(lia) I) as (c' & H). exists c'. intros C' A.
      destruct (agree_app _ _ _ _ _ _ A) as [A1 A2]. apply LrepMore with (a := a) (q := q); [rewrite (d_nodes _ _ _ _ D); exact N| |auto].
      eapply lrep_dfn0; eauto.
    + destruct (IH Pk ltac:(lia)) as (c' & H). exists c'. intros C' A.
      destruct (agree_app _ _ _ _ _ _ A) as [A1 A2]. apply LrepMore with (a := a) (q := q); [rewrite (d_nodes _ _ _ _ D); exact N|auto|].
      eapply irep_dfn0; eauto; lia.
Qed.
Lemma agree_own l c' ns C : agree l c' ns C (fun n => if own l n then c' else C n).
Proof.
  split; intros n _ E; [apply own_neq in E|apply own_eq in E]; rewrite E; reflexivity.
Qed.
Lemma built_dfn l c Cb pcb C s s' p st : dfn l c s s' -> owned s -> s_scope s = None -> plain l ->
  s_c02 s' = s_c02 s -> s_ill s' = s_ill s -> (forall n, In n (stmt_names st) -> plain n) -> (owns l (stmt_names st) <= 1)%nat ->
  built Cb pcb C s p st -> exists C', built Cb pcb C' s' p st.
Proof.
  intros D O Sc P E1 E2 Pn Ow. destruct st; cbn [built stmt_names] in *; try contradiction; rewrite (d_nodes _ _ _ _ D).
  - exists C. auto.
  - unfold form_names in *. rewrite (ops_fr s s' instr E1 E2). destruct (form f) as [k|[m e]]; [exists C; auto|].
    unfold has_mode. rewrite (ops_fr s s' instr E1 E2). intros (U & v & q & Kn & Rp & N).
    destruct (rep_dfn l c C false s s' q e D O Sc P Pn Ow Rp) as (c' & H).
    eexists. split; [exact U|]. exists v, q. split; [exact Kn|]. split; [apply H, agree_own|exact N].
  - intros (q & N & L). destruct (lrep_dfn l c C s s' q l0 D O Sc P L Pn Ow) as (c' & H).
    eexists. exists q. split; [exact N|]. apply H, agree_own.
Qed.

(** ** Running a built statement *)
(** the effect, as seen in [o] *)
Definition eff (Cb : cstr -> core_t) (pcb : Z) (C : cstr -> core_t) (st : stmt) (s o : state) : Prop :=
  match st with
  | SEmpty => o = obs s
  | SOp instr f =>
      match form f with
      | inl k => o = step_op [ops_of s instr k] false (obs s) /\ 0 <= ops_of s instr k
      | inr (m, e) =>
          usable (has_mode s instr) m = true /\ exists v, known Cb pcb e v /\
          op_sizes C (ops_of s instr) (ops_of s (invert instr)) (fst (build_mode (ops_of s instr) m v (unknown_name Cb e))) e s o
      end
  | SData size l => exists b, o = wout b (isizes size l) (dstart size (obs s)) /\
      (s_final s = true -> items_bytes (fun n => cval (C n)) size (s_pc s) l = Some b /\ Z.of_nat (length b) = isizes size l)
  | _ => False
  end.
(** in the final pass every name that matters has a value *)
Definition stmt_known (C : cstr -> core_t) (st : stmt) : Prop :=
  match st with
  | SOp _ f => match form f with inl _ => True | inr (_, e) => unknown_name C e = false end
  | SData _ l => forallb (fun i => negb (item_unknown C i)) l = true
  | _ => True
  end.
Lemma okstmt_names c02 ill F st : okstmt c02 ill F st -> forall n, In n (stmt_names st) -> plain n.
Proof.
  destruct st; cbn [okstmt stmt_names]; try contradiction.
  - unfold okform, form_names. destruct (form f) as [k|[m e]]; [contradiction|]. intros (_ & _ & P & _). exact P.
  - intros (_ & _ & It & _) n Hn. apply in_flat_map in Hn. destruct Hn as (i & Hi & Hn). specialize (It i Hi).
    destruct i as [e|raw]; cbn in *; [|contradiction]. apply It; auto.
Qed.
Lemma ok_eager F l : (forall i, In i l -> okitem F i) -> forallb item_eager l = true.
Proof. intros H. apply forallb_forall. intros i Hi. specialize (H i Hi). destruct i; cbn in *; auto. apply H. Qed.
Lemma walk_ok Cb pcb C F s p st : good s -> built Cb pcb C s p st -> okstmt (s_c02 s) (s_ill s) F st -> (1 <= F)%nat -> 0 <= s_total s ->
  (s_final s = true -> silent st = true \/ stmt_known C st /\ no_hole s /\ s_opened s = true) ->
  bad s (expand (S F) p s) \/
  exists s', expand (S F) p s = Ok 0 s' /\ hv s s' /\ eff Cb pcb C st s (obs s') /\ entered s' (need_names st).
Proof.
  intros G B Ok1 HF T0 Fin. pose proof (okstmt_names _ _ _ _ Ok1) as Pn. destruct st; cbn [okstmt] in Ok1; try contradiction; cbn [built eff need_names stmt_known] in *.
  - right. rewrite (expand_eq _ _ _ _ (g_stop _ G) B). exists s. split; [reflexivity|]. split; [apply hv_refl, G|].
    split; [reflexivity|]. intros n [].
  - unfold okform in Ok1. unfold form_names in *. cbn [stmt_names] in Pn. unfold form_names in Pn. destruct (form f) as [k|[m e]] eqn:Ef.
    + right. destruct B as [N C0]. rewrite (expand_op _ _ _ _ _ _ _ _ (g_stop _ G) N).
      assert (Hk : 0 <= k < 15 /\ nbytes k = 0).
      { destruct (form_inl _ _ Ef) as [(_ & ->)|(n & _ & _ & ->)]; split; try reflexivity; vm_compute; intuition congruence. }
      destruct Hk as [Hk1 Hk2].
      destruct (x_op_code0 F s p instr (ops_of s instr k) k 0 (g_tab _ G) Hk1 Hk2) as (s' & E & V & O & _).
      { intros Fn. apply no_hole_gap. destruct (Fin Fn) as [X|X]; [discriminate|apply X]. } { exact N. }
      { intros _. pose proof (get_op_code_range (s_c02 s) (s_ill s) instr k). unfold ops_of in *. lia. }
      exists s'. split; [exact E|]. split; [exact V|]. split; [auto|]. intros n [].
    + destruct Ok1 as (W & Ea & _ & Hh). destruct B as (U & v & q & Kn & Rp & N).
      destruct (built_mode (ops_of s instr) m v (unknown_name Cb e) (form_src _ _ _ (form_inr _ _ _ Ef)) (ops_range s instr) U) as (S1 & S2 & S3 & S4).
      destruct (op_walk C e F s p q instr _ _ 0 N Hh HF (g_tab _ G) (g_stop _ G) Rp Ea (plain_not_A _ Pn) S1 S2 S3 S4) as [Bd|(s' & E & V & O)].
      { intros Fn. destruct (Fin Fn) as [X|(A1 & A2 & _)]; [discriminate|auto]. }
      { left. exact Bd. }
      right. exists s'. split; [exact E|]. split; [exact V|]. split; [split; eauto|].
      eapply entered_kept; [apply V|exact Pn|]. eapply entered_rep; eauto; apply G.
  - destruct Ok1 as (Sz & Ne & It & Fu). destruct B as (q & N & L).
    destruct (data_walk C size l F s p q N L (g_tab _ G) (g_stop _ G) Sz (ok_eager _ _ It) Fu (g_scope _ G) (g_own _ G)) as [Bd|(s' & b & E & V & O & En & Fb)]; auto.
    { intros i n Hi Hn. apply Pn. cbn [stmt_names]. apply in_flat_map. eauto. }
    { intros Fn. destruct (Fin Fn) as [X|X]; [discriminate|exact X]. }
    right. exists s'. split; [exact E|]. split; [exact V|]. split; [eauto|exact En].
Qed.
