(** One line of the fragment: its effect. *)
From Coq Require Import String Lia.
From Verif Require Import Base BaseProofs Hash Dict DictProofs DictMore Str Opcodes OpcodesProofs Err State Sym Machine Build Pass
  GenX Gen Inv SymProofs Sem ListRel ExprProofs ExprMore OpProofs OpMore InstrProofs InstrMore DataProofs DataMore DefProofs BadProofs DataWalk OpWalk Colon
  Layout LineProofs LineTwo LineThree LineFour.
Open Scope string_scope.
Open Scope list_scope.
Open Scope Z_scope.
Open Scope m_scope.

(** ** Only the names of a statement matter *)
Section Ext.
Variables (c02 ill : bool) (en en' : cstr -> Z).
Lemma value_ext pc e : (forall n, In n (names e) -> en n = en' n) -> value en pc e = value en' pc e.
Proof. intros H. unfold value. rewrite (sem_ext e en en' pc H). reflexivity. Qed.
Lemma item_value_at_ext pc e : (forall n, In n (names e) -> en n = en' n) -> item_value_at en pc e = item_value_at en' pc e.
Proof. intros H. unfold item_value_at. rewrite (sem_ext e en en' pc H). reflexivity. Qed.
Lemma items_bytes_ext' size l : (forall n, In n (flat_map item_names l) -> en n = en' n) ->
  forall pc, items_bytes en size pc l = items_bytes en' size pc l.
Proof.
  induction l as [|i l IH]; intros H pc; [reflexivity|]. cbn [items_bytes]. cbn [flat_map] in H.
  assert (X : item_size en size pc i = item_size en' size pc i /\ item_bytes en size pc i = item_bytes en' size pc i).
  { destruct i as [e|raw]; cbn [item_size item_bytes]; [|auto].
    rewrite (item_value_at_ext pc e); [auto|]. intros n Hn. apply H, in_or_app. left. exact Hn. }
  destruct X as [-> ->]. destruct (item_size en' size pc i); auto. rewrite IH; [reflexivity|]. intros; apply H, in_or_app; auto.
Qed.
Lemma stmt_bytes_ext pc st : (forall n, In n (stmt_names st) -> en n = en' n) -> stmt_bytes c02 ill en pc st = stmt_bytes c02 ill en' pc st.
Proof.
  intros H. destruct st; try reflexivity; cbn [stmt_bytes stmt_names] in *.
  - unfold op_bytes. unfold form_names in H. destruct (form f) as [k|[m e]]; [reflexivity|].
    rewrite !(value_ext pc e H). destruct (usable _ _); auto. destruct (value en' pc e); auto. destruct (select _ _ _) as [k r].
    destruct r; auto. destruct (far _ _ _); auto. rewrite (value_ext (pc + 2) e H). reflexivity.
  - rewrite (items_bytes_ext' _ _ H). reflexivity.
Qed.
Lemma stmt_size_ext pc st : (forall n, In n (stmt_names st) -> en n = en' n) -> stmt_size c02 ill en pc st = stmt_size c02 ill en' pc st.
Proof.
  intros H. destruct st; try reflexivity; cbn [stmt_size stmt_names] in *.
  unfold op_size. unfold form_names in H. destruct (form f) as [k|[m e]]; [reflexivity|].
  rewrite (value_ext pc e H). reflexivity.
Qed.
End Ext.
Lemma unknown_ext C C' e : (forall n, In n (names e) -> C n = C' n) -> unknown_name C e = unknown_name C' e.
Proof.
  intros H. unfold unknown_name. induction (names e) as [|n l IH]; [reflexivity|]. cbn [existsb]. rewrite H by (cbn; auto).
  rewrite IH; [reflexivity|]. intros; apply H; cbn; auto.
Qed.
Lemma stmt_known_ext C C' st : (forall n, In n (stmt_names st) -> C n = C' n) -> stmt_known C st -> stmt_known C' st.
Proof.
  intros H. destruct st; auto; cbn [stmt_known stmt_names] in *.
  - unfold form_names in H. destruct (form f) as [k|[m e]]; [auto|]. rewrite (unknown_ext C C' e H). auto.
  - intros K. rewrite forallb_forall in K |- *. intros i Hi. specialize (K i Hi). rewrite <- K. f_equal.
    destruct i as [e|raw]; cbn [item_unknown]; [|reflexivity].
    assert (Hn : forall n, In n (names e) -> C' n = C n). { intros n Hn. symmetry. apply H. apply in_flat_map. exists (IExpr e). auto. }
    destruct e; cbn [inner]; auto; apply unknown_ext; auto.
Qed.

(** ** Lines *)
Record lres (l : tline) (s s' : state) : Prop := mkLres {
  l_good : good s';
  l_kept : kept s s';
  l_fr : fr s' = fr s;
  l_errs : s_errs s' = s_errs s;
  l_org : s_org_spec s = true -> s_org_spec s' = true;
  l_pc : s_pc s <= s_pc s';
  l_entered : entered s' (need_names (t_stmt l));
  l_other : forall m, plain m -> (forall n, ldef l = Some n -> fk m <> fk n) -> meaning s' m = meaning s m;
  l_def : match ldef l with
          | None => s_changed s' = s_changed s
          | Some n => exists v, lvalue (meaning s) (s_pc s) l = Some v /\ (forall m, plain m -> fk m = fk n -> meaning s' m = dcore v) /\
                        s_changed s' = s_changed s + (if craw (meaning s n) =? v then 0 else 1)
          end;
  l_size : (forall m, plain m -> meaning s' m = meaning s m) -> stmt_known (meaning s) (t_stmt l) ->
           exists n, stmt_size (s_c02 s) (s_ill s) (env s) (s_pc s) (t_stmt l) = Some n /\ s_pc s' = s_pc s + n;
  l_bytes : s_final s = true -> s_opened s && s_org_spec s = true ->
            exists b, stmt_bytes (s_c02 s) (s_ill s) (env s) (s_pc s) (t_stmt l) = Some b /\ s_pc s' = s_pc s + Z.of_nat (length b) /\ outs (silent (t_stmt l)) b s s';
  l_quiet : is_assign (t_stmt l) = true \/ t_stmt l = SEmpty ->
            s_pc s' = s_pc s /\ s_out s' = s_out s /\ s_total s' = s_total s /\ s_org_spec s' = s_org_spec s /\ s_list s' = s_list s;
  l_list : lk s s'
}.
Lemma okexpr_mono F F' e : (F <= F')%nat -> okexpr F e -> okexpr F' e.
Proof. intros L (A & B & C & D). split; [exact A|]. split; [exact B|]. split; [exact C|lia]. Qed.
Lemma okstmt_mono c02 ill F F' st : (F <= F')%nat -> okstmt c02 ill F st -> okstmt c02 ill F' st.
Proof.
  intros L. destruct st; cbn [okstmt]; auto.
  - unfold okform. destruct (form f) as [k|[m e]]; [auto|]. apply okexpr_mono, L.
  - intros (A & B & C & D). split; [exact A|]. split; [exact B|]. split; [|lia]. intros i Hi. specialize (C i Hi). destruct i; cbn in *; [eapply okexpr_mono; eauto|auto].
Qed.
Lemma meaning_line v s : meaning (set_line v s) = meaning s. Proof. reflexivity. Qed.
Lemma ops_kept_line v s : ops_kept s (set_line v s). Proof. intros p i o m c l H. exact H. Qed.
Lemma good_line v s : good s -> good (set_line v s).
Proof. intros G. apply (good_hv s); [apply hv_set_line, G|reflexivity|exact G]. Qed.

(** run a built statement that is not a definition, in a state [s2] reached from [s] without a change *)
Lemma run_plain C F s s2 p l : good s2 -> sm s s2 -> kept s s2 -> (forall m, plain m -> meaning s2 m = meaning s m) ->
  (forall m, plain m -> C m = meaning s m) -> lk s s2 -> (t_stmt l = SEmpty -> s_list s2 = s_list s) ->
  built C (s_pc s) C s2 p (t_stmt l) -> okstmt (s_c02 s) (s_ill s) F (t_stmt l) -> (1 <= F)%nat -> 0 <= s_total s ->
  (s_final s = true -> silent (t_stmt l) = true \/ stmt_known (meaning s) (t_stmt l) /\ no_hole s /\ s_opened s = true) ->
  (ldef l <> None -> exists n, ldef l = Some n /\ plain n /\ lvalue (meaning s) (s_pc s) l = Some (s_pc s) /\ meaning s n = dcore (s_pc s)) ->
  bad s (expand (S F) p s2) \/ exists s', expand (S F) p s2 = Ok 0 s' /\ lres l s s'.
Proof.
  intros G2 S2 K2 Me HC Lk Ql B Okst HF Ht Fi Df.
  assert (Pn : forall n, In n (stmt_names (t_stmt l)) -> plain n) by (eapply okstmt_names; eauto).
  assert (En : forall n, In n (stmt_names (t_stmt l)) -> cval (C n) = env s n) by (intros n Hn; unfold env; rewrite HC; auto).
  pose proof (fr_eq_c02 _ _ (sm_fr _ _ S2)) as E02. pose proof (fr_eq_ill _ _ (sm_fr _ _ S2)) as Eil.
  destruct (walk_sum C (s_pc s) C F s2 p (t_stmt l) G2 B) as [X|(s' & E & V & Et & (n & Hn & Mv) & Em & Sz & By)].
  - rewrite E02, Eil. exact Okst.
  - exact HF.
  - rewrite (sm_total _ _ S2). exact Ht.
  - rewrite (sm_final _ _ S2). intros Fn. destruct (Fi Fn) as [Si|(A1 & A2 & A3)]; [left; exact Si|right]. split; [|split].
    + eapply stmt_known_ext; [|exact A1]. intros m Hm. symmetry. apply HC; auto.
    + eapply no_hole_sm; eauto.
    + rewrite (fr_eq_opened _ _ (sm_fr _ _ S2)). exact A3.
  - left. eapply bad_le; [|exact X]. rewrite (sm_errs _ _ S2). lia.
  - right. exists s'. split; [exact E|].
    assert (Ms : forall m, plain m -> meaning s' m = meaning s m) by (intros m Pm; rewrite (h_res _ _ V) by auto; auto).
    constructor.
    + apply (good_hv s2); auto. apply fr_eq_stop, Mv.
    + eapply kept_trans; [exact K2|apply V].
    + rewrite (m_fr _ _ _ Mv). apply S2.
    + rewrite (m_errs _ _ _ Mv). apply S2.
    + intros O. apply (m_org _ _ _ Mv). rewrite (sm_org _ _ S2). exact O.
    + rewrite (m_pc _ _ _ Mv), (sm_pc _ _ S2). lia.
    + exact Et.
    + intros m Pm _. auto.
    + destruct (ldef l) as [k|] eqn:D.
      * destruct (Df ltac:(discriminate)) as (k' & [= <-] & Pk & Lv & Mk). exists (s_pc s). split; [exact Lv|]. split.
        -- intros m Pm Em'. rewrite Ms by auto. rewrite <- Mk, <- (Me m Pm), <- (Me k Pk). apply fk_meaning; auto; apply G2.
        -- rewrite Mk. cbn [craw dcore]. rewrite Z.eqb_refl, (m_changed _ _ _ Mv), (sm_changed _ _ S2). lia.
      * rewrite (m_changed _ _ _ Mv). apply S2.
    + intros _ Kn. destruct Sz as (k & Sk & Mk).
      * reflexivity.
      * symmetry. apply S2.
      * eapply stmt_known_ext; [|exact Kn]. intros m Hm. symmetry. apply HC; auto.
      * exists k. rewrite E02, Eil, (sm_pc _ _ S2) in Sk. rewrite (stmt_size_ext _ _ _ (env s) _ _ En) in Sk. split; [exact Sk|].
        rewrite (m_pc _ _ _ Mk). rewrite (sm_pc _ _ S2). reflexivity.
    + intros Fn Op. destruct By as (b & Sb & Mb & Ob).
      * reflexivity.
      * symmetry. apply S2.
      * rewrite (sm_final _ _ S2). exact Fn.
      * rewrite (fr_eq_opened _ _ (sm_fr _ _ S2)), (sm_org _ _ S2). exact Op.
      * exists b. rewrite E02, Eil, (sm_pc _ _ S2) in Sb. rewrite (stmt_bytes_ext _ _ _ (env s) _ _ En) in Sb. split; [exact Sb|].
        rewrite (m_pc _ _ _ Mb), (sm_pc _ _ S2). split; [reflexivity|]. eapply outs_sm; eauto.
    + intros [Q|Q].
      * exfalso. destruct (t_stmt l); try discriminate Q. exact Okst.
      * destruct (Em Q) as [Eo El]. apply sm_obs in Eo. pose proof (sm_trans _ _ _ S2 Eo) as X. rewrite El, (Ql Q). repeat split; apply X.
    + eapply lk_trans; [exact Lk|apply V].
Qed.

Lemma bump_sum b s s' : obs s' = bump b (obs s) -> fr s' = fr s /\ s_errs s' = s_errs s /\ s_pc s' = s_pc s /\ s_org_spec s' = s_org_spec s /\
  s_out s' = s_out s /\ s_total s' = s_total s /\ s_changed s' = s_changed s + (if b then 1 else 0).
Proof.
  intros O. destruct (bump_same b (obs s)) as (_ & B1 & B2 & B3 & B4 & B5 & B6 & _).
  split. { rewrite <- (fr_of_obs s'), O. unfold bump. destruct b; [rewrite fr_set_changed|]; apply fr_of_obs. }
  rewrite <- (obs_get_errs s'), <- (obs_get_pc s'), <- (obs_get_org_spec s'), <- (obs_get_out s'), <- (obs_get_total s'), <- (obs_get_changed s'), O.
  rewrite B1, B2, B3, B4, B5, B6. rewrite obs_get_errs, obs_get_pc, obs_get_org_spec, obs_get_out, obs_get_total, obs_get_changed. repeat split.
Qed.
Lemma bind_bind {A B D} (m : M A) (k : A -> M B) (h : B -> M D) s : bind (bind m k) h s = bind m (fun a => bind (k a) h) s.
Proof. unfold bind. destruct (m s); reflexivity. Qed.
Definition SB : steps_build R := closed_b _ Rmsgs_closed Rmsgs_build.
Lemma RB F first st s : prs2 R R (build_stmt (expand F) first st) s.
Proof. eapply (prs_build_stmt _ _ SR); [intros; apply ER|apply SB|apply stmt_in_true]. Qed.
Lemma Rline v s : prs2 R R (modify (set_line v)) s.
Proof. apply (prs_modify _ _), (c_line _ Rmsgs_closed). Qed.
Lemma Rlab F n p s : prs2 R R (with_label (expand F) n p) s.
Proof. apply (prs_with_label _ _ SR). intros; apply ER. Qed.
Lemma Rdone F v p s : prs2 R R (modify (set_line v) ;;; _ <- expand F p ;; ret (Some tt)) s.
Proof. apply (prs_bind _ _ SR); [apply Rline|intros; apply (prs_bind _ _ SR); [apply ER|intros; apply (prs_ret _ _ SR)]]. Qed.
Lemma Rdone_lab F v n p s : prs2 R R (modify (set_line v) ;;; with_label (expand F) n p ;;; ret (Some tt)) s.
Proof. apply (prs_bind _ _ SR); [apply Rline|intros; apply (prs_bind _ _ SR); [apply Rlab|intros; apply (prs_ret _ _ SR)]]. Qed.
Lemma bad_bindo {A B} s (m : M (option A)) (k : A -> M (option B)) s1 : bad s (m s1) -> prs2 R R m s1 ->
  (forall a s', prs2 R R (k a) s') -> bad s ((x <-o m ;; k x) s1).
Proof. intros H1 H2 H3. unfold bindo. apply bad_bind; auto. intros [a|] s' _; [apply H3|apply (prs_ret _ _ SR)]. Qed.

Lemma run_line_ok F l s : good s -> s_macdef s = 0 -> okline (s_c02 s) (s_ill s) F l -> (1 <= F)%nat -> 0 <= s_total s ->
  (s_final s = true -> (silent (t_stmt l) = true \/ stmt_known (meaning s) (t_stmt l) /\ no_hole s /\ s_opened s = true) /\
                       forall t, t_label l = Some t -> meaning s (uncolon t) = dcore (s_pc s)) ->
  bad s (run_line (expand (S F)) l s) \/ exists s', run_line (expand (S F)) l s = Ok (Some tt) s' /\ lres l s s'.
Proof.
  intros G Md Ok HF Ht Fi. unfold okline in Ok.
  assert (Pre : forall first, is_assign (t_stmt l) = false -> okstmt (s_c02 s) (s_ill s) F (t_stmt l) -> forall s1, hv s s1 -> sm s s1 -> good s1 ->
    bad s (build_stmt (expand (S F)) first (t_stmt l) s1) \/
    exists p s2, build_stmt (expand (S F)) first (t_stmt l) s1 = State.Ok (Some p) s2 /\ good s2 /\ hv s s2 /\ sm s s2 /\
      built (meaning s1) (s_pc s) (meaning s1) s2 p (t_stmt l) /\ (t_stmt l = SEmpty -> s_list s2 = s_list s1)).
  { intros first As Ok1 s1 V1 S1 G1.
    destruct (build_ok (S F) first (t_stmt l) s1 G1) as [X|(p & s2 & E & V & O & B)].
    - rewrite (fr_eq_c02 _ _ (sm_fr _ _ S1)), (fr_eq_ill _ _ (sm_fr _ _ S1)). eapply okstmt_mono; [|exact Ok1]. lia.
    - lia.
    - left. eapply bad_le; [|exact X]. rewrite (sm_errs _ _ S1). lia.
    - right. exists p, s2. split; [exact E|]. split; [apply (good_hv s1); auto; apply obs_stop, O|]. split; [eapply hv_trans; eauto|].
      split; [eapply sm_trans; [exact S1|apply sm_obs, O]|]. rewrite (sm_pc _ _ S1) in B. split; [exact B|]. intros Q. rewrite Q in E. cbn in E. injection E as _ <-. reflexivity. }

  remember (run_line (expand (S F)) l s) as res eqn:Er. unfold run_line in Er. set (s0 := set_line (t_line l) s).
  assert (G0 : good s0) by (apply good_line, G).
  assert (V0 : hv s s0) by (apply hv_set_line, G).
  assert (S0 : sm s s0) by apply sm_line.
  unfold bind at 1, modify at 1 in Er. fold s0 in Er. cbv zeta in Er.
  destruct (t_label l) as [t|] eqn:Lb.
  - (* labelled *)
    pose (n := uncolon t).
    assert (As : is_assign (t_stmt l) = false) by (destruct (t_stmt l); try reflexivity; destruct Ok; discriminate).
    assert (Ok' : okstmt (s_c02 s) (s_ill s) F (t_stmt l) /\ plain n /\ (owns n (stmt_names (t_stmt l)) <= 1)%nat)
      by (destruct (t_stmt l); try discriminate As; exact Ok).
    clear Ok. destruct Ok' as (Okst & Pn & Ow).
    unfold bind at 1 in Er.
    destruct (tok_first_t t s0 (g_tab _ G0) (g_scope _ G0) Pn (clean_macro _ (g_clean _ G0 n Pn)) (g_acc _ G0) Md) as (s1 & E1 & V1 & O1 & _ & Q1). rewrite E1 in Er.
    assert (G1 : good s1) by (apply (good_hv s0); auto; apply obs_stop, O1).
    destruct (Pre false As Okst s1 ltac:(eapply hv_trans; eauto) ltac:(eapply sm_trans; [exact S0|apply sm_obs, O1]) G1) as [X|(p & s2 & E2 & G2 & V2 & S2 & B & Ql)].
    { left. rewrite Er. apply bad_bindo; [exact X|apply RB|intros; apply Rdone_lab]. }
    unfold bindo, bind at 1 in Er. rewrite E2 in Er. unfold bind at 1, modify at 1 in Er. set (s3 := set_line (t_line l) s2) in *. unfold with_label in Er.
    assert (G3 : good s3) by (apply good_line, G2).
    assert (V3 : hv s s3) by (eapply hv_trans; [exact V2|apply hv_set_line, G2]).
    assert (S3 : sm s s3) by (eapply sm_trans; [exact S2|apply sm_line]).
    destruct (label_def_ok t s3 (g_tab _ G3) Pn) as (d & a & c & s4 & E4 & V4 & O4 & K4 & Nd & Na & Nc & Q4).
    rewrite (bind_bind (label_def t)) in Er. unfold bind at 1 in Er. rewrite E4 in Er.
    assert (S4 : sm s s4) by (eapply sm_trans; [exact S3|eapply sm_label, O4]).
    assert (V04 : hv s s4) by (eapply hv_trans; eauto).
    assert (G4 : good s4) by (apply (good_hv s); auto; apply fr_eq_stop, S4).
    assert (B4 : built (meaning s1) (s_pc s) (meaning s1) s4 p (t_stmt l)).
    { apply (built_hv _ _ _ s3); [exact V4|exact K4| | |].
      - rewrite (fr_eq_c02 _ _ (sm_fr _ _ S4)), (fr_eq_c02 _ _ (sm_fr _ _ S3)). reflexivity.
      - rewrite (fr_eq_ill _ _ (sm_fr _ _ S4)), (fr_eq_ill _ _ (sm_fr _ _ S3)). reflexivity.
      - apply (built_hv _ _ _ s2); [apply hv_set_line, G2|apply ops_kept_line|reflexivity|reflexivity|exact B]. }
    destruct F as [|F]; [lia|].
    destruct (label_step F t d a c (s_pc s3) s4 (g_tab _ G4) (g_scope _ G4) (g_stop _ G4) Pn (g_clean _ G4 n Pn) Nd Na Nc) as [X|(s5 & E5 & D5)]; [|fold n in D5].
    { left. rewrite Er. apply bad_bind.
      - apply bad_bind; [|apply ER|intros; apply (prs_bind _ _ SR); [apply ER|intros; apply (prs_ret _ _ SR)]].
        eapply bad_le; [|exact X]. rewrite (sm_errs _ _ S4). lia.
      - apply (prs_bind _ _ SR); [apply ER|intros; apply (prs_bind _ _ SR); [apply ER|intros; apply (prs_ret _ _ SR)]].
      - intros; apply (prs_ret _ _ SR). }
    destruct (defines_ok _ _ _ _ D5 G4 Pn) as (G5 & K5 & Oth & Her & O5 & _ & L5 & Q5).
    rewrite bind_bind in Er. unfold bind at 1 in Er. rewrite E5 in Er.
    assert (Pc4 : s_pc s4 = s_pc s) by apply S4.
    assert (Me4 : meaning s4 n = meaning s n) by (apply (h_res _ _ V04); auto).
    assert (Lv : lvalue (meaning s) (s_pc s) l = Some (s_pc s)) by (unfold lvalue; rewrite Lb; reflexivity).
    assert (Ld : ldef l = Some n) by (unfold ldef; rewrite Lb; reflexivity).
    assert (Res : bad s (expand (S (S F)) p s5) \/ exists s', expand (S (S F)) p s5 = State.Ok 0 s' /\ lres l s s').
    { destruct D5 as (s4' & Vx & Ox & Kx & Qx & [(Me & ->)|(Me & Dd & _)]).
      - apply (run_plain (meaning s1)); auto.
        + eapply sm_trans; [exact S4|apply sm_obs, Ox].
        + eapply kept_trans; [apply V04|apply Vx].
        + intros m Pm. rewrite (h_res _ _ Vx), (h_res _ _ V04); auto.
        + intros m Pm. rewrite (h_res _ _ V1) by auto. reflexivity.
        + eapply lk_trans; [apply V04|apply Vx].
        + intros Q. rewrite Qx, Q4. change (s_list s3) with (s_list s2). rewrite (Ql Q), Q1. reflexivity.
        + apply (built_hv _ _ _ s4); auto; [apply fr_eq_c02, fr_obs, Ox|apply fr_eq_ill, fr_obs, Ox].
        + intros Fn. apply (Fi Fn).
        + intros _. exists n. split; [exact Ld|]. split; [exact Pn|]. split; [exact Lv|]. fold n. rewrite <- Me4, Me, Pc4. reflexivity.
      - assert (Nf : s_final s = false).
        { destruct (s_final s) eqn:Fn; [|reflexivity]. destruct (Fi eq_refl) as (_ & A4). exfalso. apply Me. rewrite Me4, Pc4. exact (A4 t eq_refl). }
        destruct (bump_sum _ _ _ O5) as (B1 & B2 & B3 & B4' & B5' & B6 & B7).
        assert (Gx : good s4') by (apply (good_hv s4); auto; apply obs_stop, Ox).
        assert (Cx : s_c02 s5 = s_c02 s4') by (rewrite (fr_eq_c02 _ _ B1), (fr_eq_c02 _ _ (fr_obs _ _ Ox)); reflexivity).
        assert (Ix : s_ill s5 = s_ill s4') by (rewrite (fr_eq_ill _ _ B1), (fr_eq_ill _ _ (fr_obs _ _ Ox)); reflexivity).
        destruct (built_dfn n _ (meaning s1) (s_pc s) (meaning s1) s4' s5 p (t_stmt l) Dd (g_own _ Gx) (g_scope _ Gx) Pn Cx Ix) as (C' & B5); auto.
        { eapply okstmt_names; eauto. }
        { apply (built_hv _ _ _ s4); auto; [apply fr_eq_c02, fr_obs, Ox|apply fr_eq_ill, fr_obs, Ox]. }
        assert (Q1' : fr s5 = fr s) by (rewrite B1; apply S4).
        destruct (walk_sum (meaning s1) (s_pc s) C' (S F) s5 p (t_stmt l) G5 B5) as [X|(s' & E & V & Et & (k & Hk & Mv) & Em & _ & _)].
        + rewrite (fr_eq_c02 _ _ Q1'), (fr_eq_ill _ _ Q1'). exact Okst.
        + exact HF.
        + rewrite B6, (sm_total _ _ S4). exact Ht.
        + rewrite (fr_eq_final _ _ Q1'). congruence.
        + left. eapply bad_le; [|exact X]. rewrite B2, (sm_errs _ _ S4). lia.
        + right. exists s'. split; [exact E|].
          assert (Hd : forall m, plain m -> fk m = fk n -> meaning s' m = dcore (s_pc s)).
          { intros m Pm Hm. rewrite (h_res _ _ V) by auto. rewrite <- Pc4. auto. }
          constructor.
          * apply (good_hv s5); auto. apply fr_eq_stop, Mv.
          * eapply kept_trans; [apply V04|eapply kept_trans; [exact K5|apply V]].
          * rewrite (m_fr _ _ _ Mv). exact Q1'.
          * rewrite (m_errs _ _ _ Mv), B2. apply S4.
          * intros O. apply (m_org _ _ _ Mv). rewrite B4', (sm_org _ _ S4). exact O.
          * rewrite (m_pc _ _ _ Mv), B3, Pc4. lia.
          * exact Et.
          * intros m Pm Hm. rewrite (h_res _ _ V) by auto. rewrite Oth by auto. apply (h_res _ _ V04); auto.
          * rewrite Ld. exists (s_pc s). split; [exact Lv|]. split; [exact Hd|].
            rewrite (m_changed _ _ _ Mv), B7, (sm_changed _ _ S4), Me4, Pc4. destruct (craw (meaning s n) =? _); reflexivity.
          * intros Same _. exfalso. apply Me. rewrite Me4, Pc4, <- (Same n Pn). auto.
          * congruence.
          * intros [Q|Q]; [congruence|]. destruct (Em Q) as [Eo El]. apply sm_obs in Eo.
            rewrite (sm_pc _ _ Eo), (sm_out _ _ Eo), (sm_total _ _ Eo), (sm_org _ _ Eo), B3, B4', B5', B6, El, Q5, Q4.
            change (s_list s3) with (s_list s2). rewrite (Ql Q), Q1. repeat split; apply S4.
          * eapply lk_trans; [apply V04|]. eapply lk_trans; [exact L5|apply V]. }
    destruct Res as [X|(s' & E & L)].
    + left. rewrite Er. apply bad_bind; [|apply (prs_bind _ _ SR); [apply ER|intros; apply (prs_ret _ _ SR)]|intros; apply (prs_ret _ _ SR)].
      apply bad_bind; [exact X|apply ER|intros; apply (prs_ret _ _ SR)].
    + right. exists s'. split; [|exact L]. rewrite Er. rewrite bind_bind. unfold bind at 1. rewrite E. reflexivity.
  - destruct (is_assign (t_stmt l)) eqn:As.
    + (* name = expression *)
      destruct (t_stmt l) as [| | | | | | | | | | | | |n e| | | | | | | | | | | | | |] eqn:St; try discriminate As.
      destruct Ok as (_ & Pn & Oke).
      destruct (assign_build (S F) n e s0 G0 Pn (okexpr_mono _ _ _ (Nat.le_succ_diag_r F) Oke) Md) as (p & i & q & s1 & E1 & V1 & O1 & Np & Ni & Rq & Lq & Qb).
      unfold bindo, bind at 1 in Er. rewrite E1 in Er. unfold bind at 1, modify at 1 in Er. set (s2 := set_line (t_line l) s1) in *.
      assert (S1 : sm s s1) by (eapply sm_trans; [exact S0|apply sm_obs, O1]).
      assert (S2 : sm s s2) by (eapply sm_trans; [exact S1|apply sm_line]).
      assert (G1 : good s1) by (apply (good_hv s0); auto; apply obs_stop, O1).
      assert (G2 : good s2) by (apply good_line, G1).
      assert (V2 : hv s s2) by (eapply hv_trans; [exact V0|eapply hv_trans; [exact V1|apply hv_set_line, G1]]).
      assert (R2 : rep (meaning s) true s2 q e) by (apply (rep_hv _ _ s1); [apply hv_set_line, G1|exact Rq]).
      destruct (assign_step (meaning s) F n e s2 p i q G2 Pn Oke Np Ni R2 Lq) as [X|(v & s' & Va & E & D & En)].
      { left. rewrite Er. apply bad_bind; [eapply bad_le; [|exact X]; rewrite (sm_errs _ _ S2); lia|apply ER|intros; apply (prs_ret _ _ SR)]. }
      right. exists s'. split; [rewrite Er; unfold bind; rewrite E; reflexivity|].
      destruct (defines_ok _ _ _ _ D G2 Pn) as (G' & K' & Oth & Her & O' & _ & L' & Q').
      destruct (bump_sum _ _ _ O') as (Q1 & Q2 & Q3 & Q4 & Q5 & Q6 & Q7).
      rewrite (sm_pc _ _ S2) in Va.
      constructor; rewrite ?St.
      * exact G'.
      * eapply kept_trans; [apply V2|exact K'].
      * rewrite Q1. apply S2.
      * rewrite Q2. apply S2.
      * intros O. rewrite Q4, (sm_org _ _ S2). exact O.
      * rewrite Q3, (sm_pc _ _ S2). lia.
      * exact En.
      * intros m Pm Hm. rewrite Oth; auto; [apply (h_res _ _ V2); auto|]. apply Hm. unfold ldef. rewrite Lb, St. reflexivity.
      * unfold ldef, lvalue. rewrite Lb, St. exists v. split; [exact Va|]. split; [exact Her|].
        rewrite Q7, (sm_changed _ _ S2), (h_res _ _ V2) by auto. destruct (craw (meaning s n) =? _); reflexivity.
      * intros _ _. exists 0. split; [reflexivity|]. rewrite Q3, (sm_pc _ _ S2). lia.
      * intros _ _. exists []. split; [reflexivity|]. split; [rewrite Q3, (sm_pc _ _ S2); cbn; lia|]. unfold outs. rewrite ?Et; cbn [silent]. split; [reflexivity|].
        rewrite Q5, Q6. split; apply S2.
      * intros _. rewrite Q3, Q4, Q5, Q6, Q'. change (s_list s2) with (s_list s1). rewrite Qb. repeat split; apply S2.
      * eapply lk_trans; [apply V2|exact L'].
    + assert (Okst : okstmt (s_c02 s) (s_ill s) F (t_stmt l)) by (destruct (t_stmt l); try discriminate As; apply Ok).
      clear Ok. destruct (Pre true eq_refl Okst s0 V0 S0 G0) as [X|(p & s2 & E2 & G2 & V2 & S2 & B & Ql)].
      { left. rewrite Er. apply bad_bindo; [exact X|apply RB|intros; apply Rdone]. }
      unfold bindo, bind at 1 in Er. rewrite E2 in Er. unfold bind at 1, modify at 1 in Er. set (s3 := set_line (t_line l) s2) in *.
      destruct (run_plain (meaning s0) F s s3 p l) as [X|(s' & E & L)]; auto.
      * apply good_line, G2.
      * eapply sm_trans; [exact S2|apply sm_line].
      * eapply kept_trans; [apply V2|apply (hv_set_line (t_line l) s2), G2].
      * intros m Pm. change (meaning s3) with (meaning s2). apply (h_res _ _ V2); auto.
      * eapply lk_trans; [apply V2|apply (hv_set_line (t_line l) s2), G2].
      * apply (built_hv _ _ _ s2); [apply hv_set_line, G2|apply ops_kept_line|reflexivity|reflexivity|exact B].
      * intros Fn. apply (Fi Fn).
      * intros N. exfalso. apply N. unfold ldef. rewrite Lb. destruct (t_stmt l); try reflexivity. discriminate As.
      * left. rewrite Er. apply bad_bind; [exact X|apply ER|intros; apply (prs_ret _ _ SR)].
      * right. exists s'. split; [rewrite Er; unfold bind; rewrite E; reflexivity|exact L].
Qed.
