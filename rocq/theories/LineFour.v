(** One line of the fragment. *)
From Coq Require Import String Lia.
From Verif Require Import Base BaseProofs Hash Dict DictProofs DictMore Str Opcodes OpcodesProofs Err State Sym Machine Build Pass
  GenX Gen Inv SymProofs Sem ListRel ExprProofs ExprMore OpProofs OpMore InstrProofs InstrMore DataProofs DataMore DefProofs BadProofs DataWalk OpWalk Colon
  Layout LineProofs LineTwo LineThree.
Open Scope string_scope.
Open Scope list_scope.
Open Scope Z_scope.
Open Scope m_scope.

Definition is_assign (st : stmt) : bool := match st with SAssign _ _ => true | _ => false end.
Definition okline (c02 ill : bool) (F : nat) (l : tline) : Prop :=
  match t_stmt l with
  | SAssign n e => t_label l = None /\ plain n /\ okexpr F e
  | st => okstmt c02 ill F st /\ match t_label l with Some t => plain (uncolon t) /\ (owns (uncolon t) (stmt_names st) <= 1)%nat | None => True end
  end.
Definition ldef (l : tline) : option cstr :=
  match t_label l with Some t => Some (uncolon t) | None => match t_stmt l with SAssign n _ => Some n | _ => None end end.
(** the value a line gives to the name it defines *)
Definition lvalue (C : cstr -> core_t) (pc : Z) (l : tline) : option Z :=
  match t_label l with Some _ => Some pc | None => match t_stmt l with SAssign _ e => value_at C pc e | _ => None end end.

(** ** Assignments *)
Lemma rep_alloc C u s p e k l : cold k = true -> tab s -> rep C u s p e -> rep C u (set_nodes (s_nodes s ++ [mkNode k l]) s) p e.
Proof. intros H T. apply rep_evo, evo_alloc; auto. Qed.
Lemma assign_build F n e s : good s -> plain n -> okexpr F e -> s_macdef s = 0 ->
  exists p i q s1, build_stmt (expand F) true (SAssign n e) s = Ok (Some p) s1 /\ hv s s1 /\ obs s1 = obs s /\
    nth_error (s_nodes s1) p = Some (mkNode (KOpr OEqu) [i; q]) /\ nth_error (s_nodes s1) i = Some (mkNode (KId n None) []) /\
    rep (meaning s) true s1 q e /\ (q < i)%nat /\ s_list s1 = s_list s.
Proof.
  intros G Pn (W & Ea & Pe & Hh) Md. cbn [build_stmt]. unfold bind at 1.
  destruct (tok_first_ok n s (g_tab _ G) Pn (clean_macro _ (g_clean _ G n Pn)) Md) as (s1 & E1 & V1 & O1 & _ & Q1). rewrite E1.
  destruct (build_expr_rep e s1 (h_tab _ _ V1) W (good_plain _ _ (good_hv _ _ V1 (obs_stop _ _ O1) G) Pe)) as (q & s2 & E2 & Ev2 & Er2 & Rp & Lq).
  unfold bindo, bind at 1. rewrite E2. unfold some, bind, id_node. rewrite alloc_eq. cbv beta iota. rewrite alloc_eq.
  set (s3 := set_nodes (s_nodes s2 ++ [mkNode (KId n None) []]) s2).
  set (s4 := set_nodes (s_nodes s3 ++ [mkNode (KOpr OEqu) [length (s_nodes s2); q]]) s3).
  assert (T2 : tab s2) by apply Ev2.
  assert (V3 : hv s2 s3) by (apply hv_alloc; [reflexivity|exact T2]).
  assert (V4 : hv s3 s4) by (apply hv_alloc; [reflexivity|apply V3]).
  exists (length (s_nodes s3)), (length (s_nodes s2)), q, s4. split; [reflexivity|].
  split; [eapply hv_trans; [exact V1|]; eapply hv_trans; [apply hv_evo, Ev2|]; eapply hv_trans; [exact V3|exact V4]|].
  split. { unfold s4, s3. rewrite !obs_set_nodes. rewrite (obs_evo _ _ Ev2), Er2, <- (obs_get_errs s1), errs_id. exact O1. }
  split; [apply alloc_nth|]. split.
  { unfold s4. cbn [s_nodes set_nodes]. assert (N3 : nth_error (s_nodes s3) (length (s_nodes s2)) = Some (mkNode (KId n None) [])) by apply alloc_nth.
    rewrite nth_error_app1 by (apply nth_error_Some; rewrite N3; discriminate). exact N3. }
  split; [|split; [lia|transitivity (s_list s2); [reflexivity|rewrite <- Q1; exact (f_equal s_list (e_same _ _ Ev2))]]].
  assert (Rp' : rep (meaning s) true s2 q e).
  { clear - Rp V1 Pe. induction Rp; cbn [names] in *.
    - constructor; auto.
    - econstructor; eauto.
    - eapply RepCached; eauto. rewrite <- (h_res _ _ V1) by auto with datatypes. auto.
    - eapply RepName; eauto. rewrite <- (h_res _ _ V1) by auto with datatypes. auto.
    - eapply RepUn; eauto.
    - eapply RepBin; eauto; [apply IHRp1|apply IHRp2]; intros x Hx; apply Pe, in_or_app; auto. }
  unfold s4, s3. apply rep_alloc; [reflexivity|apply V3|]. apply rep_alloc; [reflexivity|exact T2|]. exact Rp'.
Qed.
Lemma id_kept s s' p n l : evo s s' -> nth_error (s_nodes s) p = Some (mkNode (KId n None) l) ->
  exists o, nth_error (s_nodes s') p = Some (mkNode (KId n o) l).
Proof. intros E N. destruct (e_node _ _ E _ _ N) as (x & N' & X). inversion X; subst; eauto. Qed.
(** evaluating a tree does not touch the nodes above it *)
Definition ab {A} (p : nat) (m : M A) (s : state) : Prop :=
  match m s with Ok _ s' => evo s s' /\ (forall i, (p < i)%nat -> nth_error (s_nodes s') i = nth_error (s_nodes s) i) | _ => True end.
Lemma ab_bind {A B} p (m : M A) (k : A -> M B) s : ab p m s -> (forall a s', evo s s' -> ab p (k a) s') -> ab p (bind m k) s.
Proof.
  unfold ab, bind. destruct (m s) as [a s1| | |]; auto. intros (E & H) K. specialize (K a s1 E). destruct (k a s1); auto.
  destruct K as (E2 & H2). split; [eapply evo_trans; eauto|]. intros i L. rewrite H2, H; auto.
Qed.
Lemma ab_ret {A} p (a : A) s : tab s -> ab p (ret a) s. Proof. intros T. cbn. split; [apply evo_refl; auto|auto]. Qed.
Lemma ab_ub {A} p u s : ab p (@ub A u) s. Proof. exact I. Qed.
Lemma ab_ck p v s : tab s -> ab p (ck v) s.
Proof. intros T. unfold ck. destruct (in_int v); [apply ab_ret; auto|exact I]. Qed.
Lemma ab_err p n s : tab s -> ab p (err n) s.
Proof. intros T. unfold ab, err, modify. split; [apply evo_err; auto|auto]. Qed.
Ltac abs E := repeat first [ assumption | match goal with |- ab ?p (bind (ret ?a) ?f) ?s => change (ab p (f a) s); cbv beta end | apply ab_ck; eauto using e_tab | apply ab_ub | apply ab_err; eauto using e_tab | apply ab_ret; eauto using e_tab
  | match goal with H : forall s', evo _ s' -> ab _ (expand _ ?q) s' |- ab _ (expand _ ?q) _ => apply H; eauto using evo_trans end
  | apply ab_bind; [|intros ? ? ?] | match goal with |- ab _ (if ?b then _ else _) _ => destruct b end
  | match goal with |- ab _ (let _ := _ in _) _ => cbv zeta end | progress unfold un_op, bin_op ].
Lemma eval_above C u e : forall F s p, (height e <= F)%nat -> tab s -> s_stop s = false -> rep C u s p e ->
  ab p (expand F p) s.
Proof.
  induction e as [v|n| |o e IH|o e1 IH1 e2 IH2]; intros F s p HF T St R; (destruct F as [|F]; [cbn in HF; lia|]).
  - inversion R as [p0 v0 N| | | | |]; subst. unfold ab. rewrite (expand_eq _ _ _ _ St N). cbn. split; [apply evo_refl; auto|auto].
  - unfold ab. destruct (eval_name _ _ _ _ _ F T St R) as (s' & E1 & E2 & E3 & E4). rewrite E1. split; [exact E2|]. revert E1.
    inversion R as [| |p0 n0 a y N D Hy Ey|p0 n0 Eu N P Ey| |]; subst; rewrite (expand_eq _ _ _ _ St N); unfold x_node; cbn [n_kind]; unfold x_id.
    + destruct (direct_head _ D) as [D1 D2]. rewrite D1, D2. unfold bind, ret, sym_get, gets. unfold bind. rewrite Hy.
      intros E; inversion E; subst; auto.
    + destruct (direct_head _ (plain_direct _ P)) as [D1 D2]. rewrite D1, D2.
      destruct (add_plain_evo n s T P) as (a & y & s1 & F1 & F2 & Nn & Er & Hy & Ec & Hh).
      unfold bind, ret. rewrite F1. unfold node_set, modify, sym_get, gets, bind. cbn [s_syms set_nodes]. rewrite Hy.
      intros E; inversion E; subst. cbn [s_nodes set_nodes]. intros i L. rewrite nth_upd_other by lia. rewrite Nn. reflexivity.
  - inversion R as [|p0 v N| | | |]; subst. unfold ab. rewrite (expand_eq _ _ _ _ St N). cbn. split; [eapply evo_pcnode; eauto|].
    intros i L. rewrite nth_upd_other by lia. reflexivity.
  - inversion R as [| | | |p0 o0 q e0 N U L R'|]; subst. cbn [height] in HF.
    assert (A1 : forall s', evo s s' -> ab q (expand F q) s').
    { intros s' E. exact (IH F s' q ltac:(lia) (e_tab _ _ E) ltac:(rewrite (evo_stop _ _ E); auto) (rep_evo _ _ _ _ _ _ E R')). }
    assert (X : ab q (x_opr (expand F) F p (mkNode (KOpr o) [q]) o) s).
    { assert (E0 : evo s s) by (apply evo_refl; auto). destruct o; try discriminate U; cbn [x_opr]; unfold x_unary, opn; cbn [nth_error n_ops]; abs E0. }
    unfold ab in *. rewrite (expand_eq _ _ _ _ St N). unfold x_node. cbn [n_kind].
    destruct (x_opr _ _ _ _ _ s); auto. destruct X as [X1 X2]. split; auto. intros; apply X2; lia.
  - inversion R as [| | | | |p0 o0 q1 q2 e10 e20 N U L1 L2 R1 R2]; subst. cbn [height] in HF.
    assert (A1 : forall s', evo s s' -> ab (Nat.max q1 q2) (expand F q1) s').
    { intros s' E. assert (A := IH1 F s' q1 ltac:(lia) (e_tab _ _ E) ltac:(rewrite (evo_stop _ _ E); auto) (rep_evo _ _ _ _ _ _ E R1)).
      unfold ab in *. destruct (expand F q1 s'); auto. destruct A as [X1 X2]; split; auto; intros; apply X2; lia. }
    assert (A2 : forall s', evo s s' -> ab (Nat.max q1 q2) (expand F q2) s').
    { intros s' E. assert (A := IH2 F s' q2 ltac:(lia) (e_tab _ _ E) ltac:(rewrite (evo_stop _ _ E); auto) (rep_evo _ _ _ _ _ _ E R2)).
      unfold ab in *. destruct (expand F q2 s'); auto. destruct A as [X1 X2]; split; auto; intros; apply X2; lia. }
    assert (X : ab (Nat.max q1 q2) (x_opr (expand F) F p (mkNode (KOpr o) [q1; q2]) o) s).
    { assert (E0 : evo s s) by (apply evo_refl; auto). destruct o; try discriminate U; cbn [x_opr]; unfold x_binary, x_divide, x_and, x_or, opn; cbn [nth_error n_ops]; abs E0. }
    unfold ab in *. rewrite (expand_eq _ _ _ _ St N). unfold x_node. cbn [n_kind].
    destruct (x_opr _ _ _ _ _ s); auto. destruct X as [X1 X2]. split; auto. intros; apply X2; lia.
Qed.
Lemma assign_step C F n e s p i q : good s -> plain n -> okexpr F e ->
  nth_error (s_nodes s) p = Some (mkNode (KOpr OEqu) [i; q]) -> nth_error (s_nodes s) i = Some (mkNode (KId n None) []) ->
  rep C true s q e -> (q < i)%nat ->
  bad s (expand (S F) p s) \/
  exists v s', value_at C (s_pc s) e = Some v /\ expand (S F) p s = Ok v s' /\ defines n v s s' /\ entered s' (names e).
Proof.
  intros G P (W & Ea & Pe & Hh) Np Ni Rq L. pose proof (g_tab _ G) as T. pose proof (g_stop _ G) as St. pose proof (g_scope _ G) as Sc.
  rewrite (expand_equ _ _ _ _ _ St Np).
  destruct (value_at C (s_pc s) e) as [v|] eqn:V.
  2:{ left. unfold x_equ, opn. cbn [nth_error n_ops]. unfold bind at 1, ret at 1.
      apply bad_bind; [eapply eval_bad; eauto|apply ER|]. intros a s' HR. exact (prs_x_equ _ _ SR (fun _ => ret a) (fun n0 s0 => prs_ret _ _ SR a s0) (mkNode (KOpr OEqu) [i; q]) s'). }
  destruct (eval_known C true e v F s q Hh T St Rq (value_known _ _ _ _ Ea V)) as (s1 & E1 & H1 & O1 & R1 & K1 & _).
  pose proof (proj1 (eval_quiet C true e v F s q s1 Hh T St Rq (value_known _ _ _ _ Ea V) E1)) as Q1.
  pose proof (eval_above _ _ _ _ _ _ Hh T St Rq) as A. unfold ab in A. rewrite E1 in A. destruct A as [_ A].
  assert (Ni1 : nth_error (s_nodes s1) i = Some (mkNode (def_node false n None) [])) by (rewrite A by auto; exact Ni).
  rewrite (x_equ_eq F false n i q v s s1 P E1 Ni1).
  pose proof (good_hv _ _ H1 (obs_stop _ _ O1) G) as G1.
  assert (En : entered s1 (names e)) by (eapply entered_rep; eauto; apply G1).
  destruct (equ_body_ok false n v i s1 (g_tab _ G1) (g_scope _ G1) P (g_clean _ G1 _ P) Ni1) as (s2 & V2 & O2 & K2 & Q2 & [(Me & E2)|[(Me & Rg & s3 & E2 & Er)|(Me & Rg & s3 & E2 & D & O3)]]).
  - right. exists v, s2. split; [reflexivity|]. split; [exact E2|]. split; [|eapply entered_kept; [apply V2|exact Pe|exact En]].
    exists s2. split; [eapply hv_trans; eauto|]. split; [congruence|].
    split; [eapply ops_kept_trans; eauto|]. split; [congruence|]. left. split; auto. rewrite <- (h_res _ _ H1) by auto. exact Me.
  - left. rewrite E2. cbn. rewrite Er. rewrite (obs_errs _ _ O1). lia.
  - right. exists v, s3. split; [reflexivity|]. split; [exact E2|].
    split; [|eapply entered_kept; [apply D|exact Pe|eapply entered_kept; [apply V2|exact Pe|exact En]]].
    exists s2. split; [eapply hv_trans; eauto|]. split; [congruence|].
    split; [eapply ops_kept_trans; eauto|]. split; [congruence|]. right. rewrite <- (h_res _ _ H1) by auto. split; [exact Me|]. split; [exact D|].
    rewrite O3, O1. reflexivity.
Qed.
(** ** States that differ only in what a line may change, but for the given counters *)
Record sm (s s' : state) : Prop := mkSm {
  sm_fr : fr s' = fr s; sm_errs : s_errs s' = s_errs s; sm_changed : s_changed s' = s_changed s; sm_pc : s_pc s' = s_pc s;
  sm_org : s_org_spec s' = s_org_spec s; sm_out : s_out s' = s_out s; sm_total : s_total s' = s_total s }.
Lemma sm_obs s s' : obs s' = obs s -> sm s s'.
Proof.
  intros O. constructor.
  - apply fr_obs, O.
  - apply obs_errs, O.
  - rewrite <- (obs_get_changed s'), O. apply obs_get_changed.
  - apply obs_pc, O.
  - rewrite <- (obs_get_org_spec s'), O. apply obs_get_org_spec.
  - rewrite <- (obs_get_out s'), O. apply obs_get_out.
  - rewrite <- (obs_get_total s'), O. apply obs_get_total.
Qed.
Lemma sm_trans a b c : sm a b -> sm b c -> sm a c.
Proof. intros [] []. constructor; congruence. Qed.
Lemma sm_line v s : sm s (set_line v s).
Proof. constructor; [apply fr_set_line|reflexivity..]. Qed.
Lemma sm_label v s s' : obs s' = set_label v (obs s) -> sm s s'.
Proof.
  intros O. apply sm_trans with (set_label v s). { constructor; [apply fr_set_label|reflexivity..]. }
  apply sm_obs. rewrite O, obs_set_label. reflexivity.
Qed.
Lemma sm_final s s' : sm s s' -> s_final s' = s_final s.
Proof. intros H. rewrite <- (fr_get_final s'), (sm_fr _ _ H). apply fr_get_final. Qed.
Lemma fr_eq_c02 s s' : fr s' = fr s -> s_c02 s' = s_c02 s.
Proof. intros H. rewrite <- (fr_get_c02 s'), H. apply fr_get_c02. Qed.
Lemma fr_eq_ill s s' : fr s' = fr s -> s_ill s' = s_ill s.
Proof. intros H. rewrite <- (fr_get_ill s'), H. apply fr_get_ill. Qed.
Lemma fr_eq_c64 s s' : fr s' = fr s -> s_c64 s' = s_c64 s.
Proof. intros H. rewrite <- (fr_get_c64 s'), H. apply fr_get_c64. Qed.
Lemma fr_eq_final s s' : fr s' = fr s -> s_final s' = s_final s.
Proof. intros H. rewrite <- (fr_get_final s'), H. apply fr_get_final. Qed.
Lemma fr_eq_opened s s' : fr s' = fr s -> s_opened s' = s_opened s.
Proof. intros H. rewrite <- (fr_get_opened s'), H. apply fr_get_opened. Qed.
Lemma fr_eq_asg s s' : fr s' = fr s -> s_pc_assigned s' = s_pc_assigned s.
Proof. exact (fun H => f_equal s_pc_assigned H). Qed.
Lemma fr_eq_origin s s' : fr s' = fr s -> s_origin s' = s_origin s.
Proof. intros H. rewrite <- (fr_get_origin s'), H. apply fr_get_origin. Qed.
Lemma fr_eq_macdef s s' : fr s' = fr s -> s_macdef s' = s_macdef s.
Proof. intros H. rewrite <- (fr_get_macdef s'), H. apply fr_get_macdef. Qed.
Lemma fr_eq_stop s s' : fr s' = fr s -> s_stop s' = s_stop s.
Proof. intros H. rewrite <- (fr_get_stop s'), H. apply fr_get_stop. Qed.
Lemma fr_eq_skip s s' : fr s' = fr s -> s_skip s' = s_skip s.
Proof. intros H. rewrite <- (fr_get_skip s'), H. apply fr_get_skip. Qed.
Lemma no_hole_sm s s' : sm s s' -> no_hole s -> no_hole s'.
Proof. intros H. unfold no_hole. rewrite (sm_pc _ _ H), (fr_eq_origin _ _ (sm_fr _ _ H)), (sm_total _ _ H). auto. Qed.
Lemma outs_sm q b s s1 o : sm s s1 -> outs q b s1 o -> outs q b s o.
Proof.
  intros H. unfold outs. rewrite (sm_out _ _ H), (sm_total _ _ H), (fr_eq_c64 _ _ (sm_fr _ _ H)), (fr_eq_origin _ _ (sm_fr _ _ H)). auto.
Qed.
Lemma moves_after n s o : moves n s (obs o) -> moves n s o.
Proof.
  intros [H1 H2 H3 H4 H5]. rewrite fr_of_obs in H1. rewrite obs_get_errs in H2. rewrite obs_get_changed in H3. rewrite obs_get_pc in H4.
  rewrite obs_get_org_spec in H5. constructor; auto.
Qed.
Lemma outs_after q b s o : outs q b s (obs o) -> outs q b s o.
Proof. unfold outs. rewrite obs_get_out, obs_get_total. auto. Qed.
Lemma hv_set_line v s : tab s -> hv s (set_line v s).
Proof. intros T. apply hv_frame; auto. Qed.

(** ** Running a statement *)
Lemma walk_sum Cb pcb C F s p st : good s -> built Cb pcb C s p st -> okstmt (s_c02 s) (s_ill s) F st -> (1 <= F)%nat -> 0 <= s_total s ->
  (s_final s = true -> silent st = true \/ stmt_known C st /\ no_hole s /\ s_opened s = true) ->
  bad s (expand (S F) p s) \/
  exists s', expand (S F) p s = Ok 0 s' /\ hv s s' /\ entered s' (need_names st) /\ (exists n, 0 <= n /\ moves n s s') /\
    (st = SEmpty -> obs s' = obs s /\ s_list s' = s_list s) /\
    (Cb = C -> pcb = s_pc s -> stmt_known C st ->
     exists n, stmt_size (s_c02 s) (s_ill s) (fun n => cval (C n)) (s_pc s) st = Some n /\ moves n s s') /\
    (Cb = C -> pcb = s_pc s -> s_final s = true -> s_opened s && s_org_spec s = true ->
     exists b, stmt_bytes (s_c02 s) (s_ill s) (fun n => cval (C n)) (s_pc s) st = Some b /\ moves (Z.of_nat (length b)) s s' /\ outs (silent st) b s s').
Proof.
  intros G B Okst HF Ht Fi. destruct (walk_ok Cb pcb C F s p st G B Okst HF Ht Fi) as [X|(s' & E & V & Ef & En)]; [left; exact X|right].
  exists s'. split; [exact E|]. split; [exact V|]. split; [exact En|]. split; [|split; [|split]].
  - destruct (eff_moves _ _ _ _ _ _ _ Okst Ef) as (n & Hn & Mv). exists n. split; [exact Hn|apply moves_after, Mv].
  - intros ->. split; [exact Ef|]. cbn [built] in B. rewrite (expand_eq _ _ _ _ (g_stop _ G) B) in E. cbn in E. injection E as <-. reflexivity.
  - intros -> -> Kn. destruct (eff_size _ _ _ _ _ Okst Ef Kn) as (n & Sz & Mv). exists n. split; [exact Sz|apply moves_after, Mv].
  - intros -> -> Fn Op. assert (Kn : stmt_known C st) by (destruct (Fi Fn) as [X|X]; [destruct st; try discriminate X; exact I|apply X]).
    destruct (eff_bytes _ _ _ _ _ Okst Ef Kn Fn Op Ht) as (b & Sb & Mv & Ou). exists b. split; [exact Sb|]. split; [apply moves_after, Mv|apply outs_after, Ou].
Qed.
