(** .VAR lines in programs whose table holds variables and labels only. *)
From Coq Require Import String Lia.
From Verif Require Import Base BaseProofs Hash Dict DictProofs DictMore Str Opcodes OpcodesProofs Err State Sym Machine Build Pass
  GenX Gen Inv SymProofs Sem ExprProofs ListRel ExprMore OpProofs OpMore InstrProofs InstrMore DataProofs DataMore DefProofs BadProofs DataWalk MacroProofs VarProofs LoopProofs IfProofs Layout LineTwo Struct StructRep StructOp StructRun StructExec StructBuild StructLine.
Open Scope string_scope.
Open Scope list_scope.
Open Scope Z_scope.
Open Scope m_scope.

Lemma search_fk s k n : tab s -> valids k -> valids n -> fk k = fk n -> dict_search (s_dict s) k = dict_search (s_dict s) n.
Proof.
  intros [[[T0 T1] T2] T3] Vk Vn E. rewrite (dict_search_stack _ _ _ T0 Vk), (dict_search_stack _ _ _ T0 Vn).
  replace (stackof (s_dict s) k) with (stackof (s_dict s) n); auto. unfold stackof. apply filter_ext. intros x. unfold matches. rewrite E. reflexivity.
Qed.
Lemma dl_some s k : tab s -> valids k -> (dl s k <> None <-> dict_search (s_dict s) k <> None).
Proof. intros T V. pose proof (dl_search s k (proj1 (proj1 T)) V) as X. destruct (dict_search (s_dict s) k); [destruct X as (y & _ & ->)|rewrite X]; split; congruence. Qed.
Lemma isvar_core y v : ycore y = var_core v -> isvar y. Proof. intros E. exists v. exact E. Qed.
Lemma isvar_untimed o y : untimed o = untimed (Some y) -> exists z, o = Some z /\ ycore z = ycore y.
Proof. intros E. destruct o as [z|]; [|discriminate]. exists z. split; [reflexivity|]. apply (core_untimed (Some z) (Some y)) in E. exact E. Qed.
(** ** A table of variables [V] and of labels with the values [L] *)
Definition apart (V : list cstr) (L : list (cstr * Z)) : Prop :=
  (forall m v, In (m, v) L -> plain m) /\ NoDup (map fk (map fst L)) /\ (forall n m, In n V -> In m (map fst L) -> fk n <> fk m).
Definition shape (V : list cstr) (L : list (cstr * Z)) (s : state) : Prop := forall k y, valids k -> dl s k = Some y ->
  (isvar y /\ exists m, In m V /\ fk m = fk k) \/ (exists m v, In (m, v) L /\ fk m = fk k /\ ycore y = dcore v).
Lemma shape_keeps V L s s' : keeps s s' -> shape V L s -> shape V L s'.
Proof.
  intros K A k y' Vk D. destruct (K k y' Vk D) as (y & Dy & Li). destruct (A k y Vk Dy) as [(Iv & X)|(m & v & I & E & C)].
  - left. split; [|exact X]. destruct Li as [Li|[_ Li]]; [exact (isvar_eq _ _ Li Iv)|exact Li].
  - right. exists m, v. split; [exact I|]. split; [exact E|]. destruct Li as [Li|[(w & W) _]]; [congruence|]. rewrite C in W. discriminate W.
Qed.
Lemma shape_qt V L s s' : qt s s' -> shape V L s -> shape V L s'. Proof. intros Q. apply shape_keeps, (q_vars _ _ Q). Qed.
Lemma one_value V L n v w m : apart V L -> In (n, v) L -> In (m, w) L -> fk n = fk m -> v = w.
Proof.
  intros (_ & Nd & _) I1 I2 E. clear V. induction L as [|[x u] L IH]; [contradiction|]. cbn [map fst] in Nd. inversion Nd as [|? ? X Nd']; subst. destruct I1 as [I1|I1], I2 as [I2|I2].
  - congruence.
  - injection I1 as -> ->. exfalso. apply X. rewrite E. apply in_map. change m with (fst (m, w)). apply in_map, I2.
  - injection I2 as -> ->. exfalso. apply X. rewrite <- E. apply in_map. change n with (fst (n, v)). apply in_map, I1.
  - auto.
Qed.
Lemma meaning_dl s n : s_scope s = None -> meaning s n = core (dl s n). Proof. intros Sc. unfold meaning, resolve. rewrite Sc. reflexivity. Qed.
(** a label keeps its value *)
Lemma fixed_qt s s' n v : calm s -> qt s s' -> plain n -> meaning s n = dcore v -> meaning s' n = dcore v.
Proof.
  intros Cm Q P M. pose proof (calm_qt _ _ Q Cm) as (T' & Sc' & _). destruct Cm as (T & Sc & _). rewrite (meaning_dl _ _ Sc) in M. rewrite (meaning_dl _ _ Sc').
  destruct (dl s n) as [y|] eqn:D; [|discriminate M]. destruct (dl s' n) as [y'|] eqn:D'.
  - destruct (q_vars _ _ Q n y' (proj1 P) D') as (z & Dz & Li). rewrite D in Dz. injection Dz as <-. change (ycore y = dcore v) in M. change (ycore y' = dcore v). destruct Li as [Li|[(w & W) _]]; [congruence|]. rewrite M in W. discriminate W.
  - exfalso. apply (proj2 (dl_some s' n T' (proj1 P))); [|exact D']. rewrite (q_dict _ _ Q). apply (dl_some s n T (proj1 P)). congruence.
Qed.
(** what adding a name leaves of the others *)
Lemma others n s a t s2 : tab s -> s_scope s = None -> plain n -> add_symbol n s = Ok (Some a) t -> tab s2 -> s_dict s2 = s_dict t -> dict_search (s_dict s2) n = Some a ->
  (forall c, c <> a -> nth_error (s_syms s2) c = nth_error (s_syms t) c) -> forall k, valids k -> fk k <> fk n -> untimed (dl s2 k) = untimed (dl s k).
Proof.
  intros T Sc P Eb T2 Xd Da Xs k Vk Hk. destruct (add_plain_spec n s (proj1 T) P (proj2 (proj2 T))) as (b & t' & Eb' & Tt & Sct & _ & Hb). rewrite Eb in Eb'. injection Eb' as <- <-.
  assert (Old : dl s2 k = dl t k).
  { unfold dl, dlookup. cbn [fst snd]. rewrite <- Xd. destruct (dict_search (s_dict s2) k) as [c|] eqn:Dc; [|reflexivity]. apply Xs. intros ->.
    apply Hk. assert (Sk : forall m, valids m -> dict_search (s_dict s2) m = Some a -> exists e, In e (concat (dtable (s_dict s2))) /\ snd e = a /\ fk (fst e) = fk m).
    { intros m Vm Dm. rewrite (dict_search_stack _ _ _ (proj1 (proj1 (proj1 T2))) Vm) in Dm. unfold stackof in Dm.
      destruct (filter (matches m) (concat (dtable (s_dict s2)))) as [|e r] eqn:Ef; [discriminate|]. cbn in Dm. injection Dm as Dm.
      assert (In e (filter (matches m) (concat (dtable (s_dict s2))))) as I by (rewrite Ef; left; reflexivity). apply filter_In in I. destruct I as [I M].
      exists e. split; [exact I|]. split; [exact Dm|]. exact (proj1 (matches_fk _ _) M). }
    destruct (Sk k Vk Dc) as (e1 & I1 & A1 & B1). destruct (Sk n (proj1 P) Da) as (e2 & I2 & A2 & B2).
    assert (e1 = e2); [|congruence]. destruct (proj1 T2) as [_ Nd2]. unfold addrs in Nd2.
    clear - Nd2 I1 I2 A1 A2. revert Nd2 I1 I2. generalize (concat (dtable (s_dict s2))). intros l. induction l as [|x l IH]; [contradiction|]. cbn [map]. intros Nd [->|I1] [->|I2]; auto.
    - inversion Nd as [|? ? X _]; subst. exfalso. apply X. rewrite <- A2. apply in_map. exact I2.
    - inversion Nd as [|? ? X _]; subst. exfalso. apply X. rewrite A2. apply in_map. exact I1.
    - inversion Nd; subst. auto. }
  rewrite Old. rewrite Sc in Hb. cbn [resolve under] in Hb. destruct (dl s n) as [z|] eqn:Dz.
  - apply Hb.
  - destruct Hb as (_ & _ & Hb). rewrite (Hb k Vk Hk (proj1 (proj2 T) k Vk)). reflexivity.
Qed.
Section Shape.
Variables (V : list cstr) (L : list (cstr * Z)).
Hypothesis Ap : apart V L.
(** what an unknown name or a variable becomes *)
Lemma vcore_zero s n : shape V L s -> s_scope s = None -> plain n -> In n V -> vcore (meaning s n) 0 = var_core 0.
Proof.
  intros A Sc P I. rewrite (meaning_dl _ _ Sc). destruct (dl s n) as [y|] eqn:D; [|reflexivity].
  destruct (A n y (proj1 P) D) as [((v & E) & _)|(m & v & Im & E & _)]; [change (core (Some y)) with (ycore y); rewrite E; reflexivity|].
  exfalso. destruct Ap as (_ & _ & X). apply (X n m I); [change m with (fst (m, v)); apply in_map, Im|auto].
Qed.
Lemma declare_v F n p sp s : calm s -> shape V L s -> plain n -> In n V -> nth_error (s_nodes s) p = Some (mkNode (KId n None) []) ->
  exists a s2, elem_symbol (expand F) p (mkNode (KId n None) []) sp s = Ok (true, Some a) s2 /\ calm s2 /\ shape V L s2 /\ dict_search (s_dict s2) n = Some a /\
    (forall k, plain k -> meaning s2 k = if list_eq_dec Z.eq_dec (fk k) (fk n) then var_core 0 else meaning s k) /\
    (forall k, valids k -> dl s k <> None -> dl s2 k <> None) /\ obs s2 = obs s /\ (forall q, q <> p -> nth_error (s_nodes s2) q = nth_error (s_nodes s) q).
Proof.
  intros (T & Sc & St) A P Iv N. destruct (declare_ok F n p sp s T Sc P N) as (a & y & s1 & s2 & E & H1 & O1 & D & O & Hh & Hy & Ey & Nd).
  rewrite (vcore_zero s n A Sc P Iv) in *. pose proof (d_tab _ _ _ _ D) as T2.
  assert (Sc2 : s_scope s2 = None) by (rewrite (d_scope _ _ _ _ D), (h_scope _ _ H1); exact Sc).
  assert (Da : dict_search (s_dict s2) n = Some a) by (unfold hand in Hh; rewrite Sc2 in Hh; exact Hh).
  destruct (add_plain_spec n s (proj1 T) P (proj2 (proj2 T))) as (b & t & Eb & Tt & Sct & _ & Hb).
  assert (X : b = a /\ s_dict s2 = s_dict t /\ forall c, c <> a -> nth_error (s_syms s2) c = nth_error (s_syms t) c).
  { clear - E Eb. unfold elem_symbol in E. cbn [n_kind n_ops] in E. cbv zeta in E. unfold bind at 1 2 in E. rewrite Eb in E. unfold bind, node_set, modify, sym_get, gets, ret, bind in E. cbn [s_syms set_nodes] in E.
    destruct (nth_error (s_syms t) b) as [y|] eqn:Y; [|discriminate]. unfold sym_set, modify in E. cbn [s_syms set_nodes set_syms] in E.
    rewrite nth_upd_same in E by (apply nth_error_Some; congruence). unfold ret in E. injection E as <- <-. split; [reflexivity|]. split; [reflexivity|].
    intros c Hc. cbn [s_syms set_syms set_nodes]. rewrite !nth_upd_other by auto. reflexivity. }
  destruct X as (-> & Xd & Xs).
  pose proof (others n s a t s2 T Sc P Eb T2 Xd Da Xs) as Same.
  exists a, s2. split; [exact E|]. split; [split; [exact T2|split; [exact Sc2|rewrite (obs_stop _ _ O); exact St]]|]. split; [|split; [exact Da|split; [|split; [|split; [exact O|exact Nd]]]]].
  - intros k z Vk Dk. destruct (list_eq_dec Z.eq_dec (fk k) (fk n)) as [Ek|Ek].
    + unfold dl, dlookup in Dk. cbn [fst snd] in Dk. rewrite (search_fk s2 k n T2 Vk (proj1 P) Ek), Da in Dk. rewrite Hy in Dk. injection Dk as <-. left. split; [exact (isvar_core _ _ Ey)|]. exists n. auto.
    + pose proof (Same k Vk Ek) as X. rewrite Dk in X. symmetry in X. destruct (isvar_untimed _ _ X) as (w & Dw & Ew). destruct (A k w Vk Dw) as [((v & Ev) & Y)|(m & v & Im & Em & Ev)]; [left; split; [exists v; congruence|exact Y]|right; exists m, v; split; [exact Im|split; [exact Em|congruence]]].
  - intros k Pk. destruct (list_eq_dec _ _ _) as [Ek|Ek]; [apply (d_here _ _ _ _ D k Pk Ek)|]. rewrite (d_other _ _ _ _ D k Pk Ek). apply (h_res _ _ H1 k Pk).
  - intros k Vk Dk. destruct (list_eq_dec Z.eq_dec (fk k) (fk n)) as [Ek|Ek].
    + apply (dl_some _ _ T2 Vk). rewrite (search_fk s2 k n T2 Vk (proj1 P) Ek), Da. discriminate.
    + pose proof (Same k Vk Ek) as X. intros Y. rewrite Y in X. destruct (dl s k); [discriminate X|contradiction].
Qed.
(** ** Building *)
Lemma need_any n s : calm s -> shape V L s -> plain n -> exists s', need_sym n s = Ok (Some tt) s' /\ sl s s' /\ s_nodes s' = s_nodes s.
Proof.
  intros Cm A P. pose proof Cm as (T & Sc & St). destruct (dict_search (s_dict s) n) as [a|] eqn:D.
  - apply need_found; [exact Cm|]. intros m [<-|[]]. split; [exact P|]. split; [congruence|].
    destruct (found _ _ _ T Sc P D) as (y & Y & E & R). rewrite <- E. destruct (A n y (proj1 P) R) as [((v & W) & _)|(m & v & _ & _ & W)]; rewrite W; reflexivity.
  - exists s. split; [|split; [apply sl_refl|reflexivity]]. destruct (direct_head _ (plain_direct _ P)) as [D1 D2].
    unfold need_sym, tok_sym. rewrite D1, (plain_92 n P). unfold look_up_symbol. unfold bind, gets. rewrite Sc. unfold look_up_in, sym_search, bind, gets. rewrite D. reflexivity.
Qed.
End Shape.
(** ** The value behind the = *)
Definition quiet (s s' : state) : Prop := qt s s' /\ obs s' = obs s /\ (forall n, plain n -> meaning s' n = meaning s n) /\ s_pc s' = s_pc s.
Lemma quiet_refl s : quiet s s. Proof. split; [apply qt_refl|auto]. Qed.
Lemma quiet_trans a b c : quiet a b -> quiet b c -> quiet a c.
Proof. intros (A1 & A2 & A3 & A4) (B1 & B2 & B3 & B4). split; [exact (qt_trans _ _ _ A1 B1)|]. split; [congruence|]. split; [|congruence]. intros n P. rewrite (B3 n P). auto. Qed.
Lemma holds_quiet U T env s s' : quiet s s' -> holds U T env s -> holds U T env s'.
Proof. intros (Q & _ & M & _) H. exact (holds_same _ _ _ _ _ H (q_dict _ _ Q) M). Qed.
Lemma known_val env pc e v : val_of env pc e = Some v -> eager e = true -> known (fun n => var_core (env n)) pc e v.
Proof.
  unfold val_of, known. intros V E. split; [|exact E]. change (fun n => cval (var_core (env n))) with env. destruct (sem env pc e) as [[w k]|]; [|discriminate]. destruct k; [congruence|discriminate|discriminate].
Qed.
Lemma val_known env pc e v : known (fun n => var_core (env n)) pc e v -> val_of env pc e = Some v /\ eager e = true.
Proof. intros [K E]. split; [|exact E]. unfold val_of. change (fun n => cval (var_core (env n))) with env in K. rewrite K. reflexivity. Qed.
Lemma ops_v U T env F e s q x v : (height e <= F)%nat -> calm s -> tied s q e -> holds U T env s -> incl (names e) U -> eager e = true -> val_of env (s_pc s) e = Some v ->
  nth_error (s_nodes s) q = Some x -> exists w s', expand_all (expand F) (n_ops x) 0 s = Ok w s' /\ quiet s s'.
Proof.
  intros HF Cm R H I Eg V N. pose proof (known_val _ _ _ _ V Eg) as K.
  inversion R as [p0 v0 Np|p0 v0 Np|p0 n i a Np P D Ii|p0 o q1 e0 Np U0 Lt R0|p0 o q1 q2 e1 e2 Np B L1 L2 R1 R2]; subst; rewrite Np in N; injection N as <-; cbn [n_ops expand_all].
  1-3: exists 0, s; split; [reflexivity|apply quiet_refl].
  - destruct (known_un _ _ _ _ _ K) as (w & Kw). destruct (val_known _ _ _ _ Kw) as [Vw _]. cbn [height names] in *.
    destruct (eval_ok U T env F e0 s q1 w ltac:(lia) Cm R0 H I Vw) as (s1 & E1 & Q1). unfold bind. rewrite E1. exists w, s1. split; [reflexivity|exact Q1].
  - destruct (known_bin _ _ _ _ _ _ K) as (w1 & w2 & K1 & K2). destruct (val_known _ _ _ _ K1) as [V1 _]. destruct (val_known _ _ _ _ K2) as [V2 _]. cbn [height names] in *.
    destruct (eval_ok U T env F e1 s q1 w1 ltac:(lia) Cm R1 H (fun k Hk => I k (in_or_app _ _ _ (or_introl Hk))) V1) as (s1 & E1 & Q1).
    pose proof Q1 as (Qa & _ & _ & P1).
    destruct (eval_ok U T env F e2 s1 q2 w2 ltac:(lia) (calm_qt _ _ Qa Cm) (tied_qt _ _ _ _ Qa R2) (holds_quiet _ _ _ _ _ Q1 H) (fun k Hk => I k (in_or_app _ _ _ (or_intror Hk))) ltac:(rewrite P1; exact V2)) as (s2 & E2 & Q2).
    unfold bind. rewrite E1, E2. exists w2, s2. split; [reflexivity|exact (quiet_trans _ _ _ Q1 Q2)].
Qed.
Lemma tied_nonname s q e : tied s q e -> nonname e -> exists x, nth_error (s_nodes s) q = Some x /\ n_kind x <> KOpr OExprList /\
  (forall A (f : cstr -> option nat -> A) (g : cstr -> option nat -> A) (d : A), match n_kind x with KId a b => f a b | KLabel a b => g a b | _ => d end = d).
Proof.
  intros R H. inversion R; subst; cbn in H; try contradiction; eexists; (split; [eassumption|]); (split; [|reflexivity]); cbn [n_kind];
    try congruence; intros [= ->]; discriminate.
Qed.
Lemma init_v U T env F n a e v w q s : calm s -> plain n -> s_ety s = EtSymbol -> (height e <= F)%nat -> tied s q e -> nonname e -> eager e = true -> holds U T env s -> incl (names e) U ->
  val_of env (s_pc s) e = Some v -> dict_search (s_dict s) n = Some a -> meaning s n = var_core w ->
  exists s', expr_list (expand F) [q] (Some a) s = Ok 0 s' /\ reset n v s s' /\ s_pc s' = s_pc s.
Proof.
  intros Cm P Et HF R Nn Eg H I V D M. destruct (tied_nonname _ _ _ R Nn) as (x & N & Kx & _).
  rewrite (step_one _ _ _ _ _ _ N Kx). destruct (ops_v U T env F e s q x v HF Cm R H I Eg V N) as (w1 & s1 & E1 & Q1). pose proof Q1 as (Qa & Oa & Ma & Pa).
  unfold bind at 1. rewrite E1. unfold bind at 1, gets at 1. rewrite (obs_field s_ety _ _ Oa obs_get_ety), Et.
  pose proof (tied_qt _ _ _ _ Qa R) as R1. destruct (tied_nonname _ _ _ R1 Nn) as (x1 & N1 & _ & Mx).
  unfold bind at 1, node_get, bind at 1, gets at 1. rewrite N1. unfold ret at 1. unfold elem_symbol. cbv zeta. rewrite Mx.
  pose proof (calm_qt _ _ Qa Cm) as Cm1.
  destruct (eval_ok U T env F e s1 q v HF Cm1 R1 (holds_quiet _ _ _ _ _ Q1 H) I ltac:(rewrite Pa; exact V)) as (s2 & E2 & Q2). pose proof (quiet_trans _ _ _ Q1 Q2) as Q. pose proof Q as (Qb & Ob & Mb & Pb).
  destruct (set_value_ok n a w v s2 (calm_qt _ _ Qb Cm) P ltac:(rewrite (q_dict _ _ Qb); exact D) ltac:(rewrite (Mb n P); exact M)) as (s3 & E3 & R3 & P3).
  exists s3. split; [unfold bind; rewrite E2, E3; reflexivity|]. split; [exact (reset_quiet n v s s2 s3 Qb Ob Mb R3)|congruence].
Qed.

(** ** The line *)
(** the names of [D], in any case, have the values of [env]; those of [T] are variables *)
Definition stock (D T : list cstr) (env : cstr -> Z) (s : state) : Prop :=
  forall n, plain n -> (exists m, In m D /\ map tolower m = map tolower n) ->
    dict_search (s_dict s) n <> None /\ exists b, meaning s n = (env n, true, false, false, b) /\ ((exists m, In m T /\ map tolower m = map tolower n) -> b = true).
Definition declared (D U : list cstr) : Prop := forall n, In n U -> plain n /\ exists m, In m D /\ map tolower m = map tolower n.
Lemma stock_holds D T U W env s : stock D T env s -> declared D U -> declared T W -> holds U W env s.
Proof. intros S Dc Dt n Hn. destruct (Dc n Hn) as [P X]. destruct (S n P X) as (A & b & B & C). split; [exact P|]. split; [exact A|]. exists b. split; [exact B|]. intros Hw. apply C, (Dt n Hw). Qed.
Lemma declared_nil D : declared D []. Proof. intros n []. Qed.
Lemma stock_knows D T U env s : stock D T env s -> declared D U -> knows U s.
Proof. intros S Dc. apply (holds_knows U [] env), (stock_holds D T); auto using declared_nil. Qed.
Lemma stock_sl D T env s s' : sl s s' -> stock D T env s -> stock D T env s'.
Proof. intros Ls S n P X. destruct (S n P X) as [A B]. rewrite (q_dict _ _ (sl_qt _ _ Ls)), (sl_mean _ _ Ls n P). auto. Qed.
(** the value a declaration gives, and what is asked of its expression *)
Definition starts (D : list cstr) (env : cstr -> Z) (pc : Z) (n : cstr) (i : option expr) (v : Z) : Prop :=
  match i with
  | None => v = 0
  | Some e => wfe e = true /\ eager e = true /\ nonname e /\ declared D (names e) /\ val_of (with_value env n 0) pc e = Some v
  end.
Definition var_height (i : option expr) : nat := match i with None => 0 | Some e => height e end.
Section Line.
Variables (V : list cstr) (L : list (cstr * Z)).
Hypothesis Ap : apart V L.
Definition sound (D T : list cstr) (env : cstr -> Z) (s : state) : Prop := calm s /\ shape V L s /\ stock D T env s.
Lemma build_var n i D T env s : sound D T env s -> plain n -> match i with Some e => wfe e = true /\ declared D (names e) | None => True end ->
  exists p l k s' q, (forall ex first, build_stmt ex first (SVar [(n, i)]) s = Ok (Some p) s') /\ sl s s' /\
    nth_error (s_nodes s') p = Some (mkNode (KOpr OVar) [l]) /\ nth_error (s_nodes s') l = Some (mkNode (KOpr OExprList) (k :: match i with Some _ => [q] | None => [] end)) /\
    nth_error (s_nodes s') k = Some (mkNode (KId n None) []) /\ match i with Some e => raw s' q e /\ (q < k)%nat | None => True end.
Proof.
  intros (Cm & A & Sk) P G. destruct (need_any V L n s Cm A P) as (s1 & E1 & L1 & N1).
  assert (X : exists q s2, (match i with None => ret (Some []) | Some e => n <-o build_expr e ;; ret (Some [n]) end) s1 = Ok (Some (match i with Some _ => [q] | None => [] end)) s2 /\ sl s1 s2 /\
    match i with Some e => raw s2 q e | None => True end).
  { destruct i as [e|]; [|exists 0%nat, s1; split; [reflexivity|split; [apply sl_refl|exact I]]]. destruct G as [W Dc].
    destruct (bexpr_raw e s1 (calm_sl _ _ L1 Cm) W (knows_sl _ _ _ L1 (stock_knows _ _ _ _ _ Sk Dc))) as (q & s2 & l & E2 & L2 & R2 & _).
    exists q, s2. split; [unfold bindo, bind; rewrite E2; reflexivity|auto]. }
  destruct X as (q & s2 & E2 & L2 & R2). set (ev := match i with Some _ => [q] | None => [] end) in *.
  set (k := length (s_nodes s2)). set (s3 := set_nodes (s_nodes s2 ++ [mkNode (KId n None) []]) s2).
  set (l := length (s_nodes s3)). set (s4 := set_nodes (s_nodes s3 ++ [mkNode (KOpr OExprList) (k :: ev)]) s3).
  set (p := length (s_nodes s4)). set (s5 := set_nodes (s_nodes s4 ++ [mkNode (KOpr OVar) [l]]) s4).
  exists p, l, k, s5, q. split; [|split; [|split; [apply alloc_nth|split; [|split]]]].
  - intros ex first. cbn [build_stmt more_vars]. unfold bindo in E2 |- *. unfold bind at 1 2. rewrite E1. unfold bind at 1. rewrite E2. unfold id_node, bind at 1. rewrite alloc_eq. fold k s3.
    unfold bind at 1. rewrite alloc_eq. cbn [app]. fold l s4. unfold ret at 1. unfold some, bind. rewrite alloc_eq. reflexivity.
  - apply (sl_trans _ _ _ L1), (sl_trans _ _ _ L2). apply (sl_trans _ s3); [apply sl_alloc|]. apply (sl_trans _ s4); apply sl_alloc.
  - unfold s5. cbn [s_nodes set_nodes]. rewrite nth_error_app1 by (unfold s4; cbn [s_nodes set_nodes]; rewrite app_length; cbn; unfold l; lia). apply alloc_nth.
  - unfold s5, s4, s3. cbn [s_nodes set_nodes]. rewrite !nth_error_app1 by (rewrite ?app_length; cbn; unfold k; lia). apply alloc_nth.
  - destruct i as [e|]; [|exact I]. split; [|exact (raw_lt _ _ _ R2)].
    eapply raw_app; [reflexivity|]. eapply raw_app; [reflexivity|]. eapply raw_app; [reflexivity|exact R2].
Qed.
Lemma stock_declare D W env n s s2 : tab s -> tab s2 -> plain n -> stock D W env s -> dict_search (s_dict s2) n <> None ->
  (forall k, plain k -> meaning s2 k = if list_eq_dec Z.eq_dec (fk k) (fk n) then var_core 0 else meaning s k) -> (forall k, valids k -> dl s k <> None -> dl s2 k <> None) ->
  stock (n :: D) (n :: W) (with_value env n 0) s2.
Proof.
  intros T T2 P S Dn M Dk k Pk (m & Im & Em). rewrite (M k Pk). unfold with_value. fold (fk k) (fk n). destruct (list_eq_dec Z.eq_dec (fk k) (fk n)) as [E|E].
  - split; [|exists true; auto]. rewrite (search_fk s2 k n T2 (proj1 Pk) (proj1 P) E). exact Dn.
  - destruct Im as [<-|Im]; [exfalso; apply E; symmetry; exact Em|]. destruct (S k Pk (ex_intro _ m (conj Im Em))) as (A & b & B & C). split.
    + apply (dl_some _ _ T2 (proj1 Pk)), Dk; [apply Pk|]. apply (dl_some _ _ T (proj1 Pk)), A.
    + exists b. split; [exact B|]. intros (x & [<-|Ix] & Ex); [exfalso; apply E; symmetry; exact Ex|]. apply C. eauto.
Qed.
Lemma stock_reset D W env n v s s' : plain n -> stock (n :: D) (n :: W) (with_value env n 0) s -> reset n v s s' -> stock (n :: D) (n :: W) (with_value env n v) s'.
Proof.
  intros P S (Q & _ & M) k Pk X. destruct (S k Pk X) as [A B]. rewrite (q_dict _ _ Q). split; [exact A|]. rewrite (M k Pk). unfold with_value in *. fold (fk k) (fk n) in *.
  destruct (list_eq_dec Z.eq_dec (fk k) (fk n)) as [E|E]; [exists true; auto|exact B].
Qed.
Theorem var_line D T env pc n i v F l s : plain n -> In n V -> starts D env pc n i v -> (var_height i <= F)%nat -> t_label l = None -> t_stmt l = SVar [(n, i)] ->
  sound D T env s -> s_pc s = pc ->
  exists s', run_line (expand (S (S F))) l s = Ok (Some tt) s' /\ sound (n :: D) (n :: T) (with_value env n v) s' /\ mo s' = mo s /\ s_input s' = s_input s /\ s_changed s' = s_changed s /\
    (forall m w, In (m, w) L -> meaning s m = dcore w -> meaning s' m = dcore w).
Proof.
  intros P Iv G HF Lb St (Cm & A & Sk) Pc. unfold run_line. rewrite Lb, St. unfold bind at 1, modify at 1. set (s0 := set_line (t_line l) s). assert (L0 : sl s s0) by apply sl_line. clearbody s0.
  assert (Sd0 : sound D T env s0) by (split; [exact (calm_sl _ _ L0 Cm)|split; [exact (shape_qt _ _ _ _ (sl_qt _ _ L0) A)|exact (stock_sl _ _ _ _ _ L0 Sk)]]).
  destruct (build_var n i D T env s0 Sd0 P) as (p & q0 & k & s1 & q & E1 & L1 & Np & Nl & Nk & Rq); [destruct i; [destruct G as (? & ? & ? & ? & ?); auto|exact I]|].
  unfold bindo, bind at 1. rewrite E1. unfold bind at 1, modify at 1. set (s2 := set_line (t_line l) s1). assert (L2 : sl s1 s2) by apply sl_line.
  assert (Np2 : nth_error (s_nodes s2) p = Some (mkNode (KOpr OVar) [q0])) by exact Np.
  assert (Nl2 : nth_error (s_nodes s2) q0 = Some (mkNode (KOpr OExprList) (k :: match i with Some _ => [q] | None => [] end))) by exact Nl.
  assert (Nk2 : nth_error (s_nodes s2) k = Some (mkNode (KId n None) [])) by exact Nk.
  assert (Rq2 : match i with Some e => raw s2 q e /\ (q < k)%nat | None => True end).
  { destruct i as [e|]; [|exact I]. destruct Rq as [Rq Lq]. split; [|exact Lq]. apply (raw_nodes s1); [reflexivity|exact Rq]. }
  clearbody s2. pose proof (sl_trans _ _ _ L0 (sl_trans _ _ _ L1 L2)) as L'. clear Np Nl Nk Rq.
  pose proof (calm_sl _ _ L' Cm) as Cm2. pose proof (shape_qt _ _ _ _ (sl_qt _ _ L') A) as A2. pose proof (stock_sl _ _ _ _ _ L' Sk) as Sk2.
  unfold bind at 1. rewrite (expand_var F s2 p _ q0 (proj2 (proj2 Cm2)) Np2 Nl2). set (s3 := set_ety EtSymbol s2).
  assert (Cm3 : calm s3) by exact Cm2. assert (A3 : shape V L s3) by exact A2. assert (Sk3 : stock D T env s3) by exact Sk2. assert (Nk3 : nth_error (s_nodes s3) k = Some (mkNode (KId n None) [])) by exact Nk2.
  assert (O3 : obs s3 = set_ety EtSymbol (set_line (s_line s2) (obs s))) by (unfold s3; rewrite obs_set_ety, (sl_obs _ _ L'); reflexivity).
  assert (Mo3 : mo s3 = mo s) by (unfold mo; rewrite O3, free_ety; apply free_line).
  assert (In3 : s_input s3 = s_input s) by (rewrite <- (obs_get_input s3), O3, ety_input, line_input; apply obs_get_input).
  assert (Ch3 : s_changed s3 = s_changed s) by (rewrite <- (obs_get_changed s3), O3, ety_changed, line_changed; apply obs_get_changed).
  assert (Me3 : forall k, plain k -> meaning s3 k = meaning s k) by (intros m Pm; exact (sl_mean _ _ L' m Pm)).
  assert (Et3 : s_ety s3 = EtSymbol) by reflexivity.
  assert (Rq3 : match i with Some e => raw s3 q e /\ (q < k)%nat | None => True end).
  { destruct i as [e|]; [|exact I]. destruct Rq2 as [Rq Lq]. split; [|exact Lq]. apply (raw_nodes s2); [reflexivity|exact Rq]. }
  clearbody s3. rewrite (step_one _ k _ None _ s3 Nk3) by discriminate. cbn [n_ops expand_all]. unfold ret at 1. unfold bind at 1. unfold bind at 1, gets at 1. rewrite Et3.
  unfold bind at 1, node_get, bind at 1, gets at 1. rewrite Nk3. unfold ret at 1. unfold bind at 1.
  destruct (declare_v V L Ap F n k None s3 Cm3 A3 P Iv Nk3) as (a & s4 & E4 & Cm4 & A4 & D4 & M4 & K4 & O4 & N4). rewrite E4.
  assert (Sk4 : stock (n :: D) (n :: T) (with_value env n 0) s4) by (apply (stock_declare D T env n s3 s4); auto; [apply Cm3|apply Cm4|congruence]).
  assert (Mo4 : mo s4 = mo s) by (rewrite (mo_eq _ _ O4); exact Mo3).
  assert (In4 : s_input s4 = s_input s) by (rewrite (obs_field s_input _ _ O4 obs_get_input); exact In3).
  assert (Ch4 : s_changed s4 = s_changed s) by (rewrite (obs_field s_changed _ _ O4 obs_get_changed); exact Ch3).
  assert (Fx : forall m w, In (m, w) L -> meaning s m = dcore w -> meaning s4 m = dcore w).
  { intros m w Im Mw. destruct Ap as (Ap1 & _ & Ap2). pose proof (Ap1 m w Im) as Pm. rewrite (M4 m Pm). destruct (list_eq_dec _ _ _) as [Em|_]; [|rewrite (Me3 m Pm); exact Mw].
    exfalso. apply (Ap2 n m Iv); [change m with (fst (m, w)); apply in_map, Im|auto]. }
  destruct i as [e|].
  - destruct G as (W & Eg & Nn & Dc & Vv). destruct Rq3 as [Rq Lq]. cbn [var_height] in HF.
    assert (Dc' : declared (n :: D) (names e)). { intros m Hm. destruct (Dc m Hm) as (X1 & x & X2 & X3). split; [exact X1|]. exists x. split; [right; exact X2|exact X3]. }
    assert (R4 : tied s4 q e). { apply raw_tied; [exact (stock_knows _ _ _ _ _ Sk4 Dc')|]. apply (raw_nodes s3); [|exact Rq]. intros z Hz. apply N4. lia. }
    assert (Pc4 : s_pc s4 = pc) by (rewrite <- (mo_pc s4), Mo4, mo_pc; exact Pc).
    destruct (Sk4 n P (ex_intro _ n (conj (or_introl eq_refl) eq_refl))) as (_ & b & Mn & Bn). rewrite (Bn (ex_intro _ n (conj (or_introl eq_refl) eq_refl))) in Mn.
    destruct (init_v (names e) [] (with_value env n 0) F n a e v (with_value env n 0 n) q s4 Cm4 P ltac:(rewrite (obs_field s_ety _ _ O4 obs_get_ety); exact Et3) HF R4 Nn Eg
      (stock_holds _ _ _ _ _ _ Sk4 Dc' (declared_nil _)) (incl_refl _) ltac:(rewrite Pc4; exact Vv) D4 Mn) as (s5 & E5 & R5 & P5).
    rewrite E5. unfold ret. exists s5. split; [reflexivity|]. pose proof R5 as (Q5 & O5 & _). split; [|split; [|split; [|split]]].
    + split; [exact (calm_qt _ _ Q5 Cm4)|]. split; [exact (shape_qt _ _ _ _ Q5 A4)|]. exact (stock_reset D T env n v s4 s5 P Sk4 R5).
    + rewrite (mo_eq _ _ O5). exact Mo4.
    + rewrite (obs_field s_input _ _ O5 obs_get_input). exact In4.
    + rewrite (obs_field s_changed _ _ O5 obs_get_changed). exact Ch4.
    + intros m w Im Mw. apply (fixed_qt s4 s5 m w Cm4 Q5); [exact (proj1 Ap m w Im)|exact (Fx m w Im Mw)].
  - cbn [starts] in G. subst v. cbn [expr_list]. unfold ret. exists s4. split; [reflexivity|]. split; [split; [exact Cm4|split; [exact A4|exact Sk4]]|]. auto.
Qed.
End Line.
