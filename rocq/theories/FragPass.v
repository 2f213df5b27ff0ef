(** One pass over a program of the fragment. *)
From Coq Require Import String Lia.
From Verif Require Import Base BaseProofs Hash Dict DictProofs DictMore Str Opcodes OpcodesProofs Err State Sym Machine Build Pass
  GenX Gen Inv SymProofs Sem ListRel ExprProofs ExprMore OpProofs OpMore InstrProofs InstrMore DataProofs DataMore DefProofs BadProofs DataWalk OpWalk
  Colon Layout LineProofs LineTwo LineThree LineFour LineFive PassProofs Frag.
Open Scope string_scope.
Open Scope list_scope.
Open Scope Z_scope.
Open Scope m_scope.

(** a line of the fragment *)
Definition okl (c02 ill : bool) (F : nat) (l : tline) : Prop :=
  match move_of l with Some e => okexpr F e | None => okline c02 ill F l end.
(** what it does *)
Record pres (l : tline) (s s' : state) : Prop := mkPres {
  p_main : match move_of l with Some e => mres e s s' | None => lres l s s' end;
  p_total : 0 <= s_total s -> 0 <= s_total s';
  p_recs : lrecs l s s' }.

Lemma move_def l e : move_of l = Some e -> ldef l = None /\ t_label l = None /\ need_names (t_stmt l) = names e /\ stmt_names (t_stmt l) = names e.
Proof. unfold move_of, ldef. destruct (t_label l); [discriminate|]. destruct (t_stmt l); try discriminate; intros [= ->]; auto. Qed.
Lemma okline_ldef c02 ill F l n : okline c02 ill F l -> ldef l = Some n -> plain n.
Proof.
  unfold okline, ldef. destruct (t_stmt l), (t_label l); intros H E; try discriminate E; try (injection E as <-); try tauto.
  destruct H; discriminate.
Qed.
Lemma okl_ldef c02 ill F l n : okl c02 ill F l -> ldef l = Some n -> plain n.
Proof. unfold okl. destruct (move_of l) eqn:O; [destruct (move_def _ _ O) as [-> _]; discriminate|apply okline_ldef]. Qed.
Lemma need_stmt st n : In n (need_names st) -> In n (stmt_names st).
Proof.
  destruct st; cbn [need_names stmt_names]; auto. unfold lnames. rewrite !in_flat_map. intros (i & H1 & H2). exists i. split; auto.
  destruct i as [e|]; cbn in *; auto. destruct e; cbn in *; auto; contradiction.
Qed.
Lemma okline_names c02 ill F l n : okline c02 ill F l -> In n (stmt_names (t_stmt l)) -> plain n.
Proof.
  unfold okline. pose proof (okstmt_names c02 ill F (t_stmt l)) as H.
  destruct (t_stmt l); intros K; try (exact (H (proj1 K) n)). cbn [stmt_names]. destruct K as (_ & _ & _ & _ & X & _). exact (X n).
Qed.

(** a line that does not move the program counter to 0 or below, whatever the names are *)
Definition positive (l : tline) : Prop := forall e, move_of l = Some e -> forall C pc v, 1 <= pc -> value_at C pc e = Some v -> 1 <= v.

Section Line.
Variables (c02 ill : bool) (F : nat) (l : tline) (s s' : state).
Hypothesis OK : okl c02 ill F l.
Hypothesis G : good s.
Hypothesis H : pres l s s'.
Lemma pres_good : good s'. Proof. destruct H as [M _ _]. destruct (move_of l); apply M. Qed.
Lemma pres_lk : lk s s'. Proof. destruct H as [M _ _]. destruct (move_of l); apply M. Qed.
Lemma pres_kept : kept s s'. Proof. destruct H as [M _ _]. destruct (move_of l); apply M. Qed.
Lemma pres_errs : s_errs s' = s_errs s. Proof. destruct H as [M _ _]. destruct (move_of l); apply M. Qed.
Lemma pres_ff : ff s' = ff s. Proof. destruct H as [M _ _]. destruct (move_of l); [apply M|apply fr_ff, M]. Qed.
Lemma pres_changed : s_changed s <= s_changed s'.
Proof.
  destruct H as [M _ _]. destruct (move_of l) as [e|]; [rewrite (o_changed _ _ _ M); lia|]. pose proof (l_def _ _ _ M) as D.
  destruct (ldef l); [destruct D as (v & _ & _ & ->)|lia]. destruct (_ =? _); lia.
Qed.
Lemma pres_pc : positive l -> 1 <= s_pc s -> 1 <= s_pc s'.
Proof.
  intros Po Pc. destruct H as [M _ _]. unfold positive in Po. destruct (move_of l) as [e|]; [apply (Po e eq_refl _ _ _ Pc (o_pc _ _ _ M))|]. pose proof (l_pc _ _ _ M). lia.
Qed.
(** the other names *)
Lemma pres_other m : plain m -> (forall n, ldef l = Some n -> fk m <> fk n) -> meaning s' m = meaning s m.
Proof. intros Pm Hm. destruct H as [M _ _]. destruct (move_of l) as [e|]; [apply (o_meaning _ _ _ M); auto|apply (l_other _ _ _ M); auto]. Qed.
Lemma pres_def n : ldef l = Some n -> exists v, lvalue (meaning s) (s_pc s) l = Some v /\ (forall m, plain m -> fk m = fk n -> meaning s' m = dcore v) /\
                        s_changed s' = s_changed s + (if craw (meaning s n) =? v then 0 else 1).
Proof.
  intros D. destruct H as [M _ _]. destruct (move_of l) as [e|] eqn:O; [destruct (move_def _ _ O) as [E _]; congruence|].
  pose proof (l_def _ _ _ M) as X. rewrite D in X. exact X.
Qed.
Lemma defined_or m : (exists n, ldef l = Some n /\ fk m = fk n) \/ (forall n, ldef l = Some n -> fk m <> fk n).
Proof.
  destruct (ldef l) as [n|]; [|right; discriminate]. destruct (streq (fk m) (fk n)) eqn:E.
  - left. exists n. split; auto. apply streq_eq, E.
  - right. intros n0 E0 X. injection E0 as <-. apply streq_eq in X. congruence.
Qed.
Lemma pres_init m : plain m -> cinit (meaning s m) = true -> cinit (meaning s' m) = true.
Proof.
  intros Pm I. destruct (defined_or m) as [(n & D & E)|E].
  - destruct (pres_def n D) as (v & _ & X & _). rewrite (X m Pm E). reflexivity.
  - rewrite (pres_other m Pm E). exact I.
Qed.
Lemma pres_init_def n : ldef l = Some n -> cinit (meaning s' n) = true.
Proof. intros D. destruct (pres_def n D) as (v & _ & X & _). rewrite (X n (okl_ldef _ _ _ _ _ OK D) eq_refl). reflexivity. Qed.
Lemma pres_init_back m : plain m -> cinit (meaning s' m) = true -> cinit (meaning s m) = true \/ exists n, ldef l = Some n /\ fk m = fk n.
Proof. intros Pm I. destruct (defined_or m) as [X|E]; [right; exact X|left]. rewrite <- (pres_other m Pm E). exact I. Qed.
Lemma pres_raw m : s_changed s' = s_changed s -> plain m -> craw (meaning s' m) = craw (meaning s m).
Proof.
  intros C Pm. destruct (defined_or m) as [(n & D & E)|E].
  - destruct (pres_def n D) as (v & _ & X & Y). rewrite (X m Pm E).
    rewrite (fk_meaning s m n (g_scope _ G) E Pm (okl_ldef _ _ _ _ _ OK D) (g_tab _ G)). destruct (Z.eqb_spec (craw (meaning s n)) v); [cbn; auto|lia].
  - rewrite (pres_other m Pm E). reflexivity.
Qed.
Lemma pres_label t (n := uncolon t) : t_label l = Some t -> s_changed s' = s_changed s -> craw (meaning s n) = s_pc s.
Proof.
  intros L C. assert (D : ldef l = Some n) by (unfold ldef; rewrite L; reflexivity).
  destruct (pres_def n D) as (v & V & _ & Y). unfold lvalue in V. rewrite L in V. injection V as <-. destruct (Z.eqb_spec (craw (meaning s n)) (s_pc s)); [auto|lia].
Qed.
Lemma clean_eq c c' : clean c -> clean c' -> craw c = craw c' -> cinit c = cinit c' -> c = c'.
Proof. intros (v & i & ->) (v' & i' & ->). cbn. intros -> ->. reflexivity. Qed.
Lemma pres_const : s_changed s' = s_changed s -> (forall n, ldef l = Some n -> cinit (meaning s n) = true) ->
  forall m, plain m -> meaning s' m = meaning s m.
Proof.
  intros C D m Pm. destruct (defined_or m) as [(n & E & Ef)|E]; [|apply pres_other; auto].
  apply clean_eq; [apply pres_good; auto|apply G; auto|apply pres_raw; auto|].
  assert (I : cinit (meaning s m) = true). { rewrite (fk_meaning s m n (g_scope _ G) Ef Pm (okl_ldef _ _ _ _ _ OK E) (g_tab _ G)). auto. }
  rewrite I. apply pres_init; auto.
Qed.
Lemma pres_entered : entered s' (need_names (t_stmt l)).
Proof.
  destruct H as [M _ _]. destruct (move_of l) as [e|] eqn:O; [destruct (move_def _ _ O) as (_ & _ & -> & _)|]; apply M.
Qed.
End Line.

(** ** The lines of the program *)
Section Lines.
Variables (c02 ill : bool) (F : nat).
Notation okls := (Forall (okl c02 ill F)).
Notation run := (run pres).
Ltac inv_run R := inversion R as [? ? S|? ? ? s0 s1 ? S Pl R1]; subst.
Ltac uncons OK := let Ol := fresh "Ol" in let Or := fresh "Or" in inversion OK as [|? ? Ol Or]; subst.
Lemma run_good ls s s' : run ls s s' -> good s -> good s'.
Proof. induction 1 as [s s' S|l ls s s0 s1 s2 S Pl R IH]; intros G; [exact (same_good _ _ S G)|apply IH, (pres_good l s0); auto]. Qed.
Lemma run_kept ls s s' : run ls s s' -> kept s s'.
Proof.
  induction 1 as [s s' S|l ls s s0 s1 s2 S Pl R IH]; [exact (same_kept _ _ S)|].
  apply (kept_trans _ s0); [apply same_kept; auto|]. apply (kept_trans _ s1); auto. apply (pres_kept l); auto.
Qed.
Lemma run_errs ls s s' : run ls s s' -> s_errs s' = s_errs s.
Proof.
  induction 1 as [s s' S|l ls s s0 s1 s2 S Pl R IH]; [apply S|]. rewrite IH, (pres_errs l s0); auto. apply S.
Qed.
Lemma run_ff ls s s' : run ls s s' -> ff s' = ff s.
Proof. induction 1 as [s s' S|l ls s s0 s1 s2 S Pl R IH]; [apply S|]. rewrite IH, (pres_ff l s0); auto. apply S. Qed.
Lemma run_changed ls s s' : run ls s s' -> s_changed s <= s_changed s'.
Proof.
  induction 1 as [s s' S|l ls s s0 s1 s2 S Pl R IH]; [rewrite (sa_changed _ _ S); lia|].
  pose proof (pres_changed l s0 s1 Pl). rewrite (sa_changed _ _ S) in *. lia.
Qed.
Lemma run_init ls s s' : okls ls -> run ls s s' -> forall m, plain m -> cinit (meaning s m) = true -> cinit (meaning s' m) = true.
Proof.
  intros OK R. induction R as [s s' S|l ls s s0 s1 s2 S Pl R IH]; intros m Pm I; [rewrite (same_meaning _ _ S); auto|]. uncons OK.
  apply IH; auto. apply (pres_init l s0); auto. rewrite (same_meaning _ _ S). exact I.
Qed.
Lemma run_init_def ls s s' : okls ls -> run ls s s' -> forall l n, In l ls -> ldef l = Some n -> cinit (meaning s' n) = true.
Proof.
  intros OK R. induction R as [s s' S|l ls s s0 s1 s2 S Pl R IH]; intros l0 n Hl D; [destruct Hl|]. uncons OK. destruct Hl as [<-|Hl]; [|apply (IH Or l0); auto].
  apply (run_init _ _ _ Or R n); [apply (okl_ldef c02 ill F l); auto|apply (pres_init_def c02 ill F l s0); auto].
Qed.
Lemma run_init_back ls s s' : okls ls -> run ls s s' -> forall m, plain m -> cinit (meaning s' m) = true ->
  cinit (meaning s m) = true \/ exists l n, In l ls /\ ldef l = Some n /\ fk m = fk n.
Proof.
  intros OK R. induction R as [s s' S|l ls s s0 s1 s2 S Pl R IH]; intros m Pm I; [left; rewrite <- (same_meaning _ _ S); auto|]. uncons OK.
  destruct (IH Or m Pm I) as [I1|(l0 & n & A & B & C)]; [|right; exists l0, n; cbn; auto].
  destruct (pres_init_back l s0 s1 Pl m Pm I1) as [I0|(n & A & B)]; [left; rewrite <- (same_meaning _ _ S); auto|right; exists l, n; cbn; auto].
Qed.
Lemma run_split_changed l ls s s0 s1 s' : same s s0 -> pres l s0 s1 -> run ls s1 s' -> s_changed s' = s_changed s ->
  s_changed s1 = s_changed s0 /\ s_changed s' = s_changed s1.
Proof.
  intros S Pl R C. pose proof (pres_changed l s0 s1 Pl). pose proof (run_changed _ _ _ R). pose proof (sa_changed _ _ S). lia.
Qed.
Lemma run_raw ls s s' : okls ls -> run ls s s' -> good s -> s_changed s' = s_changed s -> forall m, plain m -> craw (meaning s' m) = craw (meaning s m).
Proof.
  intros OK R. induction R as [s s' S|l ls s s0 s1 s2 S Pl R IH]; intros G C m Pm; [rewrite (same_meaning _ _ S); auto|]. uncons OK.
  destruct (run_split_changed _ _ _ _ _ _ S Pl R C) as [C1 C2]. pose proof (same_good _ _ S G) as G0.
  rewrite IH; auto; [|apply (pres_good l s0); auto]. rewrite (pres_raw c02 ill F l s0 s1); auto. rewrite (same_meaning _ _ S). reflexivity.
Qed.
(** a label placed at a positive address already has that value if nothing changes *)
Lemma run_label ls s s' : okls ls -> Forall positive ls -> run ls s s' -> good s -> 1 <= s_pc s -> s_changed s' = s_changed s -> forall l n, In l ls -> t_label l = Some n -> 1 <= craw (meaning s (uncolon n)).
Proof.
  intros OK Po R. induction R as [s s' S|l ls s s0 s1 s2 S Pl R IH]; intros G Pc C l0 n Hl L; [destruct Hl|]. uncons OK.
  pose proof (Forall_inv Po) as Pl0. pose proof (Forall_inv_tail Po) as Po'.
  destruct (run_split_changed _ _ _ _ _ _ S Pl R C) as [C1 C2]. pose proof (same_good _ _ S G) as G0.
  assert (Pc0 : 1 <= s_pc s0) by (rewrite (sa_pc _ _ S); auto). rewrite <- (same_meaning _ _ S). destruct Hl as [<-|Hl].
  - rewrite (pres_label l s0 s1 Pl n L C1). exact Pc0.
  - assert (D : ldef l0 = Some (uncolon n)) by (unfold ldef; rewrite L; reflexivity).
    assert (Pn : plain (uncolon n)). { rewrite Forall_forall in Or. apply (okl_ldef c02 ill F l0); auto. }
    rewrite <- (pres_raw c02 ill F l s0 s1 Ol G0 Pl (uncolon n) C1 Pn). apply (IH Or Po') with (l := l0); auto; [apply (pres_good l s0); auto|apply (pres_pc l s0); auto].
Qed.
Lemma run_const ls s s' : okls ls -> run ls s s' -> good s -> s_changed s' = s_changed s -> (forall l n, In l ls -> ldef l = Some n -> cinit (meaning s n) = true) ->
  forall m, plain m -> meaning s' m = meaning s m.
Proof.
  intros OK R. induction R as [s s' S|l ls s s0 s1 s2 S Pl R IH]; intros G C D m Pm; [rewrite (same_meaning _ _ S); auto|]. uncons OK.
  destruct (run_split_changed _ _ _ _ _ _ S Pl R C) as [C1 C2]. pose proof (same_good _ _ S G) as G0.
  assert (K : forall m, plain m -> meaning s1 m = meaning s m).
  { intros m0 Pm0. rewrite <- (same_meaning _ _ S m0). apply (pres_const c02 ill F l s0 s1); auto. intros n Dn. rewrite (same_meaning _ _ S). apply (D l); cbn; auto. }
  rewrite <- (K m Pm). apply IH; auto; [apply (pres_good l s0); auto|]. intros l0 n Hl Dn.
  rewrite K; [apply (D l0); cbn; auto|]. rewrite Forall_forall in Or. apply (okl_ldef c02 ill F l0); auto.
Qed.
Lemma run_entered ls s s' : okls ls -> run ls s s' -> forall l, In l ls -> entered s' (need_names (t_stmt l)).
Proof.
  intros OK R. induction R as [s s' S|l ls s s0 s1 s2 S Pl R IH]; intros l0 Hl; [destruct Hl|]. uncons OK. destruct Hl as [<-|Hl]; [|apply IH; auto].
  apply (entered_kept s1); [apply (run_kept _ _ _ R)| |apply (pres_entered l s0); auto]. intros n Hn. unfold okl in Ol.
  destruct (move_of l) as [e|] eqn:O; [destruct (move_def _ _ O) as (_ & _ & E & _); rewrite E in Hn; destruct Ol as (_ & _ & X & _); auto|].
  apply (okline_names _ _ _ _ _ Ol), need_stmt, Hn.
Qed.
End Lines.

(** ** Names without a value *)
Lemma dl_record s n y : tab s -> valids n -> dl s n = Some y -> exists k, In (k, y) (all_records s).
Proof.
  intros T V D. rewrite (dl_recs s n (proj1 T) V) in D. unfold recs, vals, stackof in D.
  destruct (filter (matches n) (concat (dtable (s_dict s)))) as [|e r] eqn:E; [discriminate|]. cbn [map] in D.
  assert (He : In e (concat (dtable (s_dict s)))). { apply (proj1 (filter_In (matches n) e _)). rewrite E. left; reflexivity. }
  exists (fst e). unfold all_records. apply in_flat_map. exists e. split; auto. rewrite D. left; reflexivity.
Qed.
Lemma resolved s n : good s -> unresolved_symbol_count s = 0 -> plain n -> dl s n <> None -> cinit (meaning s n) = true.
Proof.
  intros G U Pn D. destruct (dl s n) as [y|] eqn:E; [|congruence].
  destruct (dl_record s n y (g_tab _ G) (proj1 Pn) E) as (k & Hk).
  assert (Uy : unresolved y = false).
  { destruct (unresolved y) eqn:X; auto. exfalso. unfold unresolved_symbol_count in U.
    assert (Hf : In (k, y) (filter (fun e => unresolved (snd e)) (all_records s))) by (apply filter_In; auto).
    destruct (filter (fun e => unresolved (snd e)) (all_records s)); [destruct Hf|cbn [length] in U; lia]. }
  pose proof (g_pm _ G n y Pn E) as Pm. destruct (g_clean _ G n Pn) as (v & i & Ec).
  assert (Em : meaning s n = ycore y). { unfold meaning. rewrite (g_scope _ G). unfold resolve. rewrite E. reflexivity. }
  rewrite Em in *. unfold ycore in *. cbn [cinit]. injection Ec as E1 E2 E3 E4 E5. unfold unresolved in Uy. rewrite E3, E4, E5, Pm in Uy. cbn in Uy.
  rewrite !andb_true_r in Uy. destruct (y_init y); auto.
Qed.
Lemma known_unknown C e : (forall n, In n (names e) -> clean (C n) /\ cinit (C n) = true) -> unknown_name C e = false.
Proof.
  intros H. unfold unknown_name. destruct (existsb _ (names e)) eqn:E; auto. apply existsb_exists in E. destruct E as (n & Hn & U).
  destruct (H n Hn) as [(v & i & Ec) I]. rewrite Ec in *. cbn in *. subst i. discriminate.
Qed.
Lemma known_stmt C st : (forall n, In n (need_names st) -> clean (C n) /\ cinit (C n) = true) -> stmt_known C st.
Proof.
  destruct st; cbn [need_names stmt_known]; auto; intros H.
  - unfold form_names in H. destruct (form f) as [|[m e]]; auto. apply known_unknown; auto.
  - apply forallb_forall. intros i Hi. apply negb_true_iff. destruct i as [e|raw]; cbn [item_unknown]; auto. unfold inner.
    assert (Hn : forall n, In n (inner_names e) -> clean (C n) /\ cinit (C n) = true). { intros n Hn. apply H. unfold lnames. apply in_flat_map. exists (IExpr e). auto. }
    unfold inner_names in Hn. destruct e; auto; apply known_unknown; auto.
Qed.

(** ** The values agree with the addresses *)
Section Fits.
Variables (c02 ill : bool).
Fixpoint fits (C : cstr -> core_t) (pc : Z) (ls : list tline) : Prop :=
  match ls with
  | [] => True
  | l :: ls => match move_of l with
               | Some e => exists v, value_at C pc e = Some v /\ fits C v ls
               | None => (forall n, ldef l = Some n -> exists v, lvalue C pc l = Some v /\ C n = dcore v) /\ stmt_known C (t_stmt l) /\
                         exists k, stmt_size c02 ill (fun n => cval (C n)) pc (t_stmt l) = Some k /\ fits C (pc + k) ls
               end
  end.
Definition line_names (l : tline) : list cstr := match ldef l with Some n => [n] | None => [] end ++ stmt_names (t_stmt l).
Lemma line_names_plain F l : okl c02 ill F l -> forall n, In n (line_names l) -> plain n.
Proof.
  unfold line_names. intros OK n H. apply in_app_or in H. destruct H as [H|H].
  - destruct (ldef l) as [m|] eqn:E; [|destruct H]. destruct H as [<-|[]]. apply (okl_ldef c02 ill F l); auto.
  - unfold okl in OK. destruct (move_of l) as [e|] eqn:O; [|apply (okline_names c02 ill F l); auto].
    destruct (move_def _ _ O) as (_ & _ & _ & E). rewrite E in H. destruct OK as (_ & _ & X & _). auto.
Qed.
Lemma value_at_ext C C' pc e : (forall n, In n (names e) -> C n = C' n) -> value_at C pc e = value_at C' pc e.
Proof. intros H. unfold value_at. apply item_value_at_ext. intros n Hn. rewrite (H n Hn). reflexivity. Qed.
Lemma lvalue_ext C C' pc l : (forall n, In n (stmt_names (t_stmt l)) -> C n = C' n) -> lvalue C pc l = lvalue C' pc l.
Proof.
  unfold lvalue. destruct (t_label l); auto. destruct (t_stmt l); auto. cbn [stmt_names]. intros H. unfold value_at.
  apply item_value_at_ext. intros n Hn. rewrite (H n Hn). reflexivity.
Qed.
Lemma fits_ext C C' ls : (forall l n, In l ls -> In n (line_names l) -> C n = C' n) -> forall pc, fits C pc ls -> fits C' pc ls.
Proof.
  induction ls as [|l ls IH]; cbn [fits]; auto. intros H pc.
  assert (H1 : forall l0 n, In l0 ls -> In n (line_names l0) -> C n = C' n) by (intros; apply (H l0); cbn; auto).
  assert (H2 : forall n, In n (stmt_names (t_stmt l)) -> C n = C' n). { intros n Hn. apply (H l); cbn; auto. unfold line_names. apply in_or_app. auto. }
  destruct (move_of l) as [e|] eqn:O.
  { intros (v & V & X). exists v. split; [|apply IH; auto]. rewrite <- V. symmetry. apply value_at_ext. intros n Hn. apply H2. destruct (move_def _ _ O) as (_ & _ & _ & ->). exact Hn. }
  intros (A & B & k & D & E). split; [|split].
  - intros n Hn. destruct (A n Hn) as (v & V1 & V2). exists v. rewrite <- (lvalue_ext C C' pc l H2). split; auto. rewrite <- V2. symmetry.
    apply (H l); cbn; auto. unfold line_names. rewrite Hn. left; reflexivity.
  - apply (stmt_known_ext C); auto.
  - exists k. split; [|apply IH; auto]. rewrite <- D. symmetry. apply stmt_size_ext. intros n Hn. rewrite (H2 n Hn). reflexivity.
Qed.
End Fits.

Lemma ff_eq_c02 s s' : ff s' = ff s -> s_c02 s' = s_c02 s. Proof. unfold ff. congruence. Qed.
Lemma ff_eq_ill s s' : ff s' = ff s -> s_ill s' = s_ill s. Proof. unfold ff. congruence. Qed.
Lemma ff_eq_c64 s s' : ff s' = ff s -> s_c64 s' = s_c64 s. Proof. unfold ff. congruence. Qed.
Lemma ff_eq_final s s' : ff s' = ff s -> s_final s' = s_final s. Proof. unfold ff. congruence. Qed.
Lemma ff_eq_opened s s' : ff s' = ff s -> s_opened s' = s_opened s. Proof. unfold ff. congruence. Qed.
Lemma ff_eq_skip s s' : ff s' = ff s -> s_skip s' = s_skip s. Proof. unfold ff. congruence. Qed.
Lemma ff_eq_macdef s s' : ff s' = ff s -> s_macdef s' = s_macdef s. Proof. unfold ff. congruence. Qed.
Lemma ff_eq_fstack s s' : ff s' = ff s -> s_fstack s' = s_fstack s. Proof. unfold ff. congruence. Qed.
Lemma ff_eq_cfg s s' : ff s' = ff s -> s_cfg s' = s_cfg s. Proof. unfold ff. congruence. Qed.

Lemma run_fits F ls s s' : Forall (okl (s_c02 s) (s_ill s) F) ls -> run pres ls s s' -> good s -> s_changed s' = s_changed s ->
  (forall l n, In l ls -> ldef l = Some n -> cinit (meaning s n) = true) ->
  (forall l n, In l ls -> In n (need_names (t_stmt l)) -> cinit (meaning s n) = true) ->
  fits (s_c02 s) (s_ill s) (meaning s) (s_pc s) ls.
Proof.
  intros OK R. induction R as [s s' S|l ls s s0 s1 s2 S Pl R IH]; intros G C D N; cbn [fits]; auto. inversion OK as [|? ? Ol Or]; subst.
  destruct (run_split_changed l ls s s0 s1 s2 S Pl R C) as [C1 C2]. pose proof (same_good _ _ S G) as G0.
  pose proof (ff_eq_c02 _ _ (sa_ff _ _ S)) as E02. pose proof (ff_eq_ill _ _ (sa_ff _ _ S)) as Eill.
  pose proof (pres_ff l s0 s1 Pl) as Ff.
  assert (K0 : forall m, plain m -> meaning s1 m = meaning s0 m).
  { apply (pres_const (s_c02 s) (s_ill s) F l s0 s1); auto. intros n Dn. rewrite (same_meaning _ _ S). apply (D l); cbn; auto. }
  assert (K : forall m, plain m -> meaning s1 m = meaning s m). { intros m Pm. rewrite K0, (same_meaning _ _ S); auto. }
  assert (Pn : forall l0 n, In l0 ls -> In n (line_names l0) -> plain n). { intros l0 n Hl. rewrite Forall_forall in Or. apply (line_names_plain (s_c02 s) (s_ill s) F); auto. }
  assert (X : fits (s_c02 s) (s_ill s) (meaning s) (s_pc s1) ls).
  { apply (fits_ext _ _ (meaning s1)); [intros l0 n Hl Hn; apply K; eauto|].
    rewrite <- E02, <- Eill, <- (ff_eq_c02 _ _ Ff), <- (ff_eq_ill _ _ Ff). apply IH; auto.
    - rewrite (ff_eq_c02 _ _ Ff), (ff_eq_ill _ _ Ff), E02, Eill. exact Or.
    - apply (pres_good l s0); auto.
    - intros l0 n Hl Dn. rewrite K; [apply (D l0); cbn; auto|]. apply (Pn l0); auto. unfold line_names. rewrite Dn. left; reflexivity.
    - intros l0 n Hl Hn. rewrite K; [apply (N l0); cbn; auto|]. apply (Pn l0); auto. unfold line_names. apply in_or_app. right. apply need_stmt, Hn. }
  pose proof (line_names_plain _ _ _ _ Ol) as Pl0.
  destruct (move_of l) as [e|] eqn:O.
  - destruct Pl as [M _ _]. rewrite O in M. exists (s_pc s1). split; [|exact X]. rewrite <- (sa_pc _ _ S), <- (o_pc _ _ _ M). apply value_at_ext. intros n _. symmetry. apply (same_meaning _ _ S).
  - assert (Ml : lres l s0 s1) by (destruct Pl as [M _ _]; rewrite O in M; exact M).
    assert (Kn : stmt_known (meaning s) (t_stmt l)).
    { apply known_stmt. intros n Hn. split; [|apply (N l); cbn; auto]. apply G, Pl0. unfold line_names. apply in_or_app. right. apply need_stmt, Hn. }
    split; [|split; [exact Kn|]].
    + intros n Dn. destruct (pres_def l s0 s1 Pl n Dn) as (v & V1 & V2 & _). exists v.
      assert (Pln : plain n). { apply Pl0. unfold line_names. rewrite Dn. left; reflexivity. }
      rewrite (lvalue_ext (meaning s) (meaning s0)) by (intros m Hm; symmetry; apply (same_meaning _ _ S)). rewrite <- (sa_pc _ _ S). split; auto.
      rewrite <- (K n Pln). apply V2; auto.
    + destruct (l_size _ _ _ Ml K0) as (k & K1 & K2); [apply (stmt_known_ext (meaning s)); auto; intros m Hm; symmetry; apply (same_meaning _ _ S)|].
      exists k. rewrite E02, Eill, (sa_pc _ _ S) in K1. rewrite K2, (sa_pc _ _ S) in X. split; [|exact X].
      rewrite <- K1. apply stmt_size_ext. intros n Hn. unfold env. rewrite (same_meaning _ _ S). reflexivity.
Qed.

Definition agree (C : cstr -> core_t) (s : state) : Prop := forall m, plain m -> meaning s m = C m.
Definition bare (l : tline) : Prop := move_of l = None.
(** a line whose values fit leaves them as they are *)
Lemma final_const c02 ill F C l ls s s' : okl c02 ill F l -> bare l -> good s -> agree C s -> fits c02 ill C (s_pc s) (l :: ls) -> pres l s s' -> agree C s'.
Proof.
  intros Ol B G A Ft Pl m Pm. unfold bare in B. cbn [fits] in Ft. rewrite B in Ft. destruct Ft as (D & _).
  destruct (defined_or l m) as [(n & E & Ef)|E]; [|rewrite (pres_other l s s' Pl m Pm E); auto].
  destruct (pres_def l s s' Pl n E) as (v & V1 & V2 & _). rewrite (V2 m Pm Ef). destruct (D n E) as (w & W1 & W2).
  pose proof (okl_ldef c02 ill F l n Ol E) as Pn.
  rewrite (lvalue_ext C (meaning s)) in W1.
  - assert (w = v) as -> by congruence. rewrite <- W2, <- (A n Pn), <- (A m Pm). apply fk_meaning; auto; apply G.
  - intros k Hk. symmetry. apply A. apply (line_names_plain c02 ill F l Ol). unfold line_names. apply in_or_app. auto.
Qed.
Lemma move_to c02 ill F C l e s s' v : okl c02 ill F l -> move_of l = Some e -> agree C s -> mres e s s' -> value_at C (s_pc s) e = Some v -> v = s_pc s'.
Proof.
  intros Ol B A M V. unfold okl in Ol. rewrite B in Ol. destruct Ol as (_ & _ & X & _). pose proof (o_pc _ _ _ M) as P.
  rewrite (value_at_ext _ C) in P by (intros n Hn; apply A; auto). congruence.
Qed.
Section End.
Variables (c02 ill : bool).
(** the address after the lines *)
Fixpoint fend (C : cstr -> core_t) (pc : Z) (ls : list tline) : Z :=
  match ls with
  | [] => pc
  | l :: ls => match move_of l with
               | Some e => match value_at C pc e with Some v => fend C v ls | None => pc end
               | None => match stmt_size c02 ill (fun n => cval (C n)) pc (t_stmt l) with Some k => fend C (pc + k) ls | None => pc end
               end
  end.
Lemma run_end F C ls s s' : run pres ls s s' -> Forall (okl c02 ill F) ls -> s_c02 s = c02 -> s_ill s = ill -> good s -> agree C s ->
  fits c02 ill C (s_pc s) ls -> s_pc s' = fend C (s_pc s) ls /\ agree C s'.
Proof.
  intros R. induction R as [s s' S|l ls s s0 s1 s2 S Pl R IH]; intros O E1 E2 G A Ft.
  - cbn [fend]. split; [apply S|]. intros m Pm. rewrite (same_meaning _ _ S). auto.
  - pose proof (Forall_inv O) as Ol. pose proof (same_good _ _ S G) as G0. assert (A0 : agree C s0) by (intros m Pm; rewrite (same_meaning _ _ S); auto).
    rewrite <- (ff_eq_c02 _ _ (sa_ff _ _ S)) in E1. rewrite <- (ff_eq_ill _ _ (sa_ff _ _ S)) in E2.
    pose proof (pres_ff l s0 s1 Pl) as Ff. rewrite <- (sa_pc _ _ S) in *. cbn [fend].
    assert (N : agree C s1 /\ fits c02 ill C (s_pc s1) ls /\ s_pc s2 = s_pc s2 /\
      match move_of l with Some e => value_at C (s_pc s0) e = Some (s_pc s1) | None => stmt_size c02 ill (fun n => cval (C n)) (s_pc s0) (t_stmt l) = Some (s_pc s1 - s_pc s0) end).
    { destruct (move_of l) as [e|] eqn:B.
      - destruct Pl as [M _ _]. rewrite B in M. cbn [fits] in Ft. rewrite B in Ft. destruct Ft as (v & V1 & V2).
        pose proof (move_to _ _ _ _ _ _ _ _ _ Ol B A0 M V1) as ->.
        split; [intros m Pm; rewrite (o_meaning _ _ _ M); auto|auto].
      - pose proof (final_const c02 ill F C l ls s0 s1 Ol B G0 A0 Ft Pl) as A1. split; auto. pose proof Pl as [M _ _]. rewrite B in M.
        assert (Pn : forall n, In n (stmt_names (t_stmt l)) -> plain n). { intros n Hn. apply (line_names_plain c02 ill F l Ol). unfold line_names. apply in_or_app. auto. }
        cbn [fits] in Ft. rewrite B in Ft. destruct Ft as (_ & Kn & k & K1 & K2).
        destruct (l_size _ _ _ M) as (k' & K3 & K4).
        { intros m Pm. rewrite A1, A0; auto. }
        { apply (stmt_known_ext C); auto. intros n Hn. symmetry. apply A0; auto. }
        rewrite E1, E2, (stmt_size_ext c02 ill (env s0) (fun n => cval (C n))) in K3 by (intros n Hn; unfold env; rewrite A0; auto).
        assert (k' = k) as -> by congruence. rewrite K4. split; auto. split; auto. rewrite K1. f_equal. lia. }
    destruct N as (A1 & Ft1 & _ & N). rewrite <- (ff_eq_c02 _ _ Ff) in E1. rewrite <- (ff_eq_ill _ _ Ff) in E2.
    destruct (IH (Forall_inv_tail O) E1 E2 (pres_good _ _ _ Pl) A1 Ft1) as [P2 A2]. split; auto. rewrite P2.
    destruct (move_of l) as [e|]; [rewrite N; reflexivity|]. rewrite N. f_equal. lia.
Qed.
End End.

