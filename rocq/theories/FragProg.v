(** Whole programs of the fragment: the analysis passes and the final pass. *)
From Coq Require Import String Lia.
From Verif Require Import Base BaseProofs Hash Dict DictProofs DictMore Str Opcodes OpcodesProofs Err State Sym Machine Build Pass
  GenX Gen Inv SymProofs SymMore Sem ListRel RecProofs ExprProofs ExprMore OpProofs OpMore InstrProofs InstrMore DataProofs DataMore DefProofs BadProofs DataWalk OpWalk
  Colon Layout LineProofs LineTwo LineThree LineFour LineFive PassProofs Frag FragPass.
Open Scope string_scope.
Open Scope list_scope.
Open Scope Z_scope.
Open Scope m_scope.

(** ** Between the passes *)
Lemma good_frame s s' : s_dict s' = s_dict s -> s_syms s' = s_syms s -> s_scope s' = None -> s_stop s' = false ->
  s_nodes s' = [] \/ s_nodes s' = s_nodes s -> good s -> good s'.
Proof.
  intros E1 E2 E3 E4 E5 G. assert (Ed : forall n, dl s' n = dl s n) by (intros n; unfold dl; rewrite E1, E2; reflexivity).
  assert (Em : forall n, meaning s' n = meaning s n).
  { intros n. unfold meaning. rewrite E3, (g_scope _ G). unfold resolve. rewrite Ed. reflexivity. }
  constructor; auto.
  - destruct (g_tab _ G) as (T1 & T2 & _). unfold tab, table_ok, single, recs in *. rewrite E1, E2, E3. split; [exact T1|split; [exact T2|discriminate]].
  - intros _. destruct E5 as [E5|E5]; rewrite E5; [intros [|p]; discriminate|]. rewrite E1, E2. intros p n a l N Pn. rewrite Ed. apply (g_own _ G (g_scope _ G) p n a l N Pn).
  - intros n Pn. rewrite Em. apply G; auto.
  - intros n Pn. rewrite Em. apply G; auto.
  - intros k V E. rewrite Ed. apply G; auto.
  - intros n y Pn. rewrite Ed. apply G; auto.
Qed.
Lemma good_reset s : good s -> good (reset_lex s).
Proof. intros G. apply (good_frame s); auto; apply G. Qed.
Lemma good_after s : good s -> good (after_pass s).
Proof. intros G. apply (good_frame s); auto. apply G. Qed.
Lemma meaning_reset s n : meaning (reset_lex s) n = meaning s n. Proof. reflexivity. Qed.
Lemma meaning_after s n : s_scope s = None -> meaning (after_pass s) n = meaning s n.
Proof. intros E. unfold meaning. rewrite E. reflexivity. Qed.
Lemma unres_after s : unresolved_symbol_count (after_pass s) = unresolved_symbol_count s. Proof. reflexivity. Qed.

Lemma Rout_total F l s a s' : run_line (expand F) l s = Ok a s' -> 0 <= s_total s -> 0 <= s_total s'.
Proof.
  intros E T. pose proof (run_line_prs2 (with_fix Rout) (with_fix Rout) (closed_steps _ Rout_closed) (closed_compound _ Rout_closed) (closed_b _ Rout_closed Rout_build) F l s) as X.
  unfold prs2 in X. rewrite E in X. destruct X as [_ (b & k & _ & H & _)]. lia.
Qed.

Lemma app_same_len {A} (a b c d : list A) : length a = length c -> a ++ b = c ++ d -> a = c /\ b = d.
Proof.
  revert c. induction a as [|x a IH]; intros [|y c]; cbn; try discriminate; [auto|]. intros [= L] [= -> E]. destruct (IH c L E) as [-> ->]. auto.
Qed.
Lemma okl_lines c02 ill F l : okl c02 ill F l -> sub_lines (t_stmt l) = [].
Proof.
  unfold okl, move_of, okline. destruct (t_label l), (t_stmt l); cbn [sub_lines]; try reflexivity; cbn [okstmt]; intros H; try destruct H as [H H']; try contradiction.
Qed.
Lemma line_recs F l s a s' : sub_lines (t_stmt l) = [] -> run_line (expand F) l s = Ok a s' -> ff s' = ff s -> lk s s' -> lrecs l s s'.
Proof.
  intros Sl E Ef [_ _ _ _ _ _ _ _ (k & K1 & K2 & _)]. assert (Fs : s_fstack s' = s_fstack s) by (unfold ff in Ef; congruence).
  destruct (run_line_recs F l s a s' Sl E) as (Ln & k' & K3 & K4); [rewrite Fs; reflexivity|].
  assert (k' = k) as -> by (apply (app_inv_tail (s_list s)); congruence).
  split; [exact Ln|]. exists (rev k). rewrite rev_involutive. split; [exact K1|]. apply Forall_rev. rewrite Forall_forall in *. intros r Hr. destruct (K2 r Hr) as (X1 & _ & _ & X2).
  split; [split; [exact X1|auto]|]. intros N. rewrite N in X2. exact X2.
Qed.
Section Prog.
Variables (c02 ill c64 : bool) (cfg : config) (F : nat) (prog : list tline).
Hypothesis F1 : (1 <= F)%nat.
Hypothesis Files : all_lines cfg (g_inputs cfg) prog.
Hypothesis OK : Forall (okl c02 ill F) prog.
Notation ffa := (fun fin op => (c02, ill, c64, fin, op, false, 0, @nil (cstr * Z), cfg)).

Lemma okl_run l s : okl (s_c02 s) (s_ill s) F l -> good s -> s_macdef s = 0 -> 0 <= s_total s ->
  (s_final s = true -> move_of l = None -> (silent (t_stmt l) = true \/ stmt_known (meaning s) (t_stmt l) /\ no_hole s /\ s_opened s = true) /\
                       forall t, t_label l = Some t -> meaning s (uncolon t) = dcore (s_pc s)) ->
  bad s (run_line (expand (S F)) l s) \/ exists s', run_line (expand (S F)) l s = Ok (Some tt) s' /\ pres l s s' /\ s_input s' = s_input s.
Proof.
  intros O G M T Fi. pose proof (okl_lines _ _ _ _ O) as Sl. unfold okl in O. destruct (move_of l) as [e|] eqn:Eo.
  - destruct (run_move F e l s Eo O G) as [B|(s' & E & R)]; [left; exact B|right]. exists s'. split; auto. split; [|apply R].
    constructor; [rewrite Eo; exact R|apply (Rout_total _ _ _ _ _ E)|]. apply (line_recs _ _ _ _ _ Sl E); apply R.
  - destruct (run_line_ok F l s G M O F1 T) as [B|(s' & E & R)]; [auto|left; exact B|right]. exists s'. split; auto. split.
    + constructor; [rewrite Eo; exact R|apply (Rout_total _ _ _ _ _ E)|]. apply (line_recs _ _ _ _ _ Sl E); [apply fr_ff|]; apply R.
    + rewrite <- (fr_get_input s'), (l_fr _ _ _ R), fr_get_input. reflexivity.
Qed.

Lemma pres_rec l s s' : pres l s s' -> s_file s' = s_file s /\ s_final s' = s_final s /\ lrecs l s s'.
Proof. intros H. split; [exact (f_equal fst (lk_tag _ _ (pres_lk _ _ _ H)))|]. split; [apply ff_final, (pres_ff _ _ _ H)|apply (p_recs _ _ _ H)]. Qed.
Lemma run_lkw ls s s' : run pres ls s s' -> lkw s s'.
Proof.
  intros R. induction R as [s s' S|l ls s s0 s1 s2 S Pl R IH]; [apply same_lkw, S|].
  apply (lkw_trans _ s0); [apply same_lkw, S|]. apply (lkw_trans _ s1); [apply lk_weak, (pres_lk _ _ _ Pl)|exact IH].
Qed.
(** ** An analysis pass *)
Definition QA (ls : list tline) (s : state) : Prop :=
  good s /\ ff s = ffa false false /\ 0 <= s_total s /\ Forall (okl c02 ill F) ls.
Lemma ffa_parts fin op s : ff s = ffa fin op -> s_c02 s = c02 /\ s_ill s = ill /\ s_c64 s = c64 /\ s_final s = fin /\ s_opened s = op /\ s_skip s = false /\
  s_macdef s = 0 /\ s_fstack s = [] /\ s_cfg s = cfg.
Proof. unfold ff. intros H. injection H as -> -> -> -> -> -> -> -> ->. auto 10. Qed.
Lemma analysis_files names ls s u s' : all_lines cfg names ls -> QA ls s -> parse_files (S F) names s = Ok u s' -> s_errs s' <= s_errs s ->
  run pres ls s s' /\ QA [] s' /\ (s_final s = true -> exists k, s_list s' = rev k ++ s_list s /\ all_blocks cfg names k).
Proof.
  intros A Q E Er. revert A Q E Er. apply files_run.
  - intros l0 a b S (G & Ef & T & O). split; [exact (same_good _ _ S G)|]. split; [rewrite (sa_ff _ _ S); exact Ef|]. rewrite (sa_total _ _ S). auto.
  - exact pres_rec.
  - intros l0 a (G & Ef & _). destruct (ffa_parts _ _ _ Ef) as (_ & _ & _ & _ & _ & X & _ & Y & Z0). auto.
  - intros l0 l1 a (G & Ef & T & O). inversion O as [|? ? Ol Or]; subst. destruct (ffa_parts _ _ _ Ef) as (E1 & E2 & _ & E4 & _ & _ & E7 & _ & _).
    destruct (okl_run l0 a) as [B|(b & Eb & Pb & Ib)]; auto; [rewrite E1, E2; exact Ol|rewrite E4; discriminate|]. right. exists b. split; auto. split; [|auto].
    split; [exact (pres_good _ _ _ Pb)|]. split; [rewrite (pres_ff _ _ _ Pb); exact Ef|]. split; [apply (p_total _ _ _ Pb), T|exact Or].
Qed.

(** what holds between two passes *)
Definition table_inv (s : state) : Prop :=
  good s /\ s_out s = [] /\ s_total s = 0 /\
  ((forall m, plain m -> cinit (meaning s m) = false) \/ (forall l n, In l prog -> ldef l = Some n -> cinit (meaning s n) = true)) /\
  (forall m, plain m -> cinit (meaning s m) = true -> exists l n, In l prog /\ ldef l = Some n /\ fk m = fk n) /\
  ff (reset_lex s) = ffa false false.
(** a pass that cannot have been the first one, with values missing: a label has a value other than 0, or nothing is defined *)
Definition anchored (s : state) : Prop :=
  (exists l n, In l prog /\ t_label l = Some n /\ cval (meaning s (uncolon n)) <> 0) \/ (forall l n, In l prog -> ldef l = Some n -> False).

Lemma reset_errs s : s_errs (reset_lex s) = 0. Proof. reflexivity. Qed.
Lemma analysis_pass s u s' : table_inv s -> parse_pass (S F) s = Ok u s' -> s_errs s' = 0 ->
  table_inv s' /\ (forall l n, In l prog -> ldef l = Some n -> cinit (meaning s' n) = true) /\
  (clean_state s' -> (forall l n, In l prog -> In n (need_names (t_stmt l)) -> cinit (meaning s' n) = true) /\
     (anchored s' -> fits c02 ill (meaning s') 4096 prog /\ s_pc s' = fend c02 ill (meaning s') 4096 prog) /\
     (Forall positive prog -> forall l n, In l prog -> t_label l = Some n -> cval (meaning s' (uncolon n)) <> 0)).
Proof.
  intros (G & Out & Tot & Ini & Dom & Ef) E Er. pose proof (parse_pass_out _ _ _ (ok_ends _ _ _ _ E)) as Po.
  rewrite parse_pass_eq in E. pose proof (good_reset s G) as G0. set (s0 := reset_lex s) in *.
  assert (Ec : s_cfg s = cfg). { destruct (ffa_parts _ _ _ Ef) as (_ & _ & _ & _ & _ & _ & _ & _ & X). exact X. }
  rewrite Ec in E. destruct (parse_files (S F) (g_inputs cfg) s0) as [u2 s2| | |] eqn:E2; try discriminate. injection E as _ <-.
  assert (Er2 : s_errs s2 = 0) by exact Er.
  assert (Q0 : QA prog s0). { split; [exact G0|]. split; [exact Ef|]. split; [|exact OK]. change (s_total s0) with (s_total s). lia. }
  destruct (analysis_files _ _ _ _ _ Files Q0 E2) as (R & (G2 & Ef2 & T2 & _) & Rf); [rewrite Er2; unfold s0; rewrite reset_errs; lia|].
  assert (M2 : forall n, meaning (after_pass s2) n = meaning s2 n) by (intros n; apply meaning_after, G2).
  assert (Dall : forall l n, In l prog -> ldef l = Some n -> cinit (meaning s2 n) = true) by (apply (run_init_def c02 ill F prog s0 s2 OK R)).
  destruct (ffa_parts _ _ _ Ef) as (_ & _ & _ & X4 & _).
  destruct Po as (_ & _ & _ & _ & (ob & O1 & O2 & _ & O4 & _) & _).
  split; [|split].
  - split; [apply good_after, G2|]. split; [|split; [|split; [|split]]].
    + rewrite O1, O4, Out; [reflexivity|exact X4].
    + rewrite O2, O4, Tot; [reflexivity|exact X4].
    + right. intros l n Hl D. rewrite M2. apply (Dall l); auto.
    + intros m Pm I. rewrite M2 in I. destruct (run_init_back c02 ill F _ _ _ OK R m Pm I) as [I0|X]; [apply Dom; auto|exact X].
    + destruct (ffa_parts _ _ _ Ef2) as (X1 & X2 & X3 & X4' & X5 & X6 & X7 & X8 & X9).
      change (ff (reset_lex (after_pass s2))) with (s_c02 s2, s_ill s2, s_c64 s2, s_final s2, s_opened s2, s_skip s2, 0, @nil (cstr * Z), s_cfg s2).
      rewrite X1, X2, X3, X4', X5, X6, X9. reflexivity.
  - intros l n Hl D. rewrite M2. apply (Dall l); auto.
  - intros (_ & Ch & Un). rewrite unres_after in Un. assert (Ch2 : s_changed s2 = s_changed s0) by exact Ch.
    assert (Nd : forall l n, In l prog -> In n (need_names (t_stmt l)) -> cinit (meaning s2 n) = true).
    { intros l n Hl Hn. apply resolved; auto; [|apply (run_entered c02 ill F prog s0 s2 OK R l Hl); auto].
      rewrite Forall_forall in OK. apply (line_names_plain c02 ill F l); auto. unfold line_names. apply in_or_app. right. apply need_stmt, Hn. }
    split; [intros l n Hl Hn; rewrite M2; eauto|].
    assert (Lab : forall l t (n := uncolon t), In l prog -> t_label l = Some t -> plain n /\ cval (meaning s2 n) = craw (meaning s0 n)).
    { intros l t n Hl L. assert (Pn : plain n). { rewrite Forall_forall in OK. apply (okl_ldef c02 ill F l); auto. unfold ldef. rewrite L. reflexivity. }
      split; [exact Pn|]. rewrite <- (run_raw c02 ill F prog s0 s2 OK R G0 Ch2 n Pn). assert (In2 : cinit (meaning s2 n) = true) by (apply (Dall l n Hl); unfold ldef; rewrite L; reflexivity). destruct (g_clean _ G2 n Pn) as (v & i & Ec2). rewrite Ec2 in *. cbn in In2. rewrite In2. reflexivity. }
    split.
    2: { intros Po l n Hl L. rewrite M2. destruct (Lab l n Hl L) as [_ ->].
         pose proof (run_label c02 ill F prog s0 s2 OK Po R G0) as X. specialize (X ltac:(change (s_pc s0) with 4096; lia) Ch2 l n Hl L). lia. }
    intros A.
    assert (D0 : forall l n, In l prog -> ldef l = Some n -> cinit (meaning s0 n) = true).
    { destruct Ini as [No|All]; [|exact All]. destruct A as [(l & n & Hl & L & V)|A]; [|intros l n Hl D; destruct (A l n Hl D)]. exfalso.
      rewrite M2 in V. destruct (Lab l n Hl L) as [Pn Ev]. apply V. rewrite Ev. apply (g_raw _ G0 (uncolon n) Pn), No, Pn. }
    pose proof (run_const c02 ill F prog s0 s2 OK R G0 Ch2 D0) as K.
    assert (Pn : forall l n, In l prog -> In n (line_names l) -> plain n). { intros l n Hl. rewrite Forall_forall in OK. apply (line_names_plain c02 ill F); auto. }
    destruct (ffa_parts _ _ _ Ef) as (X1 & X2 & _).
    assert (Ft : fits c02 ill (meaning (after_pass s2)) 4096 prog).
    2: { split; [exact Ft|]. apply (run_end c02 ill F (meaning (after_pass s2)) prog s0 s2 R OK X1 X2 G0); [|exact Ft]. intros m Pm. rewrite M2. symmetry. apply K; auto. }
    apply (fits_ext _ _ (meaning s0)); [intros l n Hl Hn; rewrite M2; symmetry; apply K; eauto|]. pose proof (run_fits F prog s0 s2) as Y. rewrite X1, X2 in Y. apply Y; auto.
    intros l n Hl Hn. rewrite <- K; [eauto|]. apply (Pn l); auto. unfold line_names. apply in_or_app. right. apply need_stmt, Hn.
Qed.

(** the pass loop *)
Lemma inv_set_pass p s : table_inv s -> table_inv (set_pass p s).
Proof. intros (G & A). split; [|exact A]. apply (good_frame s); auto; apply G. Qed.
Definition settled (s : state) : Prop :=
  table_inv s /\ (forall l n, In l prog -> ldef l = Some n -> cinit (meaning s n) = true) /\
  (clean_state s -> (forall l n, In l prog -> In n (need_names (t_stmt l)) -> cinit (meaning s n) = true) /\
     (anchored s -> fits c02 ill (meaning s) 4096 prog /\ s_pc s = fend c02 ill (meaning s) 4096 prog) /\
     (Forall positive prog -> forall l n, In l prog -> t_label l = Some n -> cval (meaning s (uncolon n)) <> 0)).
Lemma settled_anchored s : settled s -> clean_state s -> Forall positive prog ->
  (exists l n, In l prog /\ t_label l = Some n) \/ (forall l n, In l prog -> ldef l = Some n -> False) -> anchored s.
Proof. intros (_ & _ & N) Cl Po [(l & n & Hl & L)|A]; [left|right; exact A]. exists l, n. split; [exact Hl|]. split; [exact L|]. destruct (N Cl) as (_ & _ & X). exact (X Po l n Hl L). Qed.
Lemma loop_settled k : forall s cl s', table_inv s -> pass_loop (S F) k s = Ok cl s' -> s_errs s' = 0 -> settled s'.
Proof.
  induction k as [|k IH]; intros s cl s' I E Er; [discriminate|]. rewrite pass_loop_S in E. destruct (parse_pass (S F) s) as [u s1| | |] eqn:E1; try discriminate.
  cbv zeta in E. destruct (s_errs s1 =? 0) eqn:Z0.
  - apply Z.eqb_eq in Z0. destruct (analysis_pass s u s1 I E1 Z0) as (I1 & D1 & N1).
    destruct (true && _ && _); [apply (IH _ _ _ (inv_set_pass _ _ I1) E Er)|]. injection E as _ <-.
    split; [apply inv_set_pass, I1|]. split; [exact D1|exact N1].
  - cbn [andb] in E. injection E as _ <-. apply Z.eqb_neq in Z0. exfalso. apply Z0. exact Er.
Qed.

(** ** The final pass *)
Section Final.
Variable C : cstr -> core_t.
Notation agree := (agree C).
Definition QF (ls : list tline) (s : state) : Prop :=
  good s /\ ff s = ffa true true /\ 0 <= s_total s /\ Forall (okl c02 ill F) ls /\ agree s /\ fits c02 ill C (s_pc s) ls /\
  ((exists p ol e b, ls = p ++ ol :: b /\ Forall (fun l => bare l /\ silent (t_stmt l) = true) p /\ move_of ol = Some e /\ s_total s = 0) \/
   (s_org_spec s = true /\ no_hole s)).
Lemma silent_quiet F0 l : okline c02 ill F0 l -> silent (t_stmt l) = true -> is_assign (t_stmt l) = true \/ t_stmt l = SEmpty.
Proof. unfold okline. destruct (t_stmt l); cbn; intros H E; try discriminate; auto. Qed.
Lemma silent_size pc st en : silent st = true -> stmt_size c02 ill en pc st = Some 0 /\ stmt_bytes c02 ill en pc st = Some [].
Proof. destruct st; cbn; try discriminate; auto. Qed.

Lemma outs_app q q' b r s o o' : s_c64 o = s_c64 s -> s_origin o = s_origin s -> 0 <= s_total s -> outs q b s o -> outs q' r o o' -> outs (q && q') (b ++ r) s o'.
Proof.
  intros E1 E2 T. destruct q; cbn [outs andb].
  - intros (-> & A1 & A2). unfold outs. rewrite A1, A2, E1, E2. auto.
  - intros (A1 & A2) H. assert (X : if (s_total s =? 0) && s_c64 s then (s_total o =? 0) = false else (s_total o =? 0) && s_c64 o = false \/ s_total o = s_total s /\ b = []).
    { destruct ((s_total s =? 0) && s_c64 s) eqn:Eh; [apply Z.eqb_neq; lia|]. left. rewrite E1. destruct (s_c64 s); [|apply andb_false_r].
      rewrite andb_true_r in *. apply Z.eqb_neq in Eh. apply Z.eqb_neq. lia. }
    destruct q'; cbn [outs] in H.
    + destruct H as (-> & B1 & B2). rewrite app_nil_r, B1, B2. auto.
    + destruct H as (B1 & B2). destruct ((s_total s =? 0) && s_c64 s) eqn:Eh.
      * rewrite X in B1, B2. cbn [andb app] in B1, B2. rewrite B1, A1, B2, A2, rev_app_distr, app_length, <- app_assoc. split; auto. lia.
      * destruct X as [X|(X & ->)].
        -- rewrite X in B1, B2. cbn [app] in *. rewrite B1, A1, B2, A2, rev_app_distr, app_length, <- app_assoc. split; auto. lia.
        -- rewrite X, E1, Eh in B1, B2. rewrite A1 in B1. cbn [app rev] in *. rewrite B1, B2. split; auto.
Qed.

(** one line of the body *)
Lemma body_line l ls s s' : okl c02 ill F l -> bare l -> good s -> ff s = ffa true true -> 0 <= s_total s -> agree s -> fits c02 ill C (s_pc s) (l :: ls) ->
  s_org_spec s = true -> pres l s s' ->
  agree s' /\ exists b, stmt_bytes c02 ill (fun n => cval (C n)) (s_pc s) (t_stmt l) = Some b /\ s_pc s' = s_pc s + Z.of_nat (length b) /\ outs (silent (t_stmt l)) b s s' /\
  s_org_spec s' = true /\ s_origin s' = s_origin s /\ fits c02 ill C (s_pc s') ls /\ (no_hole s -> no_hole s').
Proof.
  intros Ol B G Ef T A Ft Os Pl. pose proof (final_const c02 ill F C _ _ _ _ Ol B G A Ft Pl) as A'. split; auto.
  destruct (ffa_parts _ _ _ Ef) as (E1 & E2 & E3 & E4 & E5 & _). pose proof Pl as [M Mt _]. rewrite B in M.
  assert (Pn : forall n, In n (stmt_names (t_stmt l)) -> plain n). { intros n Hn. apply (line_names_plain c02 ill F l Ol). unfold line_names. apply in_or_app. auto. }
  cbn [fits] in Ft. rewrite B in Ft. destruct Ft as (_ & Kn & k & K1 & K2).
  destruct (l_bytes _ _ _ M E4) as (b & B1 & B2 & B3); [rewrite E5, Os; reflexivity|]. exists b. rewrite E1, E2 in B1.
  rewrite (stmt_bytes_ext c02 ill (env s) (fun n => cval (C n))) in B1 by (intros n Hn; unfold env; rewrite A; auto).
  destruct (l_size _ _ _ M) as (k' & K3 & K4).
  { intros m Pm. rewrite A', A; auto. }
  { apply (stmt_known_ext C); auto. intros n Hn. symmetry. apply A; auto. }
  rewrite E1, E2, (stmt_size_ext c02 ill (env s) (fun n => cval (C n))) in K3 by (intros n Hn; unfold env; rewrite A; auto).
  assert (k' = k) as -> by congruence. pose proof (fr_eq_origin _ _ (l_fr _ _ _ M)) as Eo.
  split; auto. split; auto. split; auto. split; [apply (l_org _ _ _ M), Os|]. split; [exact Eo|]. split; [rewrite K4; exact K2|].
  unfold no_hole. intros Nh. rewrite Eo, B2. destruct (silent (t_stmt l)); [destruct B3 as (-> & _ & ->); cbn [length]; lia|]. destruct B3 as [_ ->]. destruct (_ && _); lia.
Qed.

Lemma QF_same ls s s' : same s s' -> QF ls s -> QF ls s'.
Proof.
  intros S (G & Ef & T & O & A & Ft & X). split; [exact (same_good _ _ S G)|]. split; [rewrite (sa_ff _ _ S); exact Ef|]. rewrite (sa_total _ _ S), (sa_pc _ _ S), (sa_org _ _ S).
  unfold no_hole in *. rewrite (sa_total _ _ S), (sa_pc _ _ S), (sa_origin _ _ S). split; auto. split; auto. split; [|auto].
  intros m Pm. rewrite (same_meaning _ _ S). auto.
Qed.
Lemma QF_step l ls s : QF (l :: ls) s -> bad s (run_line (expand (S F)) l s) \/
  exists s', run_line (expand (S F)) l s = Ok (Some tt) s' /\ QF ls s' /\ pres l s s' /\ s_input s' = s_input s.
Proof.
  intros (G & Ef & T & O & A & Ft & X). inversion O as [|? ? Ol Or]; subst. destruct (ffa_parts _ _ _ Ef) as (E1 & E2 & E3 & E4 & E5 & _ & E7 & _).
  destruct (okl_run l s) as [Bd|(s' & E & Pl & I)]; auto; [rewrite E1, E2; exact Ol| |].
  - intros _ B. pose proof Ft as Ft'. cbn [fits] in Ft'. rewrite B in Ft'. destruct Ft' as (D & Kn & _). split.
    + destruct X as [(p & ol & e & b & El & Sp & Eo & Tt)|(Os & Nh)].
      * destruct p as [|q p]; cbn [app] in El; injection El as -> ->; [congruence|]. destruct (Forall_inv Sp) as [_ Hs]. auto.
      * right. split; [|auto]. apply (stmt_known_ext C); auto. intros n Hn. symmetry. apply A. apply (line_names_plain c02 ill F l Ol). unfold line_names. apply in_or_app. auto.
    + intros n L. assert (Dn : ldef l = Some (uncolon n)) by (unfold ldef; rewrite L; reflexivity). destruct (D (uncolon n) Dn) as (v & V1 & V2).
      unfold lvalue in V1. rewrite L in V1. injection V1 as <-. rewrite A; auto. apply (okl_ldef c02 ill F l); auto.
  - right. exists s'. split; auto. split; [|auto]. split; [exact (pres_good _ _ _ Pl)|]. split; [rewrite (pres_ff _ _ _ Pl); exact Ef|].
    split; [apply (p_total _ _ _ Pl), T|]. split; [exact Or|].
    destruct (move_of l) as [e0|] eqn:B0.
    { pose proof Pl as [M _ _]. rewrite B0 in M. cbn [fits] in Ft. rewrite B0 in Ft. destruct Ft as (v & V & Ft). pose proof (move_to _ _ _ _ _ _ _ _ _ Ol B0 A M V) as ->.
      split; [intros m Pm; rewrite (o_meaning _ _ _ M); auto|]. split; [exact Ft|]. right. split; [apply M|]. unfold no_hole. rewrite (o_origin _ _ _ M), (o_total _ _ _ M). lia. }
    pose proof (final_const c02 ill F C _ _ _ _ Ol B0 G A Ft Pl) as A'. split; [exact A'|].
    destruct X as [(p & ol & e & b & El & Sp & Eo & Tt)|(Os & Nh)].
    + destruct p as [|q p]; cbn [app] in El; injection El as -> ->; [congruence|].
      destruct (Forall_inv Sp) as [_ Hs]. pose proof (Forall_inv_tail Sp) as Sp'.
      pose proof Pl as [M _ _]. rewrite B0 in M. cbn [fits] in Ft. rewrite B0 in Ft. destruct Ft as (_ & _ & k & K1 & K2). unfold okl in Ol. rewrite B0 in Ol.
      destruct (l_quiet _ _ _ M (silent_quiet _ _ Ol Hs)) as (Q1 & Q2 & Q3 & Q4 & Q5). destruct (silent_size (s_pc s) (t_stmt q) (fun n => cval (C n)) Hs) as [Z1 _].
      assert (k = 0) as -> by congruence. rewrite Z.add_0_r in K2. rewrite Q1. split; auto. left. exists p, ol, e, b. rewrite Q3. auto 6.
    + destruct (body_line l ls s s' Ol B0 G Ef T A Ft Os Pl) as (_ & b & _ & _ & _ & Os' & _ & Ft' & Nh').
      split; [exact Ft'|]. right. split; [exact Os'|exact (Nh' Nh)].
Qed.
Lemma final_files names ls s u s' : all_lines cfg names ls -> QF ls s -> parse_files (S F) names s = Ok u s' -> s_errs s' <= s_errs s ->
  run pres ls s s' /\ QF [] s' /\ (s_final s = true -> exists k, s_list s' = rev k ++ s_list s /\ all_blocks cfg names k).
Proof.
  intros Al Q E Er. revert Al Q E Er. apply files_run.
  - exact QF_same.
  - exact pres_rec.
  - intros l0 a (G & Ef & _). destruct (ffa_parts _ _ _ Ef) as (_ & _ & _ & _ & _ & X & _ & Y & Z0). auto.
  - exact QF_step.
Qed.

(** the layout of the lines before the .org and of those after it *)
Notation env' := (fun n => cval (C n)).
Lemma defs_ok l ls pc : okl c02 ill F l -> bare l -> fits c02 ill C pc (l :: ls) -> defs_hold env' pc l.
Proof.
  intros Ol B Ft. cbn [fits] in Ft. unfold okl in Ol. unfold bare in B. rewrite B in *. destruct Ft as (D & _). unfold defs_hold. unfold ldef, lvalue in D. unfold okline in Ol. split.
  - destruct (t_label l) as [n|]; auto. destruct (D (uncolon n) eq_refl) as (v & V1 & ->). injection V1 as <-. reflexivity.
  - destruct (t_stmt l) eqn:Es; auto. destruct Ol as (L & _). rewrite L in D. destruct (D _ eq_refl) as (v & V1 & ->). exact V1.
Qed.
Lemma pre_layout p r s s' : run pres p s s' -> Forall (okl c02 ill F) p -> Forall (fun l => bare l /\ silent (t_stmt l) = true) p ->
  good s -> agree s -> fits c02 ill C (s_pc s) (p ++ r) ->
  layout c02 ill env' (s_pc s) p [] /\ good s' /\ agree s' /\ fits c02 ill C (s_pc s') r /\ s_pc s' = s_pc s /\ s_out s' = s_out s /\ s_total s' = s_total s /\
  (exists k, s_list s' = k ++ s_list s /\ Forall (blank (s_pstate s)) k).
Proof.
  intros R. induction R as [s s' S|l ls s s0 s1 s2 S Pl R IH]; intros O Sp G A Ft.
  - cbn [app] in Ft. split; [constructor|]. split; [exact (same_good _ _ S G)|]. split; [intros m Pm; rewrite (same_meaning _ _ S); auto|].
    rewrite (sa_pc _ _ S), (sa_out _ _ S), (sa_total _ _ S). destruct (sa_list _ _ S) as (k & K1 & K2). eauto 12.
  - destruct (Forall_inv Sp) as [B Hs]. pose proof (Forall_inv O) as Ol. cbn [app] in Ft.
    pose proof (same_good _ _ S G) as G0. assert (A0 : agree s0) by (intros m Pm; rewrite (same_meaning _ _ S); auto).
    rewrite <- (sa_pc _ _ S) in *. pose proof (final_const c02 ill F C _ _ _ _ Ol B G0 A0 Ft Pl) as A1. pose proof (defs_ok _ _ _ Ol B Ft) as Dh.
    pose proof Pl as [M _ _]. unfold bare in B. rewrite B in M. cbn [fits] in Ft. rewrite B in Ft. destruct Ft as (_ & _ & k & K1 & K2).
    pose proof Ol as Ol'. unfold okl in Ol'. rewrite B in Ol'.
    destruct (l_quiet _ _ _ M (silent_quiet _ _ Ol' Hs)) as (Q1 & Q2 & Q3 & Q4 & Q5). destruct (silent_size (s_pc s0) (t_stmt l) env' Hs) as [Z1 Z2].
    assert (k = 0) as -> by congruence. rewrite Z.add_0_r in K2. rewrite <- Q1 in K2.
    destruct (IH (Forall_inv_tail O) (Forall_inv_tail Sp) (pres_good _ _ _ Pl) A1 K2) as (L & G' & A' & Ft' & P1 & P2 & P3 & k & P4 & P5).
    destruct (sa_list _ _ S) as (k0 & K3 & K4).
    assert (exists k, s_list s2 = k ++ s_list s /\ Forall (blank (s_pstate s)) k).
    { exists (k ++ k0). rewrite P4, Q5, K3, app_assoc. split; [reflexivity|]. apply Forall_app. split; [|exact K4].
      assert (X : s_pstate s1 = s_pstate s0) by exact (f_equal snd (lk_tag _ _ (l_list _ _ _ M))). rewrite <- (sa_pst _ _ S), <- X. exact P5. }
    split; [|rewrite P1, P2, P3, Q1, Q2, Q3, (sa_out _ _ S), (sa_total _ _ S); rewrite P1 in Ft'; rewrite <- Q1; auto 12].
    apply (LayCons _ _ _ (s_pc s0) l ls [] []); auto. cbn [length]. rewrite Z.add_0_r, <- Q1. exact L.
Qed.
Lemma outs_same q b s s0 s1 : same s s0 -> outs q b s0 s1 -> outs q b s s1.
Proof. intros S. unfold outs. rewrite (sa_out _ _ S), (sa_total _ _ S), (sa_origin _ _ S), (ff_eq_c64 _ _ (sa_ff _ _ S)). auto. Qed.
Lemma body_layout b s s' : run pres b s s' -> Forall (okl c02 ill F) b -> Forall bare b -> good s -> ff s = ffa true true -> 0 <= s_total s ->
  agree s -> fits c02 ill C (s_pc s) b -> s_org_spec s = true ->
  exists bytes, layout c02 ill env' (s_pc s) b bytes /\ s_pc s' = s_pc s + Z.of_nat (length bytes) /\ outs (forallb (fun l => silent (t_stmt l)) b) bytes s s' /\ agree s' /\
    exists lb k, lined c02 ill env' (s_pc s) b lb /\ bytes = concat (map snd lb) /\ s_list s' = rev k ++ s_list s /\ spread lb k.
Proof.
  intros R. induction R as [s s' S|l ls s s0 s1 s2 S Pl R IH]; intros O Bs G Ef T A Ft Os.
  - exists []. split; [constructor|]. rewrite (sa_pc _ _ S). cbn [length]. split; [lia|]. split; [cbn [forallb outs]; rewrite (sa_out _ _ S), (sa_total _ _ S); auto|].
    split; [intros m Pm; rewrite (same_meaning _ _ S); auto|]. destruct (sa_list _ _ S) as (k & K1 & K2). exists [], (rev k). split; [constructor|]. split; [reflexivity|].
    rewrite rev_involutive. split; [exact K1|]. constructor. exact (blank_none _ _ K2).
  - pose proof (Forall_inv Bs) as B. pose proof (Forall_inv O) as Ol. pose proof (same_good _ _ S G) as G0.
    assert (A0 : agree s0) by (intros m Pm; rewrite (same_meaning _ _ S); auto).
    rewrite <- (sa_pc _ _ S) in *. rewrite <- (sa_org _ _ S) in Os. rewrite <- (sa_ff _ _ S) in Ef. rewrite <- (sa_total _ _ S) in T.
    destruct (body_line l ls s0 s1 Ol B G0 Ef T A0 Ft Os Pl) as (A1 & b & B1 & B2 & B3 & Os1 & Eo & Ft1 & _).
    assert (Ef1 : ff s1 = ffa true true) by (rewrite (pres_ff _ _ _ Pl); exact Ef).
    destruct (IH (Forall_inv_tail O) (Forall_inv_tail Bs) (pres_good _ _ _ Pl) Ef1 (p_total _ _ _ Pl T) A1 Ft1 Os1) as (bs & L & P1 & P2 & A2 & lb & k & Lb & Eb & Kl & Ks).
    exists (b ++ bs). split; [|split; [|split; [|split; [exact A2|]]]].
    + econstructor; [apply (defs_ok l ls); auto|exact B1|]. rewrite <- B2. exact L.
    + rewrite app_length. lia.
    + apply (outs_same _ _ _ _ _ S). cbn [forallb]. apply (outs_app _ _ b bs s0 s1 s2); auto.
      destruct (ffa_parts _ _ _ Ef) as (_ & _ & -> & _). destruct (ffa_parts _ _ _ Ef1) as (_ & _ & -> & _). reflexivity.
    + destruct (sa_list _ _ S) as (k0 & J1 & J2). destruct (p_recs _ _ _ Pl) as (_ & k1 & R1 & R2). pose proof Pl as [M _ _]. unfold bare in B. rewrite B in M.
      destruct (lk_list _ _ (l_list _ _ _ M)) as (k2 & R3 & _ & R4 & _). assert (k2 = rev k1) as -> by (apply (app_inv_tail (s_list s0)); congruence).
      assert (Eq : listed (rev k1) = b).
      { apply (outs_says _ _ _ s0 s1 B3). apply R4; [unfold writing; rewrite Os; destruct (ffa_parts _ _ _ Ef) as (_ & _ & _ & _ & -> & _); reflexivity|exact T|apply M]. }
      unfold listed in Eq. rewrite rev_involutive in Eq.
      exists ((t_line l, b) :: lb), (rev k0 ++ k1 ++ k). split; [constructor; [exact B1|rewrite <- B2; exact Lb]|]. split; [cbn [map snd concat]; congruence|].
      split; [rewrite Kl, R1, J1, !rev_app_distr, rev_involutive, !app_assoc; reflexivity|].
      constructor; [exact (blank_none _ _ J2)| |exact Eq|exact Ks]. revert R2. apply Forall_impl. intros r [[_ X] _]. exact X.
Qed.

Lemma bare_asg b s s' : run pres b s s' -> Forall bare b -> s_pc_assigned s' = s_pc_assigned s.
Proof.
  intros R. induction R as [s s' S|l ls s s0 s1 s2 S Pl R IH]; intros B; [apply S|].
  rewrite (IH (Forall_inv_tail B)), <- (sa_asg _ _ S). pose proof Pl as [M _ _]. pose proof (Forall_inv B) as B0. unfold bare in B0. rewrite B0 in M. apply (fr_eq_asg _ _ (l_fr _ _ _ M)).
Qed.
Lemma final_pass pre ol e o body s u s' : prog = pre ++ ol :: body -> Forall (fun l => bare l /\ silent (t_stmt l) = true) pre -> move_of ol = Some e -> value_at C 4096 e = Some o -> Forall bare body ->
  good s -> ff (reset_lex s) = ffa true true -> s_out s = [] -> s_total s = 0 -> agree s -> fits c02 ill C 4096 prog ->
  parse_pass (S F) s = Ok u s' -> s_errs s' = 0 ->
  exists bytes h, layout c02 ill env' 4096 pre [] /\ layout c02 ill env' o body bytes /\ rev (s_out s') = h ++ bytes /\
    h = (if c64 && negb (forallb (fun l => silent (t_stmt l)) body) then [o mod 256; o / 256 mod 256] else []) /\ s_pc s' = o + Z.of_nat (length bytes) /\ s_pc s' = fend c02 ill C 4096 prog /\ agree s' /\
    (s_list s = [] -> s_pstate s = 1 -> listed (s_list s') = bytes /\ Forall (stated 1) (s_list s') /\ all_blocks cfg (g_inputs cfg) (rev (s_list s')) /\
      addressed o (rev (s_list s')) /\ exists lb, lined c02 ill env' o body lb /\ bytes = concat (map snd lb) /\ spread lb (rev (s_list s'))).
Proof.
  intros Ep Sp Eo Vo Bb G Ef Out Tot A Ft E Er. rewrite parse_pass_eq in E. pose proof (good_reset s G) as G0. set (s0 := reset_lex s) in *.
  assert (Ec : s_cfg s = cfg). { destruct (ffa_parts _ _ _ Ef) as (_ & _ & _ & _ & _ & _ & _ & _ & X). exact X. }
  rewrite Ec in E. destruct (parse_files (S F) (g_inputs cfg) s0) as [u2 s2| | |] eqn:E2; try discriminate. injection E as _ <-.
  assert (Er2 : s_errs s2 = 0) by exact Er.
  assert (Q0 : QF prog s0).
  { split; [exact G0|]. split; [exact Ef|]. split; [change (s_total s0) with (s_total s); lia|]. split; [exact OK|]. split; [exact A|]. split; [exact Ft|].
    left. exists pre, ol, e, body. auto. }
  destruct (final_files _ _ _ _ _ Files Q0 E2) as (R & (G2 & Ef2 & T2 & _) & Rf); [rewrite Er2; unfold s0; rewrite reset_errs; lia|].
  assert (Pe : s_pc s2 = fend c02 ill C 4096 prog).
  { destruct (ffa_parts _ _ _ Ef) as (X1 & X2 & _). apply (run_end c02 ill F C prog s0 s2 R OK X1 X2 G0 A Ft). }
  rewrite Ep in R. destruct (run_split _ _ _ _ _ R) as (s1 & R1 & R2). pose proof OK as OK'. rewrite Ep in OK'. apply Forall_app in OK'. destruct OK' as [Op Ob].
  change 4096 with (s_pc s0) in Ft. rewrite Ep in Ft.
  destruct (pre_layout pre (ol :: body) s0 s1 R1 Op Sp G0 A Ft) as (L1 & G1 & A1 & Ft1 & P1 & P2 & P3 & Kp).
  inversion R2 as [|? ? ? s3 s4 ? S Pl R3]; subst. pose proof Pl as [M _ _]. rewrite Eo in M. cbn [fits] in Ft1. rewrite Eo in Ft1.
  assert (Po : s_pc s4 = o).
  { assert (A3 : agree s3) by (intros m Pm; rewrite (same_meaning _ _ S); auto). symmetry. apply (move_to _ _ _ C ol e s3 s4 o (Forall_inv Ob) Eo A3 M). rewrite (sa_pc _ _ S), P1. exact Vo. }
  assert (Ft4 : fits c02 ill C o body). { destruct Ft1 as (v & V1 & V2). rewrite P1 in V1. change (s_pc s0) with 4096 in V1. assert (v = o) as -> by congruence. exact V2. }
  assert (Oo : s_origin s4 = o) by (rewrite (o_origin _ _ _ M); exact Po).
  assert (Ef4 : ff s4 = ffa true true). { rewrite (pres_ff _ _ _ Pl), (sa_ff _ _ S), (run_ff _ _ _ R1). exact Ef. }
  assert (T4 : s_total s4 = 0). { rewrite (o_total _ _ _ M), (sa_total _ _ S), P3. exact Tot. }
  assert (A4 : agree s4). { intros m Pm. rewrite (o_meaning _ _ _ M), (same_meaning _ _ S); auto. }
  destruct (body_layout body s4 s2 R3 (Forall_inv_tail Ob) Bb (o_good _ _ _ M) Ef4) as (bytes & L2 & P4 & Ou & A2 & lb & kb & Lnd & Ebt & Kl & Ks); auto.
  { rewrite T4. lia. } { rewrite Po. exact Ft4. } { apply M. }
  assert (O4 : s_out s4 = []). { rewrite (o_out _ _ _ M), (sa_out _ _ S), P2. exact Out. }
  rewrite Po in L2, P4, Lnd. change (s_out (after_pass s2)) with (s_out s2). change (s_pc (after_pass s2)) with (s_pc s2).
  destruct (ffa_parts _ _ _ Ef4) as (_ & _ & X3 & _).
  assert (A5 : agree (after_pass s2)). { intros m Pm. rewrite meaning_after; auto. apply G2. }
  pose proof (run_lkw _ _ _ R) as Lw. pose proof (run_lkw _ _ _ R3) as Lb. pose proof (run_lkw _ _ _ R1) as Lp.
  assert (Er4 : s_errs s4 = 0). { assert (0 <= s_errs s0) by (unfold s0; rewrite reset_errs; lia). pose proof (w_errs _ _ Lp). pose proof (sa_errs _ _ S). pose proof (o_errs _ _ _ M). pose proof (w_errs _ _ Lb). lia. }
  assert (Kq : s_list s0 = [] -> exists k, s_list s2 = k ++ s_list s4 /\ listed (s_list s4) = [] /\ addressed o (rev (s_list s2)) /\ says k s4 s2).
  { intros L0. destruct (w_list _ _ Lb) as (k & K1 & _ & K2 & K7). exists k. split; [exact K1|]. destruct Kp as (kp & K3 & K4). destruct (sa_list _ _ S) as (k5 & K5 & K6).
    pose proof (blank_addressed _ o _ K4) as K8. pose proof (blank_addressed _ o _ K6) as K9. apply blank_listed in K4, K6.
    assert (Lp4 : listed (s_list s4) = []) by (rewrite (o_list _ _ _ M), K5, K3, L0, !listed_app, K4, K6; reflexivity).
    split; [exact Lp4|]. split.
    { destruct K7 as [_ K7]. { split; [destruct (ffa_parts _ _ _ Ef4) as (_ & _ & _ & X & _); exact X|]. split; [|split; [lia|apply (bare_asg _ _ _ R3 Bb)]].
        unfold writing. rewrite (o_org _ _ _ M). destruct (ffa_parts _ _ _ Ef4) as (_ & _ & _ & _ & -> & _). reflexivity. }
      rewrite Po in K7. rewrite K1, rev_app_distr. apply addressed_app. split.
      - rewrite (o_list _ _ _ M), K5, K3, L0, !rev_app_distr. cbn [rev app]. apply addressed_app. split; [exact K8|].
        change (concat (map (fun r => body_bytes (l_body r)) (rev kp))) with (listed kp). rewrite K4. cbn [length]. rewrite Z.add_0_r. exact K9.
      - change (concat (map (fun r => body_bytes (l_body r)) (rev (s_list s4)))) with (listed (s_list s4)). rewrite Lp4. cbn [length]. rewrite Z.add_0_r. exact K7. }
    apply K2; [unfold writing; rewrite (o_org _ _ _ M); destruct (ffa_parts _ _ _ Ef4) as (_ & _ & _ & _ & -> & _); reflexivity|rewrite T4; lia|lia]. }
  assert (Kr : s_list s = [] -> s_pstate s = 1 -> Forall (stated 1) (s_list s2) /\ all_blocks cfg (g_inputs cfg) (rev (s_list s2))).
  { intros X1 X2. split.
    - destruct (w_list _ _ Lw) as (k' & W1 & W2 & _). change (s_list s0) with (s_list s) in W1. rewrite X1, app_nil_r in W1. rewrite W1. change (s_pstate s0) with (s_pstate s) in W2. rewrite X2 in W2. exact W2.
    - destruct Rf as (k & K1 & K2); [destruct (ffa_parts _ _ _ Ef) as (_ & _ & _ & X & _); exact X|]. change (s_list s0) with (s_list s) in K1. rewrite X1, app_nil_r in K1. rewrite K1, rev_involutive. exact K2. }
  assert (Kz : s_list s = [] -> exists lb, lined c02 ill env' o body lb /\ bytes = concat (map snd lb) /\ spread lb (rev (s_list s2))).
  { intros X. exists lb. split; [exact Lnd|]. split; [exact Ebt|]. rewrite Kl, rev_app_distr, rev_involutive. apply spread_blank; [|exact Ks].
    destruct Kp as (kp & J1 & J2). destruct (sa_list _ _ S) as (k5 & J3 & J4). rewrite (o_list _ _ _ M), J3, J1. change (s_list s0) with (s_list s). rewrite X, app_nil_r, rev_app_distr.
    apply Forall_app. split; [exact (blank_none _ _ J2)|exact (blank_none _ _ J4)]. }
  change (s_list (after_pass s2)) with (s_list s2).
  assert (Says : forall k, says k s4 s2 -> listed k = bytes) by (intros k; exact (outs_says _ _ k s4 s2 Ou)).
  exists bytes. eexists. split; [exact L1|]. split; [exact L2|]. split; [|split; [reflexivity|]].
  - destruct (forallb _ body); cbn [outs] in Ou.
    + destruct Ou as (-> & U1 & _). rewrite U1, O4, andb_false_r. reflexivity.
    + destruct Ou as (U1 & _). rewrite T4, X3, Oo, O4 in U1. cbn [Z.eqb andb] in U1. rewrite U1, app_nil_r, rev_app_distr, rev_involutive, andb_true_r. destruct c64; reflexivity.
  - split; [exact P4|]. split; [exact Pe|]. split; [exact A5|].
    intros X1 X2. destruct (Kq X1) as (k & Y1 & Y2 & Ya & Y3). destruct (Kr X1 X2) as [Yb Yc]. pose proof (Kz X1) as Yd. split; [|auto].
    rewrite Y1, listed_app, Y2, (Says k Y3). reflexivity.
Qed.
End Final.
End Prog.
