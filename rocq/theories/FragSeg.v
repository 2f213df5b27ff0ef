(** Programs that set the program counter more than once. *)
From Coq Require Import String Lia.
From Verif Require Import Base BaseProofs Hash Dict DictProofs DictMore Str Opcodes OpcodesProofs Err State Sym Machine Build Pass
  GenX Gen Inv SymProofs SymMore Sem ListRel RecProofs ExprProofs ExprMore OpProofs OpMore InstrProofs InstrMore DataProofs DataMore DefProofs BadProofs DataWalk OpWalk
  Colon Layout LineProofs LineTwo LineThree LineFour LineFive PassProofs Frag FragPass FragProg FragAsm.
Open Scope string_scope.
Open Scope list_scope.
Open Scope Z_scope.
Open Scope m_scope.

(** the records of the lines with bytes, oldest first; those between them have no text *)
Inductive spreads : list (Z * Z * list Z) -> list lrec -> Prop :=
| SsNil k : Forall (fun r => l_body r = LNone) k -> spreads [] k
| SsCons n a b ch k0 k1 k2 : Forall (fun r => l_body r = LNone) k0 -> Forall (fun r => l_line r = n) k1 ->
    concat (map (fun r => body_bytes (l_body r)) k1) = b -> addressed a k1 -> spreads ch k2 -> spreads ((n, a, b) :: ch) (k0 ++ k1 ++ k2).
Lemma spreads_blank ch k0 k : Forall (fun r => l_body r = LNone) k0 -> spreads ch k -> spreads ch (k0 ++ k).
Proof.
  intros H S. destruct S as [k K|n a b ch k1 k2 k3 K1 K2 K3 K4 S]; [constructor; apply Forall_app; auto|]. rewrite app_assoc. constructor; auto. apply Forall_app; auto.
Qed.
Lemma spreads_listed ch k : spreads ch k -> concat (map (fun r => body_bytes (l_body r)) k) = packed ch.
Proof.
  assert (N : forall k, Forall (fun r => l_body r = LNone) k -> concat (map (fun r => body_bytes (l_body r)) k) = []).
  { induction 1 as [|r k0 E _ IH]; [reflexivity|]. cbn [map concat]. rewrite E, IH. reflexivity. }
  unfold packed. induction 1 as [k K|n a b ch k0 k1 k2 K0 K1 K2 K3 S IH]; [apply N, K|]. rewrite !map_app, !concat_app, (N _ K0), K2, IH. reflexivity.
Qed.
Lemma arranged_pre c02 ill en pre ol e v body ch : Forall (fun l => bare l /\ silent (t_stmt l) = true) pre -> move_of ol = Some e -> arranged c02 ill en v body ch ->
  forall pc, layout c02 ill en pc pre [] -> value en pc e = Some v -> arranged c02 ill en pc (pre ++ ol :: body) ch.
Proof.
  intros Sp Eo L2. induction pre as [|l pre IH]; intros pc L V.
  - apply (ArMove _ _ _ _ _ _ e v); auto.
  - destruct (Forall_inv Sp) as [B Si]. assert (D : defs_hold en pc l /\ layout c02 ill en pc pre []).
    { inversion L as [|? ? ? b r D Sb L']; subst. match goal with H : _ ++ _ = [] |- _ => apply app_eq_nil in H as [-> ->] end. cbn [length] in L'. rewrite Z.add_0_r in L'. auto. }
    destruct D as [D L']. apply ArSilent; auto. apply IH; auto. exact (Forall_inv_tail Sp).
Qed.

Section Prog.
Variables (c02 ill c64 : bool) (cfg : config) (F : nat) (prog : list tline).
Hypothesis F1 : (1 <= F)%nat.
Hypothesis Files : all_lines cfg (g_inputs cfg) prog.
Hypothesis OK : Forall (okl c02 ill F) prog.
Notation ffa := (fun fin op => (c02, ill, c64, fin, op, false, 0, @nil (cstr * Z), cfg)).
Variable C : cstr -> core_t.
Notation agree := (agree C).
Notation env' := (fun n => cval (C n)).
Definition head_of (s : state) (ch : list (Z * Z * list Z)) : list Z := if (s_total s =? 0) && c64 then load_address ch else [].

Lemma body_arranged b s s' : run pres b s s' -> Forall (okl c02 ill F) b -> good s -> ff s = ffa true true -> 0 <= s_total s ->
  agree s -> fits c02 ill C (s_pc s) b -> s_org_spec s = true -> (s_total s = 0 -> s_pc s = s_origin s) ->
  exists ch k, arranged c02 ill env' (s_pc s) b ch /\ s_out s' = rev (packed ch) ++ rev (head_of s ch) ++ s_out s /\ agree s' /\
    s_list s' = rev k ++ s_list s /\ spreads ch k.
Proof.
  intros R. induction R as [s s' S|l ls s s0 s1 s2 S Pl R IH]; intros O G Ef T A Ft Os Po.
  - destruct (sa_list _ _ S) as (k & K1 & K2). exists [], (rev k). split; [constructor|]. unfold head_of. cbn [load_address].
    split; [rewrite (sa_out _ _ S); destruct (_ && _); reflexivity|]. split; [intros m Pm; rewrite (same_meaning _ _ S); auto|].
    rewrite rev_involutive. split; [exact K1|]. constructor. exact (blank_none _ _ K2).
  - pose proof (Forall_inv O) as Ol. pose proof (same_good _ _ S G) as G0.
    assert (A0 : agree s0) by (intros m Pm; rewrite (same_meaning _ _ S); auto).
    assert (Hd : forall ch, head_of s ch = head_of s0 ch) by (intros ch; unfold head_of; rewrite (sa_total _ _ S); reflexivity).
    rewrite <- (sa_pc _ _ S) in *. rewrite <- (sa_org _ _ S) in Os. rewrite <- (sa_ff _ _ S) in Ef. rewrite <- (sa_total _ _ S) in T, Po. rewrite <- (sa_origin _ _ S) in Po.
    destruct (sa_list _ _ S) as (k0 & J1 & J2). rewrite <- (sa_out _ _ S).
    assert (Ef1 : ff s1 = ffa true true) by (rewrite (pres_ff _ _ _ Pl); exact Ef).
    pose proof (pres_good _ _ _ Pl) as G1. pose proof (p_total _ _ _ Pl T) as T1. pose proof (Forall_inv_tail O) as O1.
    destruct (move_of l) as [e|] eqn:B.
    { pose proof Pl as [M _ _]. rewrite B in M. cbn [fits] in Ft. rewrite B in Ft. destruct Ft as (v & V & Ft). pose proof (move_to _ _ _ _ _ _ _ _ _ Ol B A0 M V) as ->.
      destruct (IH O1 G1 Ef1 T1) as (ch & k & L & P1 & A2 & K1 & K2); auto; [intros m Pm; rewrite (o_meaning _ _ _ M); auto|apply M|intros _; symmetry; apply M|].
      exists ch, (rev k0 ++ k). split; [eapply ArMove; eauto|]. split.
      { rewrite P1, (o_out _ _ _ M), Hd. unfold head_of. rewrite (o_total _ _ _ M). reflexivity. }
      split; [exact A2|]. split; [rewrite K1, (o_list _ _ _ M), J1, rev_app_distr, rev_involutive, app_assoc; reflexivity|]. apply spreads_blank; [exact (blank_none _ _ J2)|exact K2]. }
    destruct (body_line c02 ill c64 cfg F F1 C l ls s0 s1 Ol B G0 Ef T A0 Ft Os Pl) as (A1 & b & B1 & B2 & B3 & Os1 & Eo & Ft1 & _).
    pose proof (defs_ok c02 ill F C l ls (s_pc s0) Ol B Ft) as Dh. pose proof Pl as [M _ _]. rewrite B in M.
    destruct (silent (t_stmt l)) eqn:Si.
    + cbn [outs] in B3. destruct B3 as (-> & B4 & B5). cbn [length] in B2. rewrite Z.add_0_r in B2. pose proof Ol as Ol'. unfold okl in Ol'. rewrite B in Ol'.
      destruct (l_quiet _ _ _ M (silent_quiet c02 ill _ _ Ol' Si)) as (_ & _ & _ & _ & Q5).
      destruct (IH O1 G1 Ef1 T1 A1 Ft1 Os1) as (ch & k & L & P1 & A2 & K1 & K2); [rewrite B5, B2, Eo; exact Po|].
      exists ch, (rev k0 ++ k). split; [apply ArSilent; auto; rewrite <- B2; exact L|]. split.
      { rewrite P1, B4, Hd. unfold head_of. rewrite B5. reflexivity. }
      split; [exact A2|]. split; [rewrite K1, Q5, J1, rev_app_distr, rev_involutive, app_assoc; reflexivity|]. apply spreads_blank; [exact (blank_none _ _ J2)|exact K2].
    + pose proof B3 as B3'. cbn [outs] in B3. destruct B3 as (B4 & B5). destruct (ffa_parts c02 ill c64 cfg _ _ _ Ef) as (_ & _ & Xc & Xf & Xo & _). rewrite Xc in B4, B5.
      destruct (IH O1 G1 Ef1 T1 A1 Ft1 Os1) as (ch & k & L & P1 & A2 & K1 & K2).
      { rewrite B5, B2, Eo. intros X. assert (s_total s0 = 0 /\ length b = 0%nat) as [X1 X2] by (destruct ((s_total s0 =? 0) && c64); lia). rewrite (Po X1), X2. cbn. lia. }
      destruct (p_recs _ _ _ Pl) as (_ & k1 & R1 & R2). destruct (lk_list _ _ (l_list _ _ _ M)) as (k2 & R3 & _ & R4 & R5). assert (k2 = rev k1) as -> by (apply (app_inv_tail (s_list s0)); congruence).
      assert (Wr : writing s0 = true) by (unfold writing; rewrite Os, Xo; reflexivity).
      assert (Eq : listed (rev k1) = b) by (apply (outs_says _ _ _ s0 s1 B3'); apply R4; [exact Wr|exact T|apply M]).
      assert (Ad : addressed (s_pc s0) k1).
      { destruct R5 as [_ X]; [|rewrite rev_involutive in X; exact X]. split; [exact Xf|]. split; [exact Wr|]. split; [apply M|]. apply (fr_eq_asg _ _ (l_fr _ _ _ M)). }
      unfold listed in Eq. rewrite rev_involutive in Eq.
      exists ((t_line l, s_pc s0, b) :: ch), (rev k0 ++ k1 ++ k). split; [apply ArCons; auto; rewrite <- B2; exact L|]. split.
      { rewrite P1, B4, Hd. unfold packed, head_of. cbn [map snd concat load_address]. rewrite rev_app_distr, <- !app_assoc. f_equal.
        assert (X : (s_total s1 =? 0) && c64 = false).
        { destruct c64; [|apply andb_false_r]. rewrite andb_true_r in B5. rewrite andb_true_r. apply Z.eqb_neq. destruct (Z.eqb_spec (s_total s0) 0); lia. }
        rewrite X. cbn [rev app]. destruct ((s_total s0 =? 0) && c64) eqn:Y; [|reflexivity]. apply andb_prop in Y as [Y _]. apply Z.eqb_eq in Y. rewrite (Po Y). reflexivity. }
      split; [exact A2|]. split; [rewrite K1, R1, J1, !rev_app_distr, rev_involutive, !app_assoc; reflexivity|].
      constructor; [exact (blank_none _ _ J2)| |exact Eq|exact Ad|exact K2]. revert R2. apply Forall_impl. intros r [[_ X] _]. exact X.
Qed.

Lemma final_segments pre ol e body s u s' : prog = pre ++ ol :: body -> Forall (fun l => bare l /\ silent (t_stmt l) = true) pre -> move_of ol = Some e ->
  good s -> ff (reset_lex s) = ffa true true -> s_out s = [] -> s_total s = 0 -> agree s -> fits c02 ill C 4096 prog ->
  parse_pass (S F) s = Ok u s' -> s_errs s' = 0 ->
  exists ch, arranged c02 ill env' 4096 prog ch /\ rev (s_out s') = (if c64 then load_address ch else []) ++ packed ch /\
    s_pc s' = fend c02 ill C 4096 prog /\ agree s' /\
    (s_list s = [] -> s_pstate s = 1 -> Forall (stated 1) (s_list s') /\ all_blocks cfg (g_inputs cfg) (rev (s_list s')) /\ spreads ch (rev (s_list s'))).
Proof.
  intros Ep Sp Eo G Ef Out Tot A Ft E Er. rewrite parse_pass_eq in E. pose proof (good_reset s G) as G0. set (s0 := reset_lex s) in *.
  assert (Ec : s_cfg s = cfg). { destruct (ffa_parts c02 ill c64 cfg _ _ _ Ef) as (_ & _ & _ & _ & _ & _ & _ & _ & X). exact X. }
  rewrite Ec in E. destruct (parse_files (S F) (g_inputs cfg) s0) as [u2 s2| | |] eqn:E2; try discriminate. injection E as _ <-.
  assert (Er2 : s_errs s2 = 0) by exact Er.
  assert (Q0 : QF c02 ill c64 cfg F C prog s0).
  { split; [exact G0|]. split; [exact Ef|]. split; [change (s_total s0) with (s_total s); lia|]. split; [exact OK|]. split; [exact A|]. split; [exact Ft|].
    left. exists pre, ol, e, body. auto. }
  destruct (final_files c02 ill c64 cfg F F1 C _ _ _ _ _ Files Q0 E2) as (R & (G2 & Ef2 & T2 & _) & Rf); [rewrite Er2; unfold s0; rewrite reset_errs; lia|].
  assert (Pe : s_pc s2 = fend c02 ill C 4096 prog).
  { destruct (ffa_parts c02 ill c64 cfg _ _ _ Ef) as (X1 & X2 & _). apply (run_end c02 ill F C prog s0 s2 R OK X1 X2 G0 A Ft). }
  pose proof (run_lkw _ _ _ R) as Lw.
  rewrite Ep in R. destruct (run_split _ _ _ _ _ R) as (s1 & R1 & R2). pose proof OK as OK'. rewrite Ep in OK'. apply Forall_app in OK'. destruct OK' as [Op Ob].
  change 4096 with (s_pc s0) in Ft. rewrite Ep in Ft.
  destruct (pre_layout c02 ill F C pre (ol :: body) s0 s1 R1 Op Sp G0 A Ft) as (L1 & G1 & A1 & Ft1 & P1 & P2 & P3 & Kp).
  clear Ec.   inversion R2 as [|? ? ? s3 s4 ? S Pl R3]; subst. pose proof Pl as [M _ _]. rewrite Eo in M. cbn [fits] in Ft1. rewrite Eo in Ft1.
  assert (A3 : agree s3) by (intros m Pm; rewrite (same_meaning _ _ S); auto).
  destruct Ft1 as (v & V1 & V2). assert (v = s_pc s4) as ->. { apply (move_to _ _ _ C ol e s3 s4 v (Forall_inv Ob) Eo A3 M). rewrite (sa_pc _ _ S). exact V1. }
  assert (Ef4 : ff s4 = ffa true true). { rewrite (pres_ff _ _ _ Pl), (sa_ff _ _ S), (run_ff _ _ _ R1). exact Ef. }
  assert (T4 : s_total s4 = 0). { rewrite (o_total _ _ _ M), (sa_total _ _ S), P3. exact Tot. }
  assert (A4 : agree s4). { intros m Pm. rewrite (o_meaning _ _ _ M), (same_meaning _ _ S); auto. }
  assert (O4 : s_out s4 = []). { rewrite (o_out _ _ _ M), (sa_out _ _ S), P2. exact Out. }
  destruct (body_arranged body s4 s2 R3 (Forall_inv_tail Ob) (o_good _ _ _ M) Ef4) as (ch & k & L2 & P4 & A2 & Kl & Ks); auto.
  { rewrite T4. lia. } { apply M. } { intros _. symmetry. apply M. }
  change (s_out (after_pass s2)) with (s_out s2). change (s_pc (after_pass s2)) with (s_pc s2). change (s_list (after_pass s2)) with (s_list s2).
  exists ch. split; [|split; [|split; [exact Pe|split]]].
  - change 4096 with (s_pc s0). rewrite P1 in V1. exact (arranged_pre c02 ill env' pre ol e (s_pc s4) body ch Sp Eo L2 _ L1 V1).
  - rewrite P4, O4, app_nil_r, rev_app_distr, !rev_involutive. unfold head_of. rewrite T4. reflexivity.
  - intros m Pm. rewrite meaning_after; auto. apply G2.
  - intros X1 X2. split; [|split].
    + destruct (w_list _ _ Lw) as (k' & W1 & W2 & _). change (s_list s0) with (s_list s) in W1. rewrite X1, app_nil_r in W1. rewrite W1. change (s_pstate s0) with (s_pstate s) in W2. rewrite X2 in W2. exact W2.
    + destruct Rf as (k' & K1 & K2); [destruct (ffa_parts c02 ill c64 cfg _ _ _ Ef) as (_ & _ & _ & X & _); exact X|]. change (s_list s0) with (s_list s) in K1. rewrite X1, app_nil_r in K1. rewrite K1, rev_involutive. exact K2.
    + rewrite Kl, rev_app_distr, rev_involutive. apply spreads_blank; [|exact Ks].
      destruct Kp as (kp & J1 & J2). destruct (sa_list _ _ S) as (k5 & J3 & J4). rewrite (o_list _ _ _ M), J3, J1. change (s_list s0) with (s_list s). rewrite X1, app_nil_r, rev_app_distr.
      apply Forall_app. split; [exact (blank_none _ _ J2)|exact (blank_none _ _ J4)].
Qed.
End Prog.

Lemma assemble_segments c02 ill c64 cfg F prog pre ol e body s1 s' : (1 <= F)%nat -> all_lines cfg (g_inputs cfg) prog -> Forall (okl c02 ill F) prog ->
  g_out cfg = true -> prog = pre ++ ol :: body -> Forall (fun l => bare l /\ silent (t_stmt l) = true) pre -> move_of ol = Some e ->
  pass_loop (S F) 20 (start (init_state cfg c02 ill c64)) = Ok true s1 -> anchored prog s1 ->
  assemble (S F) (init_state cfg c02 ill c64) = Ok 0 s' -> s_errs s' = 0 ->
  clean_state s1 /\ named prog s1 /\ s_pc s' = s_pc s1 /\ (forall n, plain n -> env s' n = env s1 n) /\
  exists ch, arranged c02 ill (env s1) 4096 prog ch /\ rev (s_out s') = (if c64 then load_address ch else []) ++ packed ch /\
    Forall (stated 1) (s_list s') /\ all_blocks cfg (g_inputs cfg) (rev (s_list s')) /\ spreads ch (rev (s_list s')).
Proof.
  intros F1 Files OK Go Ep Sp Eo E1 An E Er. destruct (assemble_loop c02 ill c64 cfg F s' E) as (s1' & E1' & Cl).
  assert (s1' = s1) as -> by congruence. pose proof (loop_start c02 ill c64 cfg F prog F1 Files OK _ _ _ E1 Cl) as St.
  destruct (final_is_pass F _ _ _ _ E1 E) as (u & E3). pose proof (settled_named c02 ill c64 cfg F prog OK s1 St Cl) as Nm.
  destruct St as (I & D & N). destruct (N Cl) as (_ & Ft & _). destruct (Ft An) as [Ft' Pe]. destruct I as (G & Out & Tot & _ & _ & Ef).
  pose proof (good_open s1 G) as G1. pose proof (open_ff c02 ill c64 cfg s1 Go Ef) as Ef1.
  assert (Ag : agree (meaning s1) (open_out s1)) by (intros m _; reflexivity).
  destruct (final_segments c02 ill c64 cfg F prog F1 Files OK (meaning s1) pre ol e body (open_out s1) u s' Ep Sp Eo G1 Ef1 Out Tot Ag Ft' E3 Er) as (ch & L1 & L2 & L3 & L4 & L5).
  split; [exact Cl|]. split; [exact Nm|]. split; [rewrite Pe, L3; reflexivity|]. split; [intros n Pn; unfold env; rewrite L4; auto|].
  exists ch. split; [exact L1|]. split; [exact L2|]. apply L5; [apply (pass_loop_ok _ _ _ _ _ E1); reflexivity|exact (loop_print _ _ _ _ _ E1 eq_refl)].
Qed.
(** the values of labels, when no line moves the program counter to 0 or below *)
Lemma positive_anchored c02 ill c64 cfg F prog s1 : (1 <= F)%nat -> all_lines cfg (g_inputs cfg) prog -> Forall (okl c02 ill F) prog ->
  pass_loop (S F) 20 (start (init_state cfg c02 ill c64)) = Ok true s1 -> clean_state s1 -> Forall positive prog ->
  (exists l n, In l prog /\ t_label l = Some n) \/ (forall l n, In l prog -> ldef l = Some n -> False) -> anchored prog s1.
Proof.
  intros F1 Files OK E1 Cl Po An. apply (settled_anchored c02 ill c64 cfg prog s1 (loop_start c02 ill c64 cfg F prog F1 Files OK _ _ _ E1 Cl) Cl Po An).
Qed.
