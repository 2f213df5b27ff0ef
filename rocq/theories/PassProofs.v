(** Proofs about whole passes and assemble. *)
From Coq Require Import String Lia.
From Verif Require Import Base BaseProofs Hash Dict Str Opcodes Err State Sym Machine Build Pass GenX Gen Inv.
Open Scope string_scope.
Open Scope list_scope.
Open Scope Z_scope.
Open Scope m_scope.

(** [m] started in [s] ends in state [s'], by returning or by exit() *)
Definition ends {A} (m : M A) (s s' : state) : Prop := (exists a, m s = Ok a s') \/ (exists c, m s = Exit c s').

Lemma prs_ends R {A} (m : M A) s s' : prs R m s -> ends m s s' -> R s s'.
Proof. unfold prs2. intros H [[a E]|[c E]]; rewrite E in H; exact H. Qed.
Lemma ends_bind {A B} (m : M A) (k : A -> M B) s s' : ends (bind m k) s s' ->
  (exists a s1, m s = Ok a s1 /\ ends (k a) s1 s') \/ (exists c, m s = Exit c s').
Proof.
  unfold ends, bind. destruct (m s) as [a s1|c s1| |]; intros [[b E]|[b E]]; try discriminate.
  - left. exists a, s1. eauto.
  - left. exists a, s1. eauto.
  - inversion E; subst; eauto.
Qed.
Lemma bind_ok {A B} (m : M A) (k : A -> M B) s b s' : bind m k s = Ok b s' ->
  exists a s1, m s = Ok a s1 /\ k a s1 = Ok b s'.
Proof. unfold bind. destruct (m s) as [a s1|c s1| |]; try discriminate. eauto. Qed.
Lemma bind_exit {A B} (m : M A) (k : A -> M B) s b s' : bind m k s = Exit b s' ->
  m s = Exit b s' \/ exists a s1, m s = Ok a s1 /\ k a s1 = Exit b s'.
Proof.
  unfold bind. destruct (m s) as [a s1|c s1| |]; try discriminate; intros H.
  - right. eauto.
  - left. injection H as -> ->. reflexivity.
Qed.
Lemma ok_ends {A} (m : M A) a s s' : m s = Ok a s' -> ends m s s'.
Proof. left; eauto. Qed.
Lemma exit_ends {A} (m : M A) a s s' : m s = Exit a s' -> ends m s s'.
Proof. right; eauto. Qed.

(** ** One pass *)
(** what a pass does to the parts of the state kept between passes *)
Lemma reset_lex_fields s :
  s_cfg (reset_lex s) = s_cfg s /\ s_final (reset_lex s) = s_final s /\ s_pass (reset_lex s) = s_pass s /\
  s_opened (reset_lex s) = s_opened s /\ s_gen (reset_lex s) = s_gen s /\ s_out (reset_lex s) = s_out s /\
  s_total (reset_lex s) = s_total s /\ s_list (reset_lex s) = s_list s /\ s_errs (reset_lex s) = 0 /\
  s_msgs (reset_lex s) = s_msgs s /\ s_changed (reset_lex s) = 0 /\ s_stop (reset_lex s) = false.
Proof. repeat split. Qed.

Lemma parse_files_out F l s0 s2 : ends (parse_files F l) s0 s2 -> with_fix Rout s0 s2 /\ Rmsgs s0 s2.
Proof.
  intros G. split.
  - eapply prs_ends; [|exact G]. apply parse_files_prs; [apply Rout_closed|apply Rout_build|apply Rout_pass].
  - assert (B : with_fix Rmsgs s0 s2).
    { eapply prs_ends; [|exact G]. apply parse_files_prs; [apply Rmsgs_closed|apply Rmsgs_build|apply Rmsgs_pass]. }
    apply B.
Qed.

Lemma cfg_reset_lex s : s_cfg (reset_lex s) = s_cfg s.
Proof. reflexivity. Qed.
Definition after_pass (s : state) : state := set_nodes [] (set_gen (S (s_gen s)) (set_scope None s)).
Lemma parse_pass_eq F s : parse_pass F s =
  match parse_files F (g_inputs (s_cfg s)) (reset_lex s) with
  | Ok _ s2 => Ok tt (after_pass s2)
  | Exit c s2 => Exit c s2
  | Ub u => Ub u
  | OutOfFuel => OutOfFuel
  end.
Proof.
  unfold parse_pass, bind, modify, gets. rewrite cfg_reset_lex. reflexivity.
Qed.
Lemma parse_pass_ends F s s' : ends (parse_pass F) s s' ->
  exists s2, ends (parse_files F (g_inputs (s_cfg s))) (reset_lex s) s2 /\ (s' = s2 \/ s' = after_pass s2).
Proof.
  unfold ends at 1. rewrite parse_pass_eq. generalize (reset_lex s). intros s0. unfold ends.
  destruct (parse_files _ _ s0) as [u s2|c s2| |]; intros [[b E]|[b E]]; try discriminate; inversion E; subst; eauto 6.
Qed.

Lemma parse_pass_out F s s' : ends (parse_pass F) s s' ->
  s_cfg s' = s_cfg s /\ s_final s' = s_final s /\ s_pass s' = s_pass s /\ s_opened s' = s_opened s /\
  (exists l, s_out s' = l ++ s_out s /\ s_total s' = s_total s + Z.of_nat (length l) /\ Forall is_byte l /\
             (s_final s = false -> l = []) /\ (s_opened s = false -> l = [])) /\
  (exists k, s_list s' = k ++ s_list s /\ (s_final s = false -> k = [])) /\
  (exists m, s_msgs s' = m ++ s_msgs s /\ s_errs s' = Z.of_nat (length m)).
Proof.
  intros H. apply parse_pass_ends in H. destruct H as (s2 & G & K). apply parse_files_out in G.
  pose proof (reset_lex_fields s) as Zs. revert G Zs. generalize (reset_lex s). intros s0 G Zs.
  destruct G as [[(X1 & X2 & X3 & X4 & _) (l & k & A1 & A2 & A3 & A4 & A5 & A6 & A7 & A8)] (m & B1 & B2)].
  destruct Zs as (Z1 & Z2 & Z3 & Z4 & Z5 & Z6 & Z7 & Z8 & Z9 & Z10 & Z11 & Z12).
  assert (Y : s_cfg s' = s_cfg s2 /\ s_final s' = s_final s2 /\ s_pass s' = s_pass s2 /\ s_opened s' = s_opened s2 /\
              s_out s' = s_out s2 /\ s_total s' = s_total s2 /\ s_list s' = s_list s2 /\ s_msgs s' = s_msgs s2 /\
              s_errs s' = s_errs s2) by (destruct K as [->| ->]; repeat split).
  clear K. destruct Y as (Y1 & Y2 & Y3 & Y4 & Y5 & Y6 & Y7 & Y8 & Y9).
  rewrite Z2 in A6. rewrite Z4 in A7.
  split; [congruence|]. split; [congruence|]. split; [congruence|]. split; [congruence|].
  split; [|split].
  - exists l. split; [congruence|]. split; [lia|]. split; [assumption|]. split; [|assumption].
    intros E; apply (A6 E).
  - exists k. split; [congruence|]. intros E; apply (A6 E).
  - exists m. split; [congruence|]. lia.
Qed.

Lemma parse_files_fix F l s0 s2 : ends (parse_files F l) s0 s2 -> Rfix s0 s2.
Proof.
  intros G. eapply prs_ends; [|exact G]. apply parse_files_prs; [apply Rfix_closed|apply Rfix_build|apply Rfix_pass].
Qed.
Lemma parse_pass_gen F s u s' : parse_pass F s = Ok u s' -> s_gen s' = S (s_gen s).
Proof.
  rewrite parse_pass_eq. pose proof (reset_lex_fields s) as (_ & _ & _ & _ & Z5 & _). revert Z5.
  generalize (reset_lex s). intros s0 Z5.
  destruct (parse_files _ _ s0) as [u2 s2|c s2| |] eqn:E; try discriminate. intros H.
  assert (H2 : s' = after_pass s2) by congruence. subst s'. unfold after_pass. cbn [s_gen set_nodes set_gen].
  apply ok_ends in E. apply parse_files_fix in E. destruct E as (_ & _ & _ & _ & A & _). rewrite A, Z5. reflexivity.
Qed.

(** ** The pass loop *)
(** the counters a pass leaves *)
Definition clean_state (s : state) : Prop := s_errs s = 0 /\ s_changed s = 0 /\ unresolved_symbol_count s = 0.

Lemma clean_state_spec s :
  ((s_errs s =? 0) && (s_changed s =? 0) && (unresolved_symbol_count s =? 0)) = true <-> clean_state s.
Proof. unfold clean_state. rewrite !andb_true_iff, !Z.eqb_eq. tauto. Qed.

(** one round *)
Lemma pass_loop_S F k s : pass_loop F (S k) s =
  match parse_pass F s with
  | Ok _ s1 =>
      let clean := (s_errs s1 =? 0) && (s_changed s1 =? 0) && (unresolved_symbol_count s1 =? 0) in
      let s2 := set_pass (s_pass s1 + 1) s1 in
      if (s_errs s1 =? 0) && (s_pass s2 <? max_passes) && negb clean then pass_loop F k s2 else Ok clean s2
  | Exit c s1 => Exit c s1
  | Ub u => Ub u
  | OutOfFuel => OutOfFuel
  end.
Proof.
  cbn [pass_loop]. unfold bind, gets, modify, ret. destruct (parse_pass F s) as [u s1|c s1| |]; try reflexivity.
  cbv zeta. cbn [s_pass set_pass]. destruct (_ && _ && negb _); reflexivity.
Qed.

(** what holds after a pass loop that ended normally in [s'] *)
Lemma pass_loop_ok F k : forall s clean s', pass_loop F k s = Ok clean s' -> s_final s = false ->
  s_pass s < s_pass s' /\ s_pass s' <= Z.max max_passes (s_pass s + 1) /\
  Z.of_nat (s_gen s') = Z.of_nat (s_gen s) + (s_pass s' - s_pass s) /\
  s_final s' = false /\ s_opened s' = s_opened s /\ s_out s' = s_out s /\ s_total s' = s_total s /\ s_list s' = s_list s /\
  s_cfg s' = s_cfg s /\
  (clean = true <-> clean_state s') /\
  (clean = false -> s_errs s' <> 0 \/ max_passes <= s_pass s') /\
  (exists s0 u, parse_pass F s0 = Ok u (set_pass (s_pass s' - 1) s')).
Proof.
  induction k as [|k IH]; intros s clean s' H Hf; [discriminate|].
  rewrite pass_loop_S in H. destruct (parse_pass F s) as [u s1|c s1| |] eqn:E; try discriminate.
  pose proof (parse_pass_gen _ _ _ _ E) as Hg.
  pose proof (parse_pass_out _ _ _ (ok_ends _ _ _ _ E)) as (P1 & P2 & P3 & P4 & (l & P5 & P6 & _ & P7 & _) & (kk & P8 & P9) & _).
  rewrite Hf in *. specialize (P7 eq_refl). specialize (P9 eq_refl). subst l kk. cbn [app length] in *.
  cbv zeta in H. cbn [s_pass set_pass] in H. rewrite P3 in H.
  destruct ((s_errs s1 =? 0) && (s_pass s + 1 <? max_passes) && negb _) eqn:B.
  - apply IH in H; [|exact P2]. clear IH. cbn in H.
    apply andb_true_iff in B. destruct B as [B _]. apply andb_true_iff in B. destruct B as [_ B]. apply Z.ltb_lt in B.
    destruct H as (H1 & H2 & H3 & H4 & H5 & H6 & H7 & H8 & H9 & H10 & H11 & H12).
    rewrite Hg in H3. split; [lia|]. split; [lia|]. split; [lia|]. split; [assumption|].
    split; [first [congruence | lia]|]. split; [first [congruence | lia]|]. split; [first [congruence | lia]|]. split; [first [congruence | lia]|]. split; [first [congruence | lia]|].
    split; [assumption|]. split; assumption.
  - injection H as <- <-. cbn [s_pass set_pass s_gen s_final s_opened s_out s_total s_list s_cfg s_errs].
    assert (W : set_pass (s_pass s + 1 - 1) (set_pass (s_pass s + 1) s1) = s1).
    { replace (s_pass s + 1 - 1) with (s_pass s1) by lia. destruct s1; reflexivity. }
    split; [lia|]. split; [lia|]. split; [lia|]. split; [assumption|]. split; [assumption|].
    split; [assumption|]. split; [lia|]. split; [assumption|]. split; [assumption|].
    split; [exact (clean_state_spec s1)|]. split.
    + intros Hc. rewrite Hc in B. cbn [negb] in B. rewrite andb_true_r in B.
      apply andb_false_iff in B. rewrite Z.eqb_neq, Z.ltb_ge in B. exact B.
    + exists s, u. rewrite W. exact E.
Qed.

(** the bound on the number of rounds makes no difference: 20 - pass rounds are always enough *)
Lemma pass_loop_fuel F : forall k s, s_final s = false -> max_passes - s_pass s <= Z.of_nat k -> (0 < k)%nat ->
  forall j, pass_loop F (k + j) s = pass_loop F k s.
Proof.
  induction k as [|k IH]; intros s Hf Hk Hp j; [lia|]. clear Hp. cbn [Nat.add]. rewrite !pass_loop_S.
  destruct (parse_pass F s) as [u s1|c s1| |] eqn:E; try reflexivity.
  pose proof (parse_pass_out _ _ _ (ok_ends _ _ _ _ E)) as (P1 & P2 & P3 & _).
  cbv zeta. cbn [s_pass set_pass]. destruct (_ && _ && negb _) eqn:B; [|reflexivity].
  apply andb_true_iff in B. destruct B as [B _]. apply andb_true_iff in B. destruct B as [_ B]. apply Z.ltb_lt in B.
  apply IH; cbn [s_final set_pass s_pass]; [congruence|lia|]. unfold max_passes in *. lia.
Qed.

Lemma pass_loop_out_of_fuel F : forall k s, s_final s = false -> max_passes - s_pass s <= Z.of_nat k -> (0 < k)%nat ->
  pass_loop F k s = OutOfFuel -> exists s0, parse_pass F s0 = OutOfFuel.
Proof.
  induction k as [|k IH]; intros s Hf Hk Hp H; [lia|]. clear Hp. rewrite pass_loop_S in H.
  destruct (parse_pass F s) as [u s1|c s1| |] eqn:E; try discriminate; [|eauto].
  pose proof (parse_pass_out _ _ _ (ok_ends _ _ _ _ E)) as (P1 & P2 & P3 & _).
  cbv zeta in H. cbn [s_pass set_pass] in H. destruct (_ && _ && negb _) eqn:B; [|discriminate].
  apply andb_true_iff in B. destruct B as [B _]. apply andb_true_iff in B. destruct B as [_ B]. apply Z.ltb_lt in B.
  eapply IH; [..|exact H]; cbn [s_final set_pass s_pass]; [congruence|lia|]. unfold max_passes in *. lia.
Qed.

Lemma pass_loop_exit F k : forall s c s', pass_loop F k s = Exit c s' -> s_final s = false ->
  s_final s' = false /\ s_opened s' = s_opened s /\ s_out s' = s_out s /\ s_total s' = s_total s /\ s_list s' = s_list s.
Proof.
  induction k as [|k IH]; intros s c s' H Hf; [discriminate|]. rewrite pass_loop_S in H.
  destruct (parse_pass F s) as [u s1|c1 s1| |] eqn:E; try discriminate.
  - pose proof (parse_pass_out _ _ _ (ok_ends _ _ _ _ E)) as (P1 & P2 & P3 & P4 & (l & P5 & P6 & _ & P7 & _) & (kk & P8 & P9) & _).
    specialize (P7 Hf). specialize (P9 Hf). subst l kk. cbn [app length] in *.
    cbv zeta in H. cbn [s_pass set_pass] in H. destruct (_ && _ && negb _) eqn:B; [|discriminate].
    apply IH in H; [|cbn [s_final set_pass]; congruence].
    cbn [s_opened s_out s_total s_list set_pass] in H. destruct H as (H1 & H2 & H3 & H4 & H5).
    split; [assumption|]. split; [congruence|]. split; [congruence|]. split; [lia|congruence].
  - assert (s' = s1) by congruence. subst s'.
    pose proof (parse_pass_out _ _ _ (exit_ends _ _ _ _ E)) as (P1 & P2 & P3 & P4 & (l & P5 & P6 & _ & P7 & _) & (kk & P8 & P9) & _).
    specialize (P7 Hf). specialize (P9 Hf). subst l kk. cbn [app length] in *.
    split; [congruence|]. split; [assumption|]. split; [assumption|]. split; [lia|assumption].
Qed.

(** ** assemble *)
Definition start (s : state) : state := set_errs 0 (set_list [] (set_line 0 (set_final false (set_pass 1 s)))).
Definition errst (n : Z) (s : state) : state := set_errs (s_errs s + 1) (set_msgs (n :: s_msgs s) s).
Definition open_out (s : state) : state := set_opened (g_out (s_cfg s)) (set_final true s).
Lemma assemble_eq F s : assemble F s =
  match pass_loop F 20 (start s) with
  | Ok _ s1 =>
      if max_passes <=? s_pass s1 then Ok (-1) (errst error_maximum_number_of_passes_exceeded s1)
      else if 0 <? s_errs s1 then Ok (-1) s1
      else if g_out (s_cfg s1) && negb (g_canwrite (s_cfg s1))
           then Ok (-1) (errst error_opening_output_file (set_final true s1))
           else match parse_pass F (open_out s1) with
                | Ok _ s2 => Ok 0 s2
                | Exit c s2 => Exit c s2
                | Ub u => Ub u
                | OutOfFuel => OutOfFuel
                end
  | Exit c s1 => Exit c s1
  | Ub u => Ub u
  | OutOfFuel => OutOfFuel
  end.
Proof.
  unfold assemble, bind, modify, gets, ret, err. fold (start s).
  destruct (pass_loop F 20 (start s)) as [b s1|c s1| |]; try reflexivity.
  destruct (max_passes <=? s_pass s1); [reflexivity|]. destruct (0 <? s_errs s1); [reflexivity|].
  cbn [s_cfg set_final]. destruct (g_out (s_cfg s1) && negb (g_canwrite (s_cfg s1))); reflexivity.
Qed.

(** the state in which the output file is opened, if it is *)
Lemma assemble_cases F s s' : ends (assemble F) s s' ->
  (s_opened s' = s_opened s /\ s_out s' = s_out s /\ s_total s' = s_total s /\
     (forall r, assemble F s = Ok r s' -> r = -1)) \/
  (exists s1 s0 u, pass_loop F 20 (start s) = Ok true s1 /\
     s_pass s1 < max_passes /\ clean_state s1 /\
     parse_pass F s0 = Ok u (set_pass (s_pass s1 - 1) s1) /\
     s_out s1 = s_out s /\ s_total s1 = s_total s /\ s_cfg s1 = s_cfg s /\ s_final s1 = false /\
     (g_out (s_cfg s1) = true -> g_canwrite (s_cfg s1) = true) /\
     ends (parse_pass F) (open_out s1) s' /\ (forall r, assemble F s = Ok r s' -> r = 0)).
Proof.
  intros H. unfold ends in H. rewrite assemble_eq in *.
  destruct (pass_loop F 20 (start s)) as [cl s1|c s1| |] eqn:E;
    try (exfalso; destruct H as [[a H]|[a H]]; discriminate).
  - pose proof (pass_loop_ok _ _ _ _ _ E eq_refl) as (P1 & P2 & P3 & P4 & P5 & P6 & P7 & P8 & P9 & P10 & P11 & s0 & u & P12).
    cbn [s_opened s_out s_total s_cfg start set_errs set_list set_line set_final set_pass] in P5, P6, P7, P9.
    destruct (max_passes <=? s_pass s1) eqn:B1.
    { left. destruct H as [[a H]|[a H]]; [|discriminate]. injection H as <- <-.
      split; [assumption|]. split; [assumption|]. split; [assumption|]. intros r H; congruence. }
    apply Z.leb_gt in B1.
    destruct (0 <? s_errs s1) eqn:B2.
    { left. destruct H as [[a H]|[a H]]; [|discriminate]. injection H as <- <-.
      split; [assumption|]. split; [assumption|]. split; [assumption|]. intros r H; congruence. }
    destruct (g_out (s_cfg s1) && negb (g_canwrite (s_cfg s1))) eqn:B3.
    { left. destruct H as [[a H]|[a H]]; [|discriminate]. injection H as <- <-.
      split; [assumption|]. split; [assumption|]. split; [assumption|]. intros r H; congruence. }
    right. apply Z.ltb_ge in B2.
    assert (M : s_errs s1 = 0).
    { pose proof (parse_pass_out _ _ _ (ok_ends _ _ _ _ P12)) as (_ & _ & _ & _ & _ & _ & (m & _ & M)).
      cbn [s_errs set_pass] in M. lia. }
    assert (cl = true). { destruct cl; auto. destruct (P11 eq_refl); [congruence|lia]. } subst cl.
    exists s1, s0, u.
    split; [reflexivity|]. split; [assumption|]. split; [apply P10; reflexivity|]. split; [assumption|].
    split; [assumption|]. split; [assumption|]. split; [assumption|]. split; [assumption|]. split.
    { intros G. rewrite G in B3. cbn in B3. destruct (g_canwrite (s_cfg s1)); auto. }
    destruct (parse_pass F (open_out s1)) as [u2 s2|c2 s2| |] eqn:E2;
      try (exfalso; destruct H as [[a H]|[a H]]; discriminate).
    + split; [|intros r H2; congruence]. left. exists u2. destruct H as [[a H]|[a H]]; congruence.
    + split; [|intros r H2; congruence]. right. exists c2. destruct H as [[a H]|[a H]]; congruence.
  - left. assert (s' = s1) by (destruct H as [[a H]|[a H]]; congruence). subst s'.
    apply pass_loop_exit in E; [|reflexivity]. destruct E as (_ & E1 & E2 & E3 & _).
    split; [exact E1|]. split; [exact E2|]. split; [exact E3|]. intros r H2; discriminate.
Qed.
