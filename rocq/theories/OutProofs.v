(** Output and pass-level facts used by Prop_Pass.v. *)
From Coq Require Import String Lia.
From Verif Require Import Base BaseProofs Hash Dict Str Opcodes Err State Sym Machine Build Pass Lexer Parser Prog GenX Gen GenFront Inv PassProofs.
Open Scope string_scope.
Open Scope list_scope.
Open Scope Z_scope.
Open Scope m_scope.

Lemma expand_out F p s s' : ends (expand F p) s s' -> with_fix Rout s s'.
Proof. intros H. eapply prs_ends; [|exact H]. apply expand_prs, Rout_closed. Qed.
Lemma run_line_out F l s s' : ends (run_line (expand F) l) s s' -> with_fix Rout s s'.
Proof. intros H. eapply prs_ends; [|exact H]. apply run_line_prs; [apply Rout_closed|apply Rout_build]. Qed.
Lemma expand_msgs F p s s' : ends (expand F p) s s' -> with_fix Rmsgs s s'.
Proof. intros H. eapply prs_ends; [|exact H]. apply expand_prs, Rmsgs_closed. Qed.

Lemma expand_append F p s s' : ends (expand F p) s s' ->
  exists l, s_out s' = l ++ s_out s /\ s_total s' = s_total s + Z.of_nat (length l) /\ Forall (fun b => 0 <= b < 256) l.
Proof. intros H. apply expand_out in H. destruct H as [_ (l & k & H1 & H2 & H3 & _)]. exists l; auto. Qed.

Lemma assemble_append F s s' : ends (assemble F) s s' ->
  exists l, s_out s' = l ++ s_out s /\ s_total s' = s_total s + Z.of_nat (length l) /\ Forall (fun b => 0 <= b < 256) l.
Proof.
  intros H. apply assemble_cases in H. destruct H as [(_ & H1 & H2 & _)|H].
  - exists []. rewrite H1, H2. cbn. repeat split; auto; lia.
  - destruct H as (s1 & s0 & u & _ & _ & _ & _ & H1 & H2 & _ & _ & _ & H3 & _).
    apply parse_pass_out in H3. destruct H3 as (_ & _ & _ & _ & (l & A1 & A2 & A3 & _) & _).
    exists l. cbn [open_out s_out s_total set_opened set_final] in *.
    unfold open_out in A1, A2. cbn [s_out s_total set_opened set_final] in A1, A2.
    rewrite A1, A2, H1, H2. auto.
Qed.

(** bytes are only written where the file position has reached the address *)
Definition file_pos (s : state) : Z := if s_total s =? 0 then (if s_c64 s then 2 else 0) else s_total s.

Lemma generate_output_no_gap F p s n s' : generate_output (expand F) p s = Ok n s' -> n <> 0 -> s_pc s - s_origin s <= file_pos s.
Proof.
  unfold generate_output, bind, gets, ret.
  destruct (negb (s_opened s) || negb (s_org_spec s)) eqn:B; [intros H; inversion H; subst; congruence|].
  apply orb_false_iff in B. destruct B as [_ B]. apply negb_false_iff in B.
  assert (W : when (s_total s =? 0) write_header s =
              Ok tt (if s_total s =? 0
                     then (if s_c64 s then set_delta 2 (set_out (s_origin s / 256 mod 256 :: s_origin s mod 256 :: s_out s)
                                                        (set_total (s_total s + 1 + 1) (set_delta 0 s)))
                           else set_delta 0 s) else s)).
  { unfold when, write_header, bind, gets, modify, ret, when.
    destruct (s_total s =? 0); [|reflexivity]. cbn [s_org_spec set_delta]. rewrite B. cbn [negb].
    unfold ret. cbn [s_c64 set_delta]. destruct (s_c64 s); reflexivity. }
  rewrite W. clear W. unfold file_pos.
  intros H Hn. destruct (s_total s =? 0) eqn:T; [apply Z.eqb_eq in T|].
  - destruct (s_c64 s) eqn:Hc;
      cbn [s_pc s_origin s_total set_delta set_out set_total] in H;
      match type of H with context [0 <? ?e] => destruct (0 <? e) eqn:L end; unfold err, modify, exit_ in H;
      try discriminate; apply Z.ltb_ge in L; lia.
  - match type of H with context [0 <? ?e] => destruct (0 <? e) eqn:L end; unfold err, modify, exit_ in H;
      try discriminate; apply Z.ltb_ge in L; lia.
Qed.

(** ** analysis passes *)
Lemma expand_quiet F p s s' : s_final s = false -> ends (expand F p) s s' ->
  s_out s' = s_out s /\ s_total s' = s_total s /\ s_list s' = s_list s /\ s_warns s' = s_warns s /\ s_final s' = false.
Proof.
  intros Hf H. apply expand_out in H. destruct H as [(_ & F2 & _) (l & k & H1 & H2 & _ & H3 & _ & H4 & _)].
  destruct (H4 Hf) as (-> & -> & H5 & _). cbn in *. repeat split; try congruence; lia.
Qed.
Lemma run_line_quiet F l s s' : s_final s = false -> ends (run_line (expand F) l) s s' ->
  s_out s' = s_out s /\ s_total s' = s_total s /\ s_list s' = s_list s /\ s_warns s' = s_warns s /\ s_final s' = false.
Proof.
  intros Hf H. apply run_line_out in H. destruct H as [(_ & F2 & _) (l1 & k & H1 & H2 & _ & H3 & _ & H4 & _)].
  destruct (H4 Hf) as (-> & -> & H5 & _). cbn in *. repeat split; try congruence; lia.
Qed.
Lemma parse_pass_quiet F s s' : s_final s = false -> ends (parse_pass F) s s' ->
  s_out s' = s_out s /\ s_total s' = s_total s /\ s_list s' = s_list s.
Proof.
  intros Hf H. apply parse_pass_out in H.
  destruct H as (_ & _ & _ & _ & (l & H1 & H2 & _ & H3 & _) & (k & H4 & H5) & _).
  rewrite (H3 Hf), (H5 Hf) in *. cbn in *. repeat split; auto; lia.
Qed.

(** ** .END *)
Lemma expand_stopped F p s : s_stop s = true -> expand (S F) p s = Ok 0 s.
Proof. intros H. cbn [expand]. unfold bind, gets, ret. rewrite H. reflexivity. Qed.

Lemma x_end_stops ex s s' v F p x : x_node ex F p x s = Ok v s' -> n_kind x = KOpr OEnd -> s_stop s' = true.
Proof. intros H K. unfold x_node in H. rewrite K in H. cbn in H. injection H as _ <-. reflexivity. Qed.

(** ** the pass loop and assemble *)
Lemma assemble_pass_count F s r s' : assemble F s = Ok r s' ->
  Z.of_nat (s_gen s) + 1 <= Z.of_nat (s_gen s') <= Z.of_nat (s_gen s) + 20 /\ 2 <= s_pass s' <= 20 /\
  (r = 0 -> Z.of_nat (s_gen s') = Z.of_nat (s_gen s) + s_pass s' /\ s_pass s' < 20).
Proof.
  rewrite assemble_eq. destruct (pass_loop F 20 (start s)) as [cl s1|c s1| |] eqn:E; try discriminate.
  pose proof (pass_loop_ok _ _ _ _ _ E eq_refl) as (P1 & P2 & P3 & _).
  unfold start in P1, P2, P3. cbn [s_pass s_gen set_errs set_list set_line set_final set_pass] in P1, P2, P3.
  unfold max_passes in *.
  destruct (20 <=? s_pass s1) eqn:B1.
  { intros H. assert (r = -1) by congruence. assert (s' = errst error_maximum_number_of_passes_exceeded s1) by congruence. subst.
    unfold errst. cbn [s_gen s_pass set_errs set_msgs]. repeat split; lia. }
  apply Z.leb_gt in B1.
  destruct (0 <? s_errs s1) eqn:B2.
  { intros H. assert (r = -1) by congruence. assert (s' = s1) by congruence. subst. repeat split; lia. }
  destruct (g_out (s_cfg s1) && negb (g_canwrite (s_cfg s1))).
  { intros H. assert (r = -1) by congruence. assert (s' = errst error_opening_output_file (set_final true s1)) by congruence. subst.
    unfold errst. cbn [s_gen s_pass set_errs set_msgs set_final]. repeat split; lia. }
  destruct (parse_pass F (open_out s1)) as [u s2|c s2| |] eqn:E2; try discriminate.
  intros H. assert (s' = s2) by congruence. assert (r = 0) by congruence. subst.
  pose proof (parse_pass_gen _ _ _ _ E2) as G.
  pose proof (parse_pass_out _ _ _ (ok_ends _ _ _ _ E2)) as (_ & _ & Q & _).
  unfold open_out in *. cbn [s_gen s_pass set_opened set_final] in *. rewrite G, Q. repeat split; lia.
Qed.

Lemma assemble_out_of_fuel F s : assemble F s = OutOfFuel -> exists s0, parse_pass F s0 = OutOfFuel.
Proof.
  rewrite assemble_eq. destruct (pass_loop F 20 (start s)) as [cl s1|c s1| |] eqn:E; try discriminate.
  - destruct (max_passes <=? s_pass s1); [discriminate|]. destruct (0 <? s_errs s1); [discriminate|].
    destruct (_ && _); [discriminate|]. destruct (parse_pass F (open_out s1)) eqn:E2; try discriminate. eauto.
  - intros _. eapply (pass_loop_out_of_fuel F 20 (start s)); [reflexivity| |lia|exact E].
    unfold start, max_passes. cbn [s_pass set_errs set_list set_line set_final set_pass]. lia.
Qed.

Lemma assemble_opens_after_clean F s s' : ends (assemble F) s s' -> s_opened s = false ->
  s_opened s' = true \/ s_out s' <> s_out s ->
  exists s0 u s1, s_final s0 = false /\ parse_pass F s0 = Ok u s1 /\
    s_errs s1 = 0 /\ s_changed s1 = 0 /\ unresolved_symbol_count s1 = 0.
Proof.
  intros H Ho Hw. apply assemble_cases in H. destruct H as [(H1 & H2 & _)|H].
  - exfalso. destruct Hw; congruence.
  - destruct H as (s1 & s0 & u & H0 & H1 & (C1 & C2 & C3) & H2 & H3 & H4 & H5 & H6 & _).
    exists s0, u, (set_pass (s_pass s1 - 1) s1). split; [|split; [assumption|repeat split; assumption]].
    apply ok_ends in H2. apply parse_pass_out in H2. destruct H2 as (_ & H2 & _). cbn in H2. congruence.
Qed.

Lemma assemble_failure_no_output F s r s' : assemble F s = Ok r s' -> r <> 0 ->
  r = -1 /\ s_out s' = s_out s /\ s_opened s' = s_opened s /\ s_total s' = s_total s.
Proof.
  intros H Hr. pose proof (assemble_cases _ _ _ (ok_ends _ _ _ _ H)) as [(H1 & H2 & H3 & H4)|K].
  - rewrite (H4 _ H). auto.
  - destruct K as (s1 & s0 & u & _ & _ & _ & _ & _ & _ & _ & _ & _ & _ & K). apply K in H. congruence.
Qed.

Lemma assemble_zero F s s' : assemble F s = Ok 0 s' ->
  exists s1 u, parse_pass F s1 = Ok u s' /\ s_final s1 = true /\ s_errs s1 = 0 /\ s_changed s1 = 0 /\
    unresolved_symbol_count s1 = 0 /\ s_opened s1 = g_out (s_cfg s).
Proof.
  intros H. pose proof (assemble_cases _ _ _ (ok_ends _ _ _ _ H)) as [(H1 & H2 & H3 & H4)|K].
  - apply H4 in H. discriminate.
  - destruct K as (s1 & s0 & u & H0 & _ & (C1 & C2 & C3) & _ & _ & _ & Hc & _ & _ & K & _).
    exists (open_out s1). unfold open_out in *.
    assert (E : exists u, parse_pass F (set_opened (g_out (s_cfg s1)) (set_final true s1)) = Ok u s').
    { destruct K as [K|[c K]]; auto. exfalso.
      pose proof H as H'. rewrite assemble_eq, H0 in H'. unfold open_out in H'. rewrite K in H'.
      destruct (max_passes <=? _); [congruence|]. destruct (0 <? _); [congruence|]. destruct (_ && _); congruence. }
    destruct E as [u' E]. exists u'. repeat split; auto.
    cbn. rewrite Hc. reflexivity.
Qed.

(** ** after .END, for the rest of the pass *)
Record untouched (s s' : state) : Prop := mkUntouched {
  un_stop : s_stop s' = s_stop s;
  un_out : s_out s' = s_out s;
  un_total : s_total s' = s_total s;
  un_pc : s_pc s' = s_pc s;
  un_origin : s_origin s' = s_origin s;
  un_console : s_console s' = s_console s;
  un_changed : s_changed s' = s_changed s;
  un_dict : s_dict s' = s_dict s;
  un_vals : map y_value (s_syms s') = map y_value (s_syms s);
  un_init : map y_init (s_syms s') = map y_init (s_syms s);
  un_plus : s_plus s' = s_plus s;
  un_minus : s_minus s' = s_minus s;
  un_list : exists k, s_list s' = k ++ s_list s /\ Forall (fun r => l_body r = LNone) k
}.
Definition Rend (s s' : state) : Prop := s_stop s = true -> untouched s s'.

Lemma untouched_same s s' : s_stop s' = s_stop s -> s_out s' = s_out s -> s_total s' = s_total s -> s_pc s' = s_pc s ->
  s_origin s' = s_origin s -> s_console s' = s_console s -> s_changed s' = s_changed s -> s_dict s' = s_dict s ->
  s_syms s' = s_syms s -> s_plus s' = s_plus s -> s_minus s' = s_minus s -> s_list s' = s_list s -> untouched s s'.
Proof.
  intros H1 H2 H3 H4 H5 H6 H7 H8 H9 H10 H11 H12. constructor; try congruence.
  exists []. split; [rewrite H12; reflexivity|constructor].
Qed.
Lemma Rend_front : GenFront.front Rend.
Proof.
  constructor.
  - intros s _. apply untouched_same; reflexivity.
  - intros a b c H1 H2 Ha. specialize (H1 Ha). assert (Hb : s_stop b = true) by (rewrite (un_stop _ _ H1); exact Ha).
    specialize (H2 Hb). destruct H1 as [A1 A2 A3 A4 A5 A6 A7 A8 A9 A10 A11 A12 (k1 & A13 & A14)], H2 as [B1 B2 B3 B4 B5 B6 B7 B8 B9 B10 B11 B12 (k2 & B13 & B14)].
    constructor; try congruence. exists (k2 ++ k1). split; [rewrite B13, A13, app_assoc; reflexivity|apply Forall_app; auto].
  - intros n s _. apply untouched_same; reflexivity.
  - intros k ops s _. apply untouched_same; reflexivity.
  - intros n x s _. apply untouched_same; reflexivity.
  - intros a y y' s Hn Hy _. 
    assert (V : y_value y' = y_value y /\ y_init y' = y_init y) by (destruct Hy; auto).
    assert (U : forall (T : Type) (f : symbol -> T), f y' = f y -> map f (upd a y' (s_syms s)) = map f (s_syms s)).
    { intros T f Hf. revert a Hn. generalize (s_syms s). induction l as [|x l IH]; intros [|a] Hn; cbn in *; try discriminate; auto.
      - injection Hn as ->. rewrite Hf; reflexivity.
      - rewrite IH; auto. }
    constructor; try reflexivity.
    + cbn [s_syms set_syms]. apply U, V.
    + cbn [s_syms set_syms]. apply U, V.
    + exists []. split; [reflexivity|constructor].
  - intros v s _. apply untouched_same; reflexivity.
  - intros v s _. apply untouched_same; reflexivity.
  - intros v s _. apply untouched_same; reflexivity.
  - intros s s' H _. unfold list_null, add_list, modify in H. injection H as <-.
    constructor; try reflexivity. eexists [_]. split; [reflexivity|]. constructor; [reflexivity|constructor].
  - intros v s _. apply untouched_same; reflexivity.
  - intros v s _. apply untouched_same; reflexivity.
  - intros v s _. apply untouched_same; reflexivity.
  - intros s _. apply untouched_same; reflexivity.
  - intros v s _. apply untouched_same; reflexivity.
  - intros v s _. apply untouched_same; reflexivity.
  - intros v s _. apply untouched_same; reflexivity.
  - intros v s _. apply untouched_same; reflexivity.
Qed.

Lemma expand_Rend F p s : prs Rend (expand F p) s.
Proof.
  destruct (s_stop s) eqn:E.
  - destruct F; [exact I|]. unfold prs2. rewrite expand_stopped by exact E. apply (GenFront.c_refl _ Rend_front).
  - unfold prs2. destruct (expand F p s); try exact I; intros H; congruence.
Qed.
Lemma parse_files_after_end F l s s' : s_stop s = true -> ends (parse_files F l) s s' -> untouched s s'.
Proof.
  intros Hs H. refine (prs_ends Rend _ _ _ _ H Hs).
  apply GenFront.parse_files_prs; [apply Rend_front|apply expand_Rend].
Qed.
Lemma parse_input_after_end F n s s' : s_stop s = true -> ends (parse_input F n) s s' -> untouched s s'.
Proof.
  intros Hs H. refine (prs_ends Rend _ _ _ _ H Hs).
  apply GenFront.parse_input_prs; [apply Rend_front|apply expand_Rend].
Qed.

(** a line consisting of .END, and all that follows it *)
Lemma node_last s x : nth_error (s_nodes (set_nodes (s_nodes s ++ [x]) s)) (length (s_nodes s)) = Some x.
Proof. cbn [s_nodes set_nodes]. rewrite nth_error_app2 by lia. rewrite Nat.sub_diag. reflexivity. Qed.

Definition end_line (ln : Z) : sline := SrcLine (mkLine ln None SEnd None).
Lemma end_line_stops F ln s r s' : s_skip s = false -> read_line (S F) (end_line ln) s = Ok r s' ->
  r = Some tt /\ s_stop s' = true /\ s_out s' = s_out s /\ s_pc s' = s_pc s /\ s_errs s' = s_errs s /\ s_input s' = s_input s /\
  s_syms s' = s_syms s /\ s_dict s' = s_dict s.
Proof.
  intros Hk. unfold read_line, end_line, bind, gets. rewrite Hk.
  unfold run_line, t_label, t_stmt, t_line. cbn [build_stmt]. unfold bindo, some, alloc, bind, gets, modify, ret.
  cbn [s_nodes set_line]. intros H.
  set (s1 := set_line ln _) in H.
  assert (N : nth_error (s_nodes s1) (length (s_nodes s)) = Some (mkNode (KOpr OEnd) [])).
  { subst s1. cbn [s_nodes set_line set_nodes]. rewrite nth_error_app2 by lia. rewrite Nat.sub_diag. reflexivity. }
  cbn [expand] in H. unfold bind, gets, ret, node_get in H.
  assert (S1 : s_stop s1 = s_stop s) by reflexivity.
  rewrite S1 in H. destruct (s_stop s) eqn:E.
  - injection H as <- <-. repeat split; auto.
  - unfold bind, gets in H. rewrite N in H. unfold ret in H. unfold x_node in H. cbn in H.
    injection H as <- <-. repeat split; auto.
Qed.

Lemma rest_after_end F n ln ls rest s s' : s_skip s = false -> s_input s = (end_line ln :: ls) :: rest ->
  ends (parse_input (S F) (S n)) s s' ->
  s_stop s' = true /\ s_out s' = s_out s /\ s_pc s' = s_pc s /\ s_dict s' = s_dict s /\
  map y_value (s_syms s') = map y_value (s_syms s).
Proof.
  intros Hk Hi H. unfold ends in H. cbn [parse_input] in H. unfold bind, gets, modify in H. rewrite Hi in H.
  set (s0 := set_input (ls :: rest) s) in H.
  destruct (read_line (S F) (end_line ln) s0) as [r s1|c s1| |] eqn:E;
    try (exfalso; destruct H as [[? H]|[? H]]; discriminate).
  - apply end_line_stops in E; [|exact Hk]. destruct E as (-> & E1 & E2 & E3 & _ & _ & E4 & E5).
    assert (U : untouched s1 s') by (eapply parse_input_after_end; [exact E1|exact H]).
    destruct U as [U1 U2 U3 U4 U5 U6 U7 U8 U9 _ _ _ _].
    subst s0. cbn [set_input s_out s_pc s_syms s_dict] in *.
    split; [congruence|]. split; [congruence|]. split; [congruence|]. split; [congruence|]. rewrite U9, E4. reflexivity.
  - exfalso. revert E. unfold read_line, end_line, bind, gets. replace (s_skip s0) with false by (symmetry; exact Hk).
    unfold run_line, t_label, t_stmt, t_line. cbn [build_stmt]. unfold bindo, some, alloc, bind, gets, modify, ret.
    intros E. cbn [expand] in E. unfold bind, gets, ret, node_get in E.
    destruct (s_stop _); [discriminate|]. unfold bind, gets in E.
    match type of E with context [nth_error (s_nodes ?s1) ?k] =>
      assert (N : nth_error (s_nodes s1) k = Some (mkNode (KOpr OEnd) []))
        by (cbn [s_nodes set_line set_nodes]; rewrite nth_error_app2 by lia; rewrite Nat.sub_diag; reflexivity);
      rewrite N in E end.
    cbn in E. discriminate.
Qed.

Lemma pass_loop_20 F j s : s_final s = false -> 1 <= s_pass s -> pass_loop F (20 + j) s = pass_loop F 20 s.
Proof. intros Hf Hp. apply pass_loop_fuel; auto; unfold max_passes; lia. Qed.
Lemma parse_pass_errors F s s' : ends (parse_pass F) s s' ->
  exists m, s_msgs s' = m ++ s_msgs s /\ s_errs s' = Z.of_nat (length m).
Proof. intros H. apply parse_pass_out in H. apply H. Qed.

(** witnesses *)
Lemma w23_offset_is_address_refuted_w : exists l,
  l = ["  .org $1000"; "  nop"; "  * = $0800"; "l  nop"; "  jmp l"] /\
  run l = Some (mkSum false 0 [234; 234; 76; 0; 8] 0 2).
Proof. eexists; split; [reflexivity|vm_compute; reflexivity]. Qed.
Lemma w23_c64_gap_refuted_w : exists l,
  l = ["  .org $1000"; "  nop"; "  .ds 2"; "l  nop"; "  jmp l"] /\
  run_c64 l = Some (mkSum false 0 [0; 16; 234; 234; 76; 3; 16] 0 2).
Proof. eexists; split; [reflexivity|vm_compute; reflexivity]. Qed.
Lemma w26_errors_after_end_w : exists l, l = ["  .org $1000"; "  nop"; "  .end"; "  sta #1"] /\
  run l = Some (mkSum false (-1) [] 1 1).
Proof. eexists; split; [reflexivity|vm_compute; reflexivity]. Qed.
Lemma w28_exit_leaves_file_refuted_w : exists l, l = ["  .org $1000"; "  nop"; "  .ds 5"; "  rts"] /\
  run l = Some (mkSum true (-1) [234] 1 1).
Proof. eexists; split; [reflexivity|vm_compute; reflexivity]. Qed.
Lemma w29_status_refuted_w : exists l, l = ["  .org $1000"; "  .byte $12345"] /\ run l = Some (mkSum false 0 [] 1 1).
Proof. eexists; split; [reflexivity|vm_compute; reflexivity]. Qed.
