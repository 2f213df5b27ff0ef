(** A far branch expanded a second time in the final pass (a macro used twice, a loop body). *)
From Coq Require Import String Lia.
From Verif Require Import Base BaseProofs Hash Dict DictProofs DictMore Str Opcodes Cpu CpuStep OpcodesProofs Err State Sym Machine Build Pass Prog
  Gen Inv SymProofs SymMore SymEx Sem ExprProofs ExprMore OpProofs OpMore InstrProofs InstrMore.
Open Scope string_scope.
Open Scope list_scope.
Open Scope Z_scope.
Open Scope m_scope.

(** a relative branch within reach, whatever its opcode byte *)
Lemma x_op_code_rel C e v F s p q instr c npc0 : (height e <= F)%nat -> tab s -> s_stop s = false -> rep C false s q e ->
  known C (s_pc s) e v -> unknown_name C e = false -> far m_r (s_pc s) v = false ->
  (s_final s = true -> no_gap (org s)) ->
  nth_error (s_nodes s) p = Some (mkNode (KOp instr c m_r npc0) [q]) -> 0 <= c < 256 ->
  exists s', x_op_code (expand F) p s = Ok 0 s' /\ hv s s' /\
    obs s' = step_op (c :: operand m_r (s_pc s) v) false (obs s) /\
    nth_error (s_nodes s') p = Some (mkNode (KOp instr c m_r (s_pc s)) [q]).
Proof.
  intros HF T St R K U Fr G N Bo. unfold x_op_code. unfold bind at 1. rewrite (op_info_eq _ _ _ _ _ _ _ N).
  unfold bind at 1, gets at 1. unfold bind at 1. rewrite when_org.
  destruct (org_same s) as (D1 & D2 & D3 & D4 & D5 & D6 & D7). pose proof (hv_org s T) as H1.
  unfold bind at 1, gets at 1. rewrite D2.
  assert (N1 : nth_error (s_nodes (org s)) p = Some (mkNode (KOp instr c m_r npc0) [q])) by (rewrite D1; exact N).
  unfold bind at 1. rewrite (set_op_eq _ _ _ _ _ _ _ _ N1).
  set (s2 := set_nodes _ (org s)).
  assert (H2 : hv (org s) s2) by (eapply hv_setop; [apply (h_tab _ _ H1)|exact N1]).
  assert (N2 : nth_error (s_nodes s2) p = Some (mkNode (KOp instr c m_r (s_pc s)) [q])) by (eapply upd_here, N1).
  assert (O2 : obs s2 = obs (org s)) by apply obs_set_nodes.
  pose proof (hv_trans _ _ _ H1 H2) as H12. pose proof (rep_hv _ _ _ _ _ _ H12 R) as R2.
  assert (P2 : s_pc s2 = s_pc s) by exact D2. assert (St2 : s_stop s2 = false) by (rewrite <- St; exact D3).
  cbv zeta. change (0 <? op_bytes_of m_r) with true. cbv iota.
  unfold bind at 1. rewrite (has_uninitialized_rep _ _ _ _ _ _ N2 R2). rewrite U. cbn [length op_loop].
  unfold bind at 1. unfold bind at 1. rewrite (op_info_eq _ _ _ _ _ _ _ N2). cbn [nth_error]. unfold bind at 1, ret at 1.
  destruct (eval_known C false e v F s2 q HF (h_tab _ _ H2) St2 R2 ltac:(rewrite P2; exact K)) as (s3 & E3 & H3 & O3 & R3 & P3 & _).
  unfold bind at 1. rewrite E3. pose proof (P3 _ _ _ _ _ _ N2) as N3.
  assert (Q : exists xq, nth_error (s_nodes s3) q = Some xq).
  { destruct (nth_error (s_nodes s3) q) eqn:Z; [eauto|]. apply nth_error_None in Z. apply rep_height in R3. lia. }
  destruct Q as (xq & Nq). unfold bind at 1, node_get at 1. unfold bind at 1, gets at 1. rewrite Nq. unfold ret at 1.
  unfold bind at 1, gets at 1. pose proof (rep_name_char _ _ _ _ _ _ R3 Nq) as Hch. cbv zeta in Hch. rewrite Hch, andb_false_r.
  unfold far in Fr. change (m_r =? m_r) with true in *. cbn [andb] in Fr. change (op_bytes_of m_r) with 2. change (2 <? 2) with false.
  rewrite !andb_false_r. cbn [andb orb length Nat.eqb]. rewrite Fr. unfold ret at 1.
  unfold bind at 1. rewrite (op_info_eq _ _ _ _ _ _ _ N3). change (m_r =? m_r) with true. cbn [negb andb]. rewrite !andb_false_r.
  unfold bind at 1, ret at 1.
  assert (Oa : obs s3 = obs (org s)) by congruence.
  assert (Pa : s_pc s3 = s_pc s) by (rewrite (obs_pc _ _ O3); exact P2).
  assert (Sa : s_stop s3 = false) by (rewrite (obs_stop _ _ O3); exact St2).
  assert (Fa : s_final s3 = s_final s) by (rewrite (obs_field s_final _ _ Oa obs_get_final); exact D6).
  destruct (op_tail C e v F s3 p q instr c m_r (s_pc s) c m_r HF (h_tab _ _ H3) Sa R3 ltac:(rewrite Pa; exact (fun _ => K)) ltac:(vm_compute; intuition congruence) ltac:(reflexivity))
    as (s5 & E5 & H5 & O5 & N5 & _).
  { intros _. unfold far. change (m_r =? m_r) with true. exact Fr. }
  { intros Fn. rewrite Fa in Fn. eapply no_gap_obs; [|exact (G Fn)]. symmetry; exact Oa. }
  { exact N3. } { symmetry. exact Pa. } { intros _. exact Bo. }
  exists s5. split; [exact E5|]. split; [exact (hv_trans _ _ _ H12 (hv_trans _ _ _ H3 H5))|].
  split; [|exact N5]. rewrite O5, Oa, Fa. unfold step_op. rewrite obs_org. obs_simp.
  cbn [length]. rewrite Nat2Z.inj_succ. rewrite operand_length by (vm_compute; intuition congruence). reflexivity.
Qed.

(** the first expansion is as in [far_branch]; the second, whenever it happens in the same (final) pass, writes the
    original branch with the end of the first five bytes as target *)
Theorem far_twice instr f m e v v2 F s : form_mode f = Some (m, e) -> ready s -> operand_value s e v ->
  sem (value_of s) (s_pc s + 2) e = Some (v2, 0) -> (height e <= F)%nat -> (1 <= F)%nat -> 0 <= s_total s -> s_final s = true -> no_hole s ->
  has_mode s instr m_r = true -> (v - (s_pc s + 2) < -127 \/ 128 < v - (s_pc s + 2)) ->
  exists p q s1 s2, build_op (expand F) instr f s = Ok (Some p) s1 /\ expand (S F) p s1 = Ok 0 s2 /\
    emits [ops_of s (invert instr) m_r; 3; 76; byte v2; byte (v2 / 256)] s s2 /\ s_errs s2 = s_errs s /\
    forall s3, ready s3 -> no_hole s3 -> nth_error (s_nodes s3) p = nth_error (s_nodes s2) p -> nth_error (s_nodes s3) q = nth_error (s_nodes s2) q ->
      -127 <= s_pc s + 5 - (s_pc s3 + 2) <= 128 ->
      exists s4, expand (S F) p s3 = Ok 0 s4 /\ emits [ops_of s instr m_r; byte (s_pc s + 5 - (s_pc s3 + 2))] s3 s4 /\ s_errs s4 = s_errs s3.
Proof.
  intros Hf Rd OV V2 HF HF1 Ht Fn NH Hr Rl. destruct (ready_tab _ Rd) as [T St]. destruct (operand_known _ _ _ OV) as (W & P & NA & K & U).
  assert (K2 : known (meaning s) (s_pc s + 2) e v2).
  { split; [|apply K]. rewrite <- V2. apply sem_ext. intros n _. symmetry. apply value_of_env. }
  assert (Us : usable (has_mode s instr) m = true) by (unfold usable; rewrite Hr; reflexivity).
  pose proof (build_op_ok instr f m e v F s Hf T St W P NA HF K) as OK. rewrite U in OK.
  destruct (select_ok (ops_of s instr) m v (form_src _ _ _ Hf) (ops_range s instr) Us) as (S1 & S2 & _ & _ & _ & _ & S7).
  destruct (build_mode _ _ _ _) as [m2 c2] eqn:BM. cbn [fst snd] in *.
  assert (m2 = m_r) as ->. { apply Z.eqb_eq. rewrite S7. exact Hr. }
  assert (C2 : 0 <= c2) by (rewrite S1; apply has_nonneg, S2).
  destruct OK as (p & q & s1 & E1 & H1 & O1 & R1 & N1). destruct (c2 <? 0) eqn:X; [apply Z.ltb_lt in X; lia|]. clear X.
  assert (St1 : s_stop s1 = false) by (rewrite (obs_stop _ _ O1); exact St).
  assert (P1 : s_pc s1 = s_pc s) by apply (obs_pc _ _ O1).
  assert (F1 : s_final s1 = true) by (rewrite (obs_field s_final _ _ O1 obs_get_final); exact Fn).
  assert (G1 : get_op_code (s_c02 s1) (s_ill s1) (invert instr) m_r = ops_of s (invert instr) m_r).
  { unfold ops_of. rewrite (obs_field s_c02 _ _ O1 obs_get_c02), (obs_field s_ill _ _ O1 obs_get_ill). reflexivity. }
  assert (Hi : has_mode s (invert instr) m_r = true).
  { unfold has_mode, hasg, ops_of in *. apply negb_true_iff, Z.eqb_neq. apply negb_true_iff, Z.eqb_neq in Hr. apply invert_branch, Hr. }
  destruct (x_op_code_far (meaning s) e v v2 F s1 p q instr c2 0 HF HF1 (h_tab _ _ H1) St1 R1) as (q' & s2 & E2 & H2 & O2 & N2 & Q2).
  { rewrite P1. exact K. } { rewrite P1. intros _. exact K2. } { exact U. } { exact NA. }
  { rewrite P1. unfold far. change (m_r =? m_r) with true. cbn [andb]. apply orb_true_iff. rewrite !Z.ltb_lt. lia. }
  { rewrite G1. pose proof (has_nonneg _ _ _ Hi). lia. }
  { intros _. eapply no_gap_obs; [|apply no_hole_gap, NH]. rewrite !obs_org, O1. reflexivity. }
  { exact N1. }
  rewrite F1, P1 in *.
  exists p, q', s1, s2. split; [exact E1|]. split; [rewrite (expand_op _ _ _ _ _ _ _ _ St1 N1); exact E2|].
  rewrite G1, O1 in O2. destruct (step_far_emits _ _ _ _ Ht O2) as (Em & Er & Wn). cbn [map] in Em. rewrite (ops_byte _ _ _ Hi) in Em.
  split; [exact Em|]. split; [exact Er|].
  intros s3 Rd3 NH3 Np Nq Rl3. destruct (ready_tab _ Rd3) as [T3 St3]. rewrite N2 in Np. rewrite Q2 in Nq.
  destruct (x_op_code_rel (meaning s3) (EInt (s_pc s + 5)) (s_pc s + 5) F s3 p q' (invert instr) c2 (s_pc s) ltac:(cbn; lia) T3 St3) as (s4 & E4 & H4 & O4 & _).
  { apply RepInt. exact Nq. } { split; [|reflexivity]. reflexivity. } { reflexivity. }
  { unfold far. change (m_r =? m_r) with true. cbn [andb]. apply orb_false_iff. rewrite !Z.ltb_ge. lia. }
  { intros _. apply no_hole_gap, NH3. } { exact Np. }
  { rewrite S1. pose proof (get_op_code_range (s_c02 s) (s_ill s) instr m_r). pose proof (has_nonneg _ _ _ Hr). unfold ops_of in *. lia. }
  exists s4. split; [rewrite (expand_op _ _ _ _ _ _ _ _ St3 Np); exact E4|].
  destruct (step_op_emits _ _ _ _ O4) as [Em4 Er4].
  assert (Cc : c2 = ops_of s instr m_r) by exact S1.
  change (c2 :: operand m_r (s_pc s3) (s_pc s + 5)) with (code c2 m_r (s_pc s3) (s_pc s + 5)) in Em4. rewrite code_r, Cc, (ops_byte _ _ _ Hr) in Em4.
  split; [exact Em4|]. rewrite Er4. cbn. lia.
Qed.

(** a macro with a far branch, used twice: the second use is a branch to itself, and the address of [done] is 3 too large *)
Definition twice_prog : list string :=
  ["  .org $1000"; "  .macro ma"; "  beq done"; "  .endm"; "  ma"; "  ma"; "  .repeat"; "  nop"; "  .until * > $1100"; "done rts"].
Lemma w15_twice : exists u, run twice_prog = Some u /\ u_code u = 0 /\ u_errs u = 0 /\ 
  firstn 7 (u_bytes u) = [208; 3; 76; 1; 17; 240; 254] /\ length (u_bytes u) = 258%nat.
Proof. eexists. split; [vm_compute; reflexivity|]. repeat split; vm_compute; reflexivity. Qed.
Lemma w14_bvs : exists u, run ["  .org $1000"; "  bvs done"; "  .repeat"; "  nop"; "  .until * > $1100"; "done rts"] = Some u /\ u_code u = 0 /\ u_errs u = 0 /\
  firstn 5 (u_bytes u) = [112; 3; 76; 1; 17].
Proof. eexists. split; [vm_compute; reflexivity|]. repeat split; vm_compute; reflexivity. Qed.
(** * in the target is the address of the jmp: the target should be $1200 *)
Lemma w14_star : exists u, run ["  .org $1000"; "  beq * + $200"; "  rts"] = Some u /\ u_code u = 0 /\ u_errs u = 0 /\
  u_bytes u = [208; 3; 76; 2; 18; 96].
Proof. eexists. split; [vm_compute; reflexivity|]. repeat split; vm_compute; reflexivity. Qed.
Lemma w13_forward : exists u, run (["  .org $1000"; "  beq done"] ++ repeat "  nop" 128 ++ ["done rts"])%list = Some u /\ u_code u = 0 /\ u_errs u = 0 /\
  firstn 2 (u_bytes u) = [240; 128] /\ length (u_bytes u) = 131%nat.
Proof. eexists. split; [vm_compute; reflexivity|]. repeat split; vm_compute; reflexivity. Qed.
Lemma w32_big : exists u, run ["  .org $1000"; "  lda #$10000"; "  lda #-1"; "  rts"] = Some u /\ u_code u = 0 /\ u_errs u = 0 /\
  u_bytes u = [169; 0; 169; 255; 96].
Proof. eexists. split; [vm_compute; reflexivity|]. repeat split; vm_compute; reflexivity. Qed.

(** a state of the final pass: the output file open at $2000, nothing written *)
Definition at_end : state :=
  set_pc 8192 (set_origin 8192 (set_total 0 (set_out [] (set_org_spec true (set_opened true (set_final true in_one)))))).
Lemma at_end_ready : ready at_end.
Proof.
  split; [apply table_okb_ok; vm_compute; reflexivity|]. split; [intros k _; apply singleb_ok; vm_compute; reflexivity|].
  split; [|vm_compute; reflexivity]. intros c H. vm_compute in H. injection H as <-. apply validsb_ok. vm_compute. reflexivity.
Qed.
Lemma at_end_hole : no_hole at_end.
Proof. vm_compute. discriminate. Qed.
(** x0 + 3 = 8, x0 + 300 = 305, and branch targets *)
Definition e_small : expr := EBin OPlus (ESym (cs "x0")) (EInt 3).
Definition e_big : expr := EBin OPlus (ESym (cs "x0")) (EInt 300).
Definition e_near : expr := EBin OPlus (ESym (cs "x0")) (EInt 8200).
Definition e_far : expr := EBin OPlus (ESym (cs "x0")) (EInt 16384).
Definition e_128 : expr := EBin OPlus (ESym (cs "x0")) (EInt 8317).
Lemma at_end_value e v n : e = EBin OPlus (ESym (cs "x0")) (EInt n) -> sem (value_of at_end) (s_pc at_end) e = Some (v, 0) -> operand_value at_end e v.
Proof.
  intros -> V. split; [reflexivity|]. split; [|split; [reflexivity|split; [exact I|split; [|exact V]]]].
  - intros k [<-|[]]. split; [plain_tac|]. intros y. vm_compute. intros H. injection H as <-. reflexivity.
  - intros k [<-|[]]. eexists. split; vm_compute; reflexivity.
Qed.
Lemma v_small : operand_value at_end e_small 8.
Proof. apply (at_end_value _ _ 3 eq_refl). vm_compute. reflexivity. Qed.
Lemma v_big : operand_value at_end e_big 305.
Proof. apply (at_end_value _ _ 300 eq_refl). vm_compute. reflexivity. Qed.
Lemma v_near : operand_value at_end e_near 8205.
Proof. apply (at_end_value _ _ 8200 eq_refl). vm_compute. reflexivity. Qed.
Lemma v_far : operand_value at_end e_far 16389.
Proof. apply (at_end_value _ _ 16384 eq_refl). vm_compute. reflexivity. Qed.
Lemma v_128 : operand_value at_end e_128 8322.
Proof. apply (at_end_value _ _ 8317 eq_refl). vm_compute. reflexivity. Qed.
