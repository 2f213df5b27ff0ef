(** The zero page indirect mode of the 65C02. *)
From Coq Require Import String Lia.
From Verif Require Import Base BaseProofs Hash Dict DictProofs DictMore Str Opcodes Cpu CpuStep OpcodesProofs OpcodesMore Err State Sym Machine Build Pass Prog
  GenX Gen Inv SymProofs SymMore SymEx Sem ExprProofs ExprMore OpProofs OpMore InstrProofs InstrMore FarTwice.
Open Scope list_scope.
Open Scope Z_scope.
Lemma zpi_no_branch ill b i : 0 <= b < 256 -> decode65c02 b = Some (i, m_zpi) -> get_op_code true ill i m_r = -1 /\ operand_bytes i m_zpi = 1.
Proof.
  intros R H.
  assert (C : forallb (fun b => match decode65c02 b with
     | Some (i, m) => negb (m =? m_zpi) || ((get_op_code true ill i m_r =? -1) && (operand_bytes i m_zpi =? 1)) | None => true end) (zseq 0 256) = true)
    by (destruct ill; vm_compute; reflexivity).
  pose proof (forall_range _ 256 C b R) as D. cbn beta in D. rewrite H, Z.eqb_refl in D. cbn [negb orb] in D. lia.
Qed.
Theorem zpi_three b instr e v F s : 0 <= b < 256 -> decode65c02 b = Some (instr, m_zpi) -> s_c02 s = true -> ready s -> operand_value s e v ->
  (height e <= F)%nat -> (s_final s = true -> no_hole s) ->
  operand_bytes instr m_zpi = 1 /\
  exists p s1 s2, build_op (expand F) instr (FInd e) s = Ok (Some p) s1 /\ expand (S F) p s1 = Ok 0 s2 /\
    emits [b; byte v; byte (v / 256)] s s2 /\ s_errs s2 = s_errs s.
Proof.
  intros R D C Rd V Hf NH. destruct (zpi_no_branch (s_ill s) b instr R D) as [Br Ob]. destruct (ops65c02_zpi (s_ill s) b instr R D) as [Z0 Z1]. split; [exact Ob|].
  assert (Hr : has_mode s instr m_r = false) by (unfold has_mode, hasg, ops_of; rewrite C, Br; reflexivity).
  assert (Hz : has_mode s instr m_zpi = false) by (unfold has_mode, hasg, ops_of; rewrite C, Z0; reflexivity).
  assert (Ho : ops_of s instr m_ind = b) by (unfold ops_of; rewrite C; exact Z1).
  assert (Hi : has_mode s instr m_ind = true) by (unfold has_mode, hasg; rewrite Ho; lia).
  destruct (zero_page instr (FInd e) m_ind e v F s eq_refl) as (p & s1 & s2 & B1 & B2 & _ & B3); auto; [vm_compute; tauto|].
  change (zp_form m_ind) with m_zpi in B3. rewrite Hz in B3. cbn [andb] in B3. rewrite Ho in B3. exists p, s1, s2. tauto.
Qed.
Definition at_end_c02 : state := set_c02 true at_end.
Lemma at_end_c02_ready : ready at_end_c02.
Proof.
  split; [apply table_okb_ok; vm_compute; reflexivity|]. split; [intros k _; apply singleb_ok; vm_compute; reflexivity|].
  split; [|vm_compute; reflexivity]. intros c H. vm_compute in H. injection H as <-. apply validsb_ok. vm_compute. reflexivity.
Qed.
Lemma at_end_c02_value : operand_value at_end_c02 (EInt 18) 18.
Proof. split; [reflexivity|]. split; [intros n []|]. split; [reflexivity|]. split; [exact I|]. split; [intros n []|]. reflexivity. Qed.
