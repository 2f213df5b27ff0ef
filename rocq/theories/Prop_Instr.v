(** Properties of single instructions (node.cc:321-439, expand.cc:800-1017, genoutput.cc), see properties.jsonl.
    [ready] asks for a well-formed symbol table and that .END was not met; [operand_value s e v] that the operand [e]
    has the value [v] at the program counter; [no_hole] that no gap would be left in the file. *)
From Coq Require Import String Lia.
From Verif Require Import Base BaseProofs Hash Dict DictProofs DictMore Str Opcodes Cpu CpuStep OpcodesProofs Err State Sym Machine Build Pass Prog
  SymProofs SymEx Sem ExprProofs ExprMore OpProofs InstrProofs InstrMore FarTwice.
Open Scope string_scope.
Open Scope list_scope.
Open Scope Z_scope.

(** ** C12 *)
(** What is written for an instruction with an operand is an opcode byte and as many operand bytes as the processor
    expects; the processor decodes the instruction and the selected addressing mode, and its operand is the value of
    the expression (for a branch: the address branched to).  The program counter moves by the number of bytes. *)
Theorem C12_with_operand : forall instr f m e v F s, form_mode f = Some (m, e) -> ready s -> operand_value s e v ->
  (height e <= F)%nat -> usable (has_mode s instr) m = true -> (s_final s = true -> no_hole s) ->
  let k := fst (select (has_mode s instr) m v) in
  regular (s_c02 s) instr k = true -> (k = m_r -> -127 <= v - (s_pc s + 2) <= 127) ->
  exists p s1 s2 opc ops, build_op (expand F) instr f s = Ok (Some p) s1 /\ expand (S F) p s1 = Ok 0 s2 /\
    emits (opc :: ops) s s2 /\ decode (s_c02 s) opc = Some (instr, k) /\ Z.of_nat (length ops) = operand_bytes instr k /\
    Forall (fun b => 0 <= b < 256) (opc :: ops) /\
    (if k =? m_r then v = s_pc s + 2 + signed (le_value ops) else le_value ops = v mod 256 ^ operand_bytes instr k).
Proof. exact encode_decode. Qed.
Print Assumptions C12_with_operand.

Theorem C12_implied : forall instr F s, ready s -> has_mode s instr m_r = false -> has_mode s instr m_i = true ->
  (s_final s = true -> no_hole s) ->
  exists p s1 s2, build_op (expand F) instr FImp s = Ok (Some p) s1 /\ expand (S F) p s1 = Ok 0 s2 /\
    emits [ops_of s instr m_i] s s2 /\ s_errs s2 = s_errs s /\ (forall n, plain n -> value_of s2 n = value_of s n).
Proof. exact instruction0. Qed.
Print Assumptions C12_implied.

(** [asl A]; the name A has no entry in the symbol table (the assembler never makes one) *)
Theorem C12_accumulator : forall instr n F s, ready s -> valids n -> is_A n = true -> resolve s (s_scope s) n = None ->
  has_mode s instr m_r = false -> has_mode s instr m_A = true -> (1 <= F)%nat -> (s_final s = true -> no_hole s) ->
  exists p s1 s2, build_op (expand F) instr (FAbs (ESym n)) s = Ok (Some p) s1 /\ expand (S F) p s1 = Ok 0 s2 /\
    emits [ops_of s instr m_A] s s2 /\ s_errs s2 = s_errs s /\ (forall n, plain n -> value_of s2 n = value_of s n).
Proof. exact instruction_acc. Qed.
Print Assumptions C12_accumulator.
Example C12_accumulator_example : ready at_end /\ no_hole at_end /\ valids (cs "a") /\ is_A (cs "a") = true /\
  resolve at_end (s_scope at_end) (cs "a") = None /\ has_mode at_end i_rol m_r = false /\ has_mode at_end i_rol m_A = true /\
  ops_of at_end i_rol m_A = 42.
Proof.
  split; [exact at_end_ready|]. split; [exact at_end_hole|]. split; [apply validsb_ok; vm_compute; reflexivity|].
  repeat split; vm_compute; reflexivity.
Qed.

(** the opcode bytes above are the ones the processor decodes *)
Theorem C12_opcode : forall s i k, has_mode s i k = true -> regular (s_c02 s) i k = true ->
  decode (s_c02 s) (ops_of s i k) = Some (i, canon (s_c02 s) i k).
Proof. exact decode_ok. Qed.
Print Assumptions C12_opcode.

(** lda x0+300,y with x0 = 5 in the final pass *)
Example C12_example : ready at_end /\ no_hole at_end /\ operand_value at_end e_big 305 /\ form_mode (FAbsY e_big) = Some (m_ay, e_big) /\
  usable (has_mode at_end i_lda) m_ay = true /\ fst (select (has_mode at_end i_lda) m_ay 305) = m_ay /\
  regular (s_c02 at_end) i_lda m_ay = true /\ ops_of at_end i_lda m_ay = 185 /\
  (s_final at_end && s_opened at_end && s_org_spec at_end) = true.
Proof.
  split; [exact at_end_ready|]. split; [exact at_end_hole|]. split; [exact v_big|]. split; [reflexivity|].
  repeat split; vm_compute; reflexivity.
Qed.

(** ** C13 *)
(** A branch whose target lies -127..128 bytes from the next instruction is written as opcode and displacement without
    error; the displacement leads to the target, except at +128, where it leads to 256 bytes before it. *)
Theorem C13_displacement : forall instr f m e v F s, form_mode f = Some (m, e) -> ready s -> operand_value s e v ->
  (height e <= F)%nat -> (s_final s = true -> no_hole s) -> has_mode s instr m_r = true ->
  -127 <= v - (s_pc s + 2) <= 128 ->
  exists p s1 s2 d, build_op (expand F) instr f s = Ok (Some p) s1 /\ expand (S F) p s1 = Ok 0 s2 /\
    emits [ops_of s instr m_r; d] s s2 /\ s_errs s2 = s_errs s /\ (forall n, plain n -> value_of s2 n = value_of s n) /\
    s_pc s + 2 + signed d = (if v =? s_pc s + 130 then v - 256 else v).
Proof. exact branch. Qed.
Print Assumptions C13_displacement.

(** a whole program: beq over 128 bytes is assembled as beq -128, exit status 0 and no error *)
Theorem C13_plus128_refuted : exists u, run (["  .org $1000"; "  beq done"] ++ repeat "  nop" 128 ++ ["done rts"]) = Some u /\
  u_code u = 0 /\ u_errs u = 0 /\ firstn 2 (u_bytes u) = [240; 128] /\ length (u_bytes u) = 131%nat.
Proof. exact w13_forward. Qed.
Print Assumptions C13_plus128_refuted.

(** bne to x0+8200 = 8205 and to x0+8317 = 8322 = 8192+130, from 8192 *)
Example C13_example : ready at_end /\ no_hole at_end /\ has_mode at_end i_bne m_r = true /\ s_pc at_end = 8192 /\
  operand_value at_end e_near 8205 /\ operand_value at_end e_128 8322.
Proof.
  split; [exact at_end_ready|]. split; [exact at_end_hole|]. split; [vm_compute; reflexivity|]. split; [vm_compute; reflexivity|].
  split; [exact v_near|exact v_128].
Qed.

(** ** C14 *)
(** A branch whose target is out of reach is written as five bytes with a warning and without an error.  Executed by a
    6502 in any state they continue at the target ([v2]: the value of the operand at the address of the jmp) iff the
    branch would have been taken, for bcc bcs beq bne bmi bpl; for bvc bvs bra they do so iff it would not. *)
Theorem C14_far_branch : forall instr f m e v v2 F s, form_mode f = Some (m, e) -> ready s -> operand_value s e v ->
  sem (value_of s) (s_pc s + 2) e = Some (v2, 0) -> (height e <= F)%nat -> (1 <= F)%nat -> 0 <= s_total s -> (s_final s = true -> no_hole s) ->
  In instr (inverted ++ kept_branches) -> has_mode s instr m_r = true -> 0 <= s_pc s < 65530 ->
  (v - (s_pc s + 2) < -127 \/ 128 < v - (s_pc s + 2)) ->
  exists p s1 s2 bytes, build_op (expand F) instr f s = Ok (Some p) s1 /\ expand (S F) p s1 = Ok 0 s2 /\
    length bytes = 5%nat /\ emits bytes s s2 /\ s_errs s2 = s_errs s /\ (s_final s = true -> s_warns s2 = s_warns s + 1) /\
    (forall n, plain n -> value_of s2 n = value_of s n) /\
    forall mem c t, g_pc c = s_pc s -> holds mem (s_pc s) bytes -> taken instr c = Some t ->
      (In instr inverted -> steps (if t then 2 else 1) (s_c02 s) mem c = Some (goto (if t then v2 else s_pc s + 5) c)) /\
      (In instr kept_branches -> steps (if t then 1 else 2) (s_c02 s) mem c = Some (goto (if t then s_pc s + 5 else v2) c)).
Proof. exact far_branch. Qed.
Print Assumptions C14_far_branch.

(** bvs is not inverted: the program jumps when it should not *)
Theorem C14_bvs_refuted : exists u, run ["  .org $1000"; "  bvs done"; "  .repeat"; "  nop"; "  .until * > $1100"; "done rts"] = Some u /\
  u_code u = 0 /\ u_errs u = 0 /\ firstn 5 (u_bytes u) = [112; 3; 76; 1; 17].
Proof. exact w14_bvs. Qed.
Print Assumptions C14_bvs_refuted.
(** a target given with * is 2 too high: $1202 instead of $1200 *)
Theorem C14_star_refuted : exists u, run ["  .org $1000"; "  beq * + $200"; "  rts"] = Some u /\ u_code u = 0 /\ u_errs u = 0 /\
  u_bytes u = [208; 3; 76; 2; 18; 96].
Proof. exact w14_star. Qed.
Print Assumptions C14_star_refuted.

(** beq from 8192 to x0+16384 = 16389 *)
Example C14_example : ready at_end /\ no_hole at_end /\ operand_value at_end e_far 16389 /\
  sem (value_of at_end) (s_pc at_end + 2) e_far = Some (16389, 0) /\ s_total at_end = 0 /\
  In i_beq inverted /\ has_mode at_end i_beq m_r = true /\ s_pc at_end = 8192.
Proof.
  split; [exact at_end_ready|]. split; [exact at_end_hole|]. split; [exact v_far|]. split; [vm_compute; reflexivity|].
  split; [vm_compute; reflexivity|]. split; [cbn; auto|]. split; vm_compute; reflexivity.
Qed.

(** ** C15 *)
(** Expanded again in the final pass, the node of a far branch writes two bytes: the branch as it was written in the
    source, but to the end of the first five bytes; directly after them that is a branch to itself. *)
Theorem C15_expanded_twice : forall instr f m e v v2 F s, form_mode f = Some (m, e) -> ready s -> operand_value s e v ->
  sem (value_of s) (s_pc s + 2) e = Some (v2, 0) -> (height e <= F)%nat -> (1 <= F)%nat -> 0 <= s_total s -> s_final s = true -> no_hole s ->
  has_mode s instr m_r = true -> (v - (s_pc s + 2) < -127 \/ 128 < v - (s_pc s + 2)) ->
  exists p q s1 s2, build_op (expand F) instr f s = Ok (Some p) s1 /\ expand (S F) p s1 = Ok 0 s2 /\
    emits [ops_of s (invert instr) m_r; 3; 76; byte v2; byte (v2 / 256)] s s2 /\ s_errs s2 = s_errs s /\
    forall s3, ready s3 -> no_hole s3 -> nth_error (s_nodes s3) p = nth_error (s_nodes s2) p -> nth_error (s_nodes s3) q = nth_error (s_nodes s2) q ->
      -127 <= s_pc s + 5 - (s_pc s3 + 2) <= 128 ->
      exists s4, expand (S F) p s3 = Ok 0 s4 /\ emits [ops_of s instr m_r; byte (s_pc s + 5 - (s_pc s3 + 2))] s3 s4 /\ s_errs s4 = s_errs s3.
Proof. exact far_twice. Qed.
Print Assumptions C15_expanded_twice.

(** a macro with a far branch used twice: D0 03 4C 01 11, then F0 FE; exit status 0, no error *)
Theorem C15_macro_refuted : exists u, run twice_prog = Some u /\ u_code u = 0 /\ u_errs u = 0 /\
  firstn 7 (u_bytes u) = [208; 3; 76; 1; 17; 240; 254] /\ length (u_bytes u) = 258%nat.
Proof. exact w15_twice. Qed.
Print Assumptions C15_macro_refuted.

Example C15_example : ready at_end /\ no_hole at_end /\ s_final at_end = true /\ operand_value at_end e_far 16389 /\
  has_mode at_end i_beq m_r = true /\ twice_prog = ["  .org $1000"; "  .macro ma"; "  beq done"; "  .endm"; "  ma"; "  ma"; "  .repeat"; "  nop";
    "  .until * > $1100"; "done rts"].
Proof.
  split; [exact at_end_ready|]. split; [exact at_end_hole|]. split; [reflexivity|]. split; [exact v_far|].
  split; [vm_compute; reflexivity|reflexivity].
Qed.

(** ** C31 *)
(** The zero-page form is written iff the instruction has one and the value is a byte (or there is no absolute form);
    an error is reported iff only the zero-page form exists and the value is a 16-bit value that is not a byte. *)
Theorem C31_zero_page : forall instr f m e v F s, form_mode f = Some (m, e) -> In m long_modes -> ready s -> operand_value s e v ->
  (height e <= F)%nat -> (s_final s = true -> no_hole s) -> has_mode s instr m_r = false ->
  has_mode s instr m = true \/ has_mode s instr (zp_form m) = true ->
  exists p s1 s2, build_op (expand F) instr f s = Ok (Some p) s1 /\ expand (S F) p s1 = Ok 0 s2 /\
    (forall n, plain n -> value_of s2 n = value_of s n) /\
    if has_mode s instr (zp_form m) && (is_byte v || negb (has_mode s instr m))
    then emits [ops_of s instr (zp_form m); byte v] s s2 /\ s_errs s2 = s_errs s + (if is_word v && negb (is_byte v) then 1 else 0)
    else emits [ops_of s instr m; byte v; byte (v / 256)] s s2 /\ s_errs s2 = s_errs s.
Proof. exact zero_page. Qed.
Print Assumptions C31_zero_page.

Example C31_example : ready at_end /\ no_hole at_end /\ operand_value at_end e_small 8 /\ operand_value at_end e_big 305 /\
  has_mode at_end i_ldx m_r = false /\ has_mode at_end i_ldx m_a = true /\ has_mode at_end i_ldx (zp_form m_a) = true /\
  (ops_of at_end i_ldx (zp_form m_a), ops_of at_end i_ldx m_a) = (166, 174) /\
  has_mode at_end i_stx (zp_form m_ay) && negb (has_mode at_end i_stx m_ay) = true.
Proof.
  split; [exact at_end_ready|]. split; [exact at_end_hole|]. split; [exact v_small|]. split; [exact v_big|].
  repeat split; vm_compute; reflexivity.
Qed.

(** ** C32 *)
(** An immediate operand is written as its low byte; an error is reported iff the value is in 256..65535. *)
Theorem C32_immediate : forall instr e v F s, ready s -> operand_value s e v -> (height e <= F)%nat -> (s_final s = true -> no_hole s) ->
  has_mode s instr m_r = false -> has_mode s instr m_I = true ->
  exists p s1 s2, build_op (expand F) instr (FImm e) s = Ok (Some p) s1 /\ expand (S F) p s1 = Ok 0 s2 /\
    (forall n, plain n -> value_of s2 n = value_of s n) /\
    emits [ops_of s instr m_I; byte v] s s2 /\ s_errs s2 = s_errs s + (if (256 <=? v) && (v <=? 65535) then 1 else 0).
Proof. exact immediate. Qed.
Print Assumptions C32_immediate.

(** values outside 16 bits are accepted *)
Theorem C32_big_refuted : exists u, run ["  .org $1000"; "  lda #$10000"; "  lda #-1"; "  rts"] = Some u /\ u_code u = 0 /\ u_errs u = 0 /\
  u_bytes u = [169; 0; 169; 255; 96].
Proof. exact w32_big. Qed.
Print Assumptions C32_big_refuted.

Example C32_example : ready at_end /\ no_hole at_end /\ operand_value at_end e_small 8 /\ operand_value at_end e_big 305 /\
  has_mode at_end i_cpx m_r = false /\ has_mode at_end i_cpx m_I = true /\ ops_of at_end i_cpx m_I = 224.
Proof.
  split; [exact at_end_ready|]. split; [exact at_end_hole|]. split; [exact v_small|]. split; [exact v_big|].
  repeat split; vm_compute; reflexivity.
Qed.
