(** Data, fill and the match between bytes and program counter: C24, C43, C54. *)
From Coq Require Import String.
From Verif Require Import Base Opcodes Err State Machine Build Pass Prog SymProofs SymEx Sem ExprProofs ExprMore OpProofs InstrProofs InstrMore FarTwice
  DataProofs DataMore FillProofs.
Open Scope string_scope.
Open Scope list_scope.
Open Scope Z_scope.

(** ** C43 *)
(** [items_bytes env size pc l]: the bytes of a list at [pc] - each value as one byte (.BYTE, size 1), two bytes low
    first (.WORD, 2) or as few as it needs (.STR, 0), each string as its characters; [None] when a value is out of
    range (.BYTE -254..255, else -65534..65535).  These bytes are written, in this order, and nothing else. *)
Theorem C43_in_order : forall first size l F s n b, ready s -> In size [0; 1; 2] -> l <> [] -> (forall i, In i l -> data_item s i) -> (list_fuel l <= F)%nat ->
  (s_final s = true -> no_hole s) -> 0 <= s_total s ->
  items_size (value_of s) size (s_pc s) l = Some n -> items_bytes (value_of s) size (s_pc s) l = Some b ->
  exists p s1 s2, build_stmt (expand (S F)) first (SData size l) s = Ok (Some p) s1 /\ expand (S F) p s1 = Ok 0 s2 /\
    s_pc s2 = s_pc s + n /\ data_written b s s2 /\ s_errs s2 = s_errs s /\ (forall n, plain n -> value_of s2 n = value_of s n).
Proof. exact data_list. Qed.
Print Assumptions C43_in_order.

(** a value out of range anywhere in the list is reported in the final pass *)
Theorem C43_out_of_range : forall first size l F s n, ready s -> In size [0; 1; 2] -> l <> [] -> (forall i, In i l -> data_item s i) -> (list_fuel l <= F)%nat ->
  s_final s = true -> s_opened s = true -> no_hole s -> 0 <= s_total s ->
  items_size (value_of s) size (s_pc s) l = Some n -> items_bytes (value_of s) size (s_pc s) l = None ->
  exists p s1, build_stmt (expand (S F)) first (SData size l) s = Ok (Some p) s1 /\
    match expand (S F) p s1 with Ok _ s2 | Exit _ s2 => s_errs s < s_errs s2 | _ => True end.
Proof. exact data_range. Qed.
Print Assumptions C43_out_of_range.

(** the range is not that of a byte: -254..-129 are accepted; and an undefined name alone is written as 0 *)
Theorem C43_undefined_refuted : exists u, run ["  .org $1000"; "  .byte foo"] = Some u /\ u_code u = 0 /\ u_errs u = 0 /\ u_bytes u = [0].
Proof. exact w43_undefined. Qed.
Print Assumptions C43_undefined_refuted.

(** 1, x0+3, "a\n", -2, <* with x0 = 5 at $2000 *)
Example C43_example : ready at_end /\ no_hole at_end /\ s_final at_end && s_opened at_end = true /\ 0 <= s_total at_end /\
  (forall i, In i items_ex -> data_item at_end i) /\
  items_size (value_of at_end) 1 (s_pc at_end) items_ex = Some 6 /\
  items_bytes (value_of at_end) 1 (s_pc at_end) items_ex = Some [1; 8; 97; 10; -2; 5] /\
  items_bytes (value_of at_end) 2 (s_pc at_end) items_ex = Some [1; 0; 8; 0; 97; 10; -2; -1; 8; 0] /\
  items_bytes (value_of at_end) 0 (s_pc at_end) items_ex = Some [1; 8; 97; 10; -2; -1; 6] /\
  items_bytes (value_of at_end) 1 (s_pc at_end) [IExpr (EInt 1); IExpr (EInt 256)] = None.
Proof.
  split; [exact at_end_ready|]. split; [exact at_end_hole|]. split; [reflexivity|]. split; [vm_compute; discriminate|].
  split; [exact items_ex_ok|]. repeat split; vm_compute; reflexivity.
Qed.

(** ** C24 *)
(** [balanced s s']: as many bytes have been added to the output as the program counter has moved by. *)
Theorem C24_instruction : forall instr f m e v F s, form_mode f = Some (m, e) -> ready s -> operand_value s e v -> (height e <= F)%nat ->
  usable (has_mode s instr) m = true -> no_hole s -> s_final s && s_opened s && (s_org_spec s || (0 <? s_pc_assigned s)) = true ->
  (fst (select (has_mode s instr) m v) = m_r -> -127 <= v - (s_pc s + 2) <= 128) ->
  exists p s1 s2, build_op (expand F) instr f s = Ok (Some p) s1 /\ expand (S F) p s1 = Ok 0 s2 /\ balanced s s2.
Proof. exact balanced_instruction. Qed.
Print Assumptions C24_instruction.

Theorem C24_implied : forall instr F s, ready s -> has_mode s instr m_r = false -> has_mode s instr m_i = true ->
  no_hole s -> s_final s && s_opened s && (s_org_spec s || (0 <? s_pc_assigned s)) = true ->
  exists p s1 s2, build_op (expand F) instr FImp s = Ok (Some p) s1 /\ expand (S F) p s1 = Ok 0 s2 /\ balanced s s2.
Proof. exact balanced_implied. Qed.
Print Assumptions C24_implied.

Theorem C24_far_branch : forall instr f m e v v2 F s, form_mode f = Some (m, e) -> ready s -> operand_value s e v ->
  sem (value_of s) (s_pc s + 2) e = Some (v2, 0) -> (height e <= F)%nat -> (1 <= F)%nat -> 0 <= s_total s -> no_hole s ->
  s_final s && s_opened s && (s_org_spec s || (0 <? s_pc_assigned s)) = true ->
  has_mode s instr m_r = true -> (v - (s_pc s + 2) < -127 \/ 128 < v - (s_pc s + 2)) ->
  exists p s1 s2, build_op (expand F) instr f s = Ok (Some p) s1 /\ expand (S F) p s1 = Ok 0 s2 /\ balanced s s2.
Proof. exact balanced_far. Qed.
Print Assumptions C24_far_branch.

Theorem C24_data : forall first size l F s n b, ready s -> In size [1; 2] -> l <> [] -> (forall i, In i l -> data_item s i) -> (list_fuel l <= F)%nat ->
  no_hole s -> 0 <= s_total s -> s_final s && s_opened s = true ->
  items_size (value_of s) size (s_pc s) l = Some n -> items_bytes (value_of s) size (s_pc s) l = Some b ->
  exists p s1 s2, build_stmt (expand (S F)) first (SData size l) s = Ok (Some p) s1 /\ expand (S F) p s1 = Ok 0 s2 /\ balanced s s2.
Proof. exact balanced_data. Qed.
Print Assumptions C24_data.

(** false for .DS: no byte is written for the reserved space, and the statement after it either stops the assembler
    (the program counter is beyond the file) or, in a C64 file, is written in its place *)
Theorem C24_ds_refuted : exists u, run_c64 ["  .org $1000"; "  nop"; "  .ds 2"; "l nop"; "  .word l"] = Some u /\ u_code u = 0 /\ u_errs u = 0 /\
  u_bytes u = [0; 16; 234; 234; 3; 16].
Proof. exact w24_ds_c64. Qed.
Print Assumptions C24_ds_refuted.
Theorem C24_ds_exit_refuted : exists u, run ["  .org $1000"; "  nop"; "  .ds 4"; "l nop"; "  .word l"] = Some u /\ u_exit u = true /\ u_code u = -1 /\
  u_bytes u = [234].
Proof. exact w24_ds. Qed.
Print Assumptions C24_ds_exit_refuted.
(** false for .STR with a value below -65280: two bytes, one step *)
Theorem C24_str_refuted : exists u, run ["  .org $1000"; "  .str -65534"; "l nop"; "  .word l"] = Some u /\ u_code u = 0 /\ u_errs u = 0 /\
  u_bytes u = [2; 0; 234; 1; 16].
Proof. exact w24_str. Qed.
Print Assumptions C24_str_refuted.
(** false for a value out of range: nothing is written, the next statement stops the assembler *)
Theorem C24_range_refuted : exists u, run ["  .org $1000"; "  nop"; "  .byte 256"; "  nop"] = Some u /\ u_exit u = true /\ u_code u = -1 /\ u_bytes u = [234].
Proof. exact w24_range. Qed.
Print Assumptions C24_range_refuted.

Example C24_example : ready at_end /\ no_hole at_end /\ operand_value at_end e_big 305 /\ operand_value at_end e_far 16389 /\
  usable (has_mode at_end i_lda) m_ay = true /\ (fst (select (has_mode at_end i_lda) m_ay 305)) = m_ay /\
  s_final at_end && s_opened at_end && (s_org_spec at_end || (0 <? s_pc_assigned at_end)) = true /\
  has_mode at_end i_beq m_r = true /\ has_mode at_end i_nop m_i = true.
Proof.
  split; [exact at_end_ready|]. split; [exact at_end_hole|]. split; [exact v_big|]. split; [exact v_far|].
  repeat split; vm_compute; reflexivity.
Qed.

(** ** C54 *)
(** .FILL v,n: n bytes v in the final pass, program counter + n.  (The output is kept last byte first.) *)
Theorem C54_final : forall F first e1 e2 v1 v2 s, ready s -> operand_value s e1 v1 -> operand_value s e2 v2 ->
  (height e1 <= S (S F))%nat -> (height e2 <= S (S F))%nat -> 0 <= v1 <= 255 -> 0 <= v2 -> s_final s = true ->
  s_opened s && s_org_spec s = true -> (s_total s =? 0) && s_c64 s = false -> no_hole s -> 0 <= s_total s ->
  exists p s1 s2, build_stmt (expand (S (S (S F)))) first (SFill e1 e2) s = Ok (Some p) s1 /\ expand (S (S (S F))) p s1 = Ok v1 s2 /\
    s_pc s2 = s_pc s + v2 /\ s_out s2 = repeat v1 (Z.to_nat v2) ++ s_out s /\ s_errs s2 = s_errs s /\ (forall n, plain n -> value_of s2 n = value_of s n).
Proof. exact fill_final. Qed.
Print Assumptions C54_final.

(** in the other passes the program counter moves by n too, unless n is 0 *)
Theorem C54_analysis : forall F first e1 e2 v1 v2 s, ready s -> operand_value s e1 v1 -> operand_value s e2 v2 -> (height e1 <= F)%nat -> (height e2 <= F)%nat ->
  0 <= v1 <= 255 -> 0 <= v2 -> s_final s = false ->
  exists p s1 s2, build_stmt (expand (S F)) first (SFill e1 e2) s = Ok (Some p) s1 /\ expand (S F) p s1 = Ok v1 s2 /\
    s_pc s2 = s_pc s + Z.max 1 v2 /\ s_out s2 = s_out s /\ s_errs s2 = s_errs s /\ (forall n, plain n -> value_of s2 n = value_of s n).
Proof. exact fill_analysis. Qed.
Print Assumptions C54_analysis.

Theorem C54_range : forall F first e1 e2 v1 v2 s, ready s -> operand_value s e1 v1 -> operand_value s e2 v2 -> (height e1 <= F)%nat -> (height e2 <= F)%nat ->
  v1 < 0 \/ 255 < v1 \/ v2 < 0 ->
  exists p s1 s2, build_stmt (expand (S F)) first (SFill e1 e2) s = Ok (Some p) s1 /\ expand (S F) p s1 = Exit (-1) s2 /\
    s_errs s2 = s_errs s + 1 /\ s_out s2 = s_out s.
Proof. exact fill_range. Qed.
Print Assumptions C54_range.

(** false for n = 0 (the analysis counts one byte: the jump goes to $1004, the rts is at $1003) *)
Theorem C54_zero_refuted : exists u, run ["  .org $1000"; "  jmp l"; "  .fill 1,0"; "l rts"] = Some u /\ u_code u = 0 /\ u_errs u = 0 /\ u_bytes u = [76; 4; 16; 96].
Proof. exact w54_zero. Qed.
Print Assumptions C54_zero_refuted.
(** false for the first output of a C64 file: the load address is counted, three bytes are written for five *)
Theorem C54_c64_refuted : exists u, run_c64 ["  .org $1000"; "  .fill 7,5"; "l rts"; "  .word l"] = Some u /\ u_code u = 0 /\ u_errs u = 0 /\
  u_bytes u = [0; 16; 7; 7; 7; 96; 5; 16].
Proof. exact w54_c64. Qed.
Print Assumptions C54_c64_refuted.

Example C54_example : ready at_end /\ no_hole at_end /\ operand_value at_end e_small 8 /\ operand_value at_end e_big 305 /\
  s_final at_end = true /\ s_opened at_end && s_org_spec at_end = true /\ (s_total at_end =? 0) && s_c64 at_end = false /\ s_total at_end = 0.
Proof.
  split; [exact at_end_ready|]. split; [exact at_end_hole|]. split; [exact v_small|]. split; [exact v_big|].
  repeat split; vm_compute; reflexivity.
Qed.
