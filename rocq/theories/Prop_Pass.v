(** Properties of the passes and the output file: C23, C25, C26, C27, C28, C29. *)
From Coq Require Import String.
From Verif Require Import Base Dict Err State Sym Machine Build Pass Prog PassProofs OutProofs.
Open Scope string_scope.
Open Scope list_scope.
Open Scope Z_scope.

(** ** C23.  [s_out] is the output file, last byte first; [s_total] the count of bytes the program keeps.
    [ends m s s']: run from [s], [m] returns in [s'] or exits in [s']. *)
Theorem C23_expand_appends : forall F p s s', ends (expand F p) s s' ->
  exists l, s_out s' = l ++ s_out s /\ s_total s' = s_total s + Z.of_nat (List.length l) /\ Forall (fun b => 0 <= b < 256) l.
Proof. exact expand_append. Qed.
Print Assumptions C23_expand_appends.

Theorem C23_assemble_appends : forall F s s', ends (assemble F) s s' ->
  exists l, s_out s' = l ++ s_out s /\ s_total s' = s_total s + Z.of_nat (List.length l) /\ Forall (fun b => 0 <= b < 256) l.
Proof. exact assemble_append. Qed.
Print Assumptions C23_assemble_appends.

(** an item is only written when the file has reached its address (the header of a C64 file counted) *)
Theorem C23_no_gap : forall F p s n s', generate_output (expand F) p s = Ok n s' -> n <> 0 ->
  s_pc s - s_origin s <= (if s_total s =? 0 then (if s_c64 s then 2 else 0) else s_total s).
Proof. exact generate_output_no_gap. Qed.
Print Assumptions C23_no_gap.

(** but it may be further: when the program counter is moved back the bytes go to the end of the file *)
Theorem C23_offset_is_address_refuted : exists l,
  l = ["  .org $1000"; "  nop"; "  * = $0800"; "l  nop"; "  jmp l"] /\
  run l = Some (mkSum false 0 [234; 234; 76; 0; 8] 0 2).
Proof. exact w23_offset_is_address_refuted_w. Qed.
Print Assumptions C23_offset_is_address_refuted.

(** and in C64 mode the header makes the check accept a gap of two bytes: [l] is the address $1003, where the
    loaded file has the second byte of the jump *)
Theorem C23_c64_gap_refuted : exists l,
  l = ["  .org $1000"; "  nop"; "  .ds 2"; "l  nop"; "  jmp l"] /\
  run_c64 l = Some (mkSum false 0 [0; 16; 234; 234; 76; 3; 16] 0 2).
Proof. exact w23_c64_gap_refuted_w. Qed.
Print Assumptions C23_c64_gap_refuted.

Example C23_example : exists s', assemble 1000 (boot ["  .org $1000"; "  jmp l"; "l rts"]) = Ok 0 s' /\
  s_out s' = rev [76; 3; 16; 96] /\ s_total s' = 4.
Proof. vm_compute. eexists. repeat split; reflexivity. Qed.

(** ** C25 *)
Theorem C25_expand_quiet : forall F p s s', s_final s = false -> ends (expand F p) s s' ->
  s_out s' = s_out s /\ s_total s' = s_total s /\ s_list s' = s_list s /\ s_warns s' = s_warns s /\ s_final s' = false.
Proof. exact expand_quiet. Qed.
Print Assumptions C25_expand_quiet.

Theorem C25_line_quiet : forall F l s s', s_final s = false -> ends (run_line (expand F) l) s s' ->
  s_out s' = s_out s /\ s_total s' = s_total s /\ s_list s' = s_list s /\ s_warns s' = s_warns s /\ s_final s' = false.
Proof. exact run_line_quiet. Qed.
Print Assumptions C25_line_quiet.

Theorem C25_pass_quiet : forall F s s', s_final s = false -> ends (parse_pass F) s s' ->
  s_out s' = s_out s /\ s_total s' = s_total s /\ s_list s' = s_list s.
Proof. exact parse_pass_quiet. Qed.
Print Assumptions C25_pass_quiet.

Example C25_example :
  let s := boot ["  .org $1000"; "  jmp l"; "l rts"] in
  s_final s = false /\ exists s', parse_pass 1000 s = Ok tt s' /\ s_pc s' = 4096 + 4 /\ s_out s' = [] /\ s_list s' = [].
Proof. split; [reflexivity|]. vm_compute. eexists. repeat split; reflexivity. Qed.

(** ** C26 *)
Theorem C26_expand_stopped : forall F p s, s_stop s = true -> expand (S F) p s = Ok 0 s.
Proof. exact expand_stopped. Qed.
Print Assumptions C26_expand_stopped.

(** the rest of the pass, over all files still to come: no byte, no console output, no new symbol, no symbol
    value, no movement of the program counter; the listing gains source lines only *)
Theorem C26_files_after_end : forall F l s s', s_stop s = true -> ends (parse_files F l) s s' -> untouched s s'.
Proof. exact parse_files_after_end. Qed.
Print Assumptions C26_files_after_end.

(** a line that reads .END and all lines after it, whatever they are *)
Theorem C26_end_line : forall F n ln ls rest s s', s_skip s = false ->
  s_input s = (SrcLine (mkLine ln None SEnd None) :: ls) :: rest ->
  ends (parse_input (S F) (S n)) s s' ->
  s_stop s' = true /\ s_out s' = s_out s /\ s_pc s' = s_pc s /\ s_dict s' = s_dict s /\
  map y_value (s_syms s') = map y_value (s_syms s).
Proof. exact rest_after_end. Qed.
Print Assumptions C26_end_line.

Example C26_example :
  run ["  .org $1000"; "  nop"; "  .end"; "lab  lda #1"; "  .byte 1,2"; "  jmp lab"] = Some (mkSum false 0 [234] 0 1).
Proof. vm_compute. reflexivity. Qed.

(** errors found while parsing are still reported after .END *)
Theorem C26_errors_after_end : exists l, l = ["  .org $1000"; "  nop"; "  .end"; "  sta #1"] /\
  run l = Some (mkSum false (-1) [] 1 1).
Proof. exact w26_errors_after_end_w. Qed.
Print Assumptions C26_errors_after_end.

(** ** C27.  [s_gen] counts the passes done, [s_pass] is the pass number. *)
Theorem C27_pass_bound : forall F s r s', assemble F s = Ok r s' ->
  Z.of_nat (s_gen s) + 1 <= Z.of_nat (s_gen s') <= Z.of_nat (s_gen s) + 20 /\ 2 <= s_pass s' <= 20 /\
  (r = 0 -> Z.of_nat (s_gen s') = Z.of_nat (s_gen s) + s_pass s' /\ s_pass s' < 20).
Proof. exact assemble_pass_count. Qed.
Print Assumptions C27_pass_bound.

(** the loop itself never runs on: assemble can only fail to end because a single pass does *)
Theorem C27_only_a_pass_can_hang : forall F s, assemble F s = OutOfFuel -> exists s0, parse_pass F s0 = OutOfFuel.
Proof. exact assemble_out_of_fuel. Qed.
Print Assumptions C27_only_a_pass_can_hang.

(** more than 20 steps of the loop are never needed *)
Theorem C27_loop_bound : forall F j s, s_final s = false -> 1 <= s_pass s -> pass_loop F (20 + j) s = pass_loop F 20 s.
Proof. exact pass_loop_20. Qed.
Print Assumptions C27_loop_bound.

(** a program that never settles is given up after 19 passes *)
Example C27_example : run ["  .org $1000"; "  jmp nowhere"] = Some (mkSum false (-1) [] 1 19).
Proof. vm_compute. reflexivity. Qed.
Example C27_example_two : run ["  .org $1000"; "  jmp l"; "  nop"; "l rts"] = Some (mkSum false 0 [76; 4; 16; 234; 96] 0 2).
Proof. vm_compute. reflexivity. Qed.

(** ** C28 *)
Theorem C28_output_after_clean_pass : forall F s s', ends (assemble F) s s' -> s_opened s = false ->
  s_opened s' = true \/ s_out s' <> s_out s ->
  exists s0 u s1, s_final s0 = false /\ parse_pass F s0 = Ok u s1 /\
    s_errs s1 = 0 /\ s_changed s1 = 0 /\ unresolved_symbol_count s1 = 0.
Proof. exact assemble_opens_after_clean. Qed.
Print Assumptions C28_output_after_clean_pass.

Theorem C28_failure_leaves_nothing : forall F s r s', assemble F s = Ok r s' -> r <> 0 ->
  r = -1 /\ s_out s' = s_out s /\ s_opened s' = s_opened s /\ s_total s' = s_total s.
Proof. exact assemble_failure_no_output. Qed.
Print Assumptions C28_failure_leaves_nothing.

(** exit() in the final pass leaves the bytes written so far *)
Theorem C28_exit_leaves_file_refuted : exists l, l = ["  .org $1000"; "  nop"; "  .ds 5"; "  rts"] /\
  run l = Some (mkSum true (-1) [234] 1 1).
Proof. exact w28_exit_leaves_file_refuted_w. Qed.
Print Assumptions C28_exit_leaves_file_refuted.

Example C28_example : run ["  .org $1000"; "  lda #1"; "  sta #2"] = Some (mkSum false (-1) [] 1 1).
Proof. vm_compute. reflexivity. Qed.

(** ** C29 *)
Theorem C29_status_zero : forall F s s', assemble F s = Ok 0 s' ->
  exists s1 u, parse_pass F s1 = Ok u s' /\ s_final s1 = true /\ s_errs s1 = 0 /\ s_changed s1 = 0 /\
    unresolved_symbol_count s1 = 0 /\ s_opened s1 = g_out (s_cfg s).
Proof. exact assemble_zero. Qed.
Print Assumptions C29_status_zero.

(** the errors of a pass are counted: [s_errs] is the number of messages of the pass *)
Theorem C29_errors_counted : forall F s s', ends (parse_pass F) s s' ->
  exists m, s_msgs s' = m ++ s_msgs s /\ s_errs s' = Z.of_nat (List.length m).
Proof. exact parse_pass_errors. Qed.
Print Assumptions C29_errors_counted.

(** but those of the final pass are not tested: status 0, an error message and a file without the byte *)
Theorem C29_status_refuted : exists l, l = ["  .org $1000"; "  .byte $12345"] /\ run l = Some (mkSum false 0 [] 1 1).
Proof. exact w29_status_refuted_w. Qed.
Print Assumptions C29_status_refuted.

Example C29_example : exists s', assemble 1000 (boot ["  .org $1000"; "  jmp l"; "l rts"]) = Ok 0 s' /\ s_errs s' = 0.
Proof. vm_compute. eexists. split; reflexivity. Qed.
