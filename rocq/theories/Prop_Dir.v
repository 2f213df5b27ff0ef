(** Properties of directives: the program counter, .LOAD, .PRINT, processor switches and .VAR, see properties.jsonl. *)
From Coq Require Import String Lia.
From Verif Require Import Base BaseProofs Hash Dict DictProofs Str Opcodes Err State Sym Machine Build Pass Lexer Parser Prog
  SymProofs SymEx Sem ExprProofs ExprMore OpProofs InstrProofs FarTwice DataProofs DataMore FillProofs MacroProofs MacroMore DirProofs VarProofs.
Open Scope string_scope.
Open Scope list_scope.
Open Scope Z_scope.

(** ** C61 *)
(** .ORG and * = set the program counter and the address of the file's first byte to come; nothing is written, no name
    changes.  A second .ORG is an error and has no other effect. *)
Theorem C61_org : forall F first e v s, ready s -> operand_value s e v -> (height e <= F)%nat -> s_org_once s = false ->
  exists p s1 s2, build_stmt (expand (S F)) first (SOrg e) s = Ok (Some p) s1 /\ expand (S F) p s1 = Ok 0 s2 /\
    s_pc s2 = v /\ s_origin s2 = v /\ s_org_spec s2 = true /\ s_org_once s2 = true /\ rest_same s s2.
Proof. exact org_ok. Qed.
Print Assumptions C61_org.
Theorem C61_org_twice : forall F first e v s, ready s -> operand_value s e v -> (height e <= F)%nat -> s_org_once s = true ->
  exists p s1 s2, build_stmt (expand (S F)) first (SOrg e) s = Ok (Some p) s1 /\ expand (S F) p s1 = Ok 0 s2 /\
    s_errs s2 = s_errs s + 1 /\ s_pc s2 = s_pc s /\ s_origin s2 = s_origin s /\ s_out s2 = s_out s.
Proof. exact org_twice. Qed.
Print Assumptions C61_org_twice.
Theorem C61_star : forall F first e v s, ready s -> operand_value s e v -> (height e <= F)%nat ->
  exists p s1 s2, build_stmt (expand (S F)) first (SPcAssign e) s = Ok (Some p) s1 /\ expand (S F) p s1 = Ok 0 s2 /\
    s_pc s2 = v /\ s_origin s2 = v /\ s_org_spec s2 = true /\ s_org_once s2 = s_org_once s /\ rest_same s s2.
Proof. exact star_ok. Qed.
Print Assumptions C61_star.
(** .DS n, n not negative, moves the program counter by n, but .DS 0 moves it by 1; nothing is written.  A negative n ends
    the program with status -1. *)
Theorem C61_ds : forall F first e v s, ready s -> operand_value s e v -> (height e <= F)%nat -> 0 <= v ->
  exists p s1 s2, build_stmt (expand (S F)) first (SDs e) s = Ok (Some p) s1 /\ expand (S F) p s1 = Ok v s2 /\
    s_pc s2 = s_pc s + Z.max 1 v /\ s_origin s2 = s_origin s /\ s_org_spec s2 = s_org_spec s /\ rest_same s s2.
Proof. exact ds_ok. Qed.
Print Assumptions C61_ds.
Theorem C61_ds_negative : forall F first e v s, ready s -> operand_value s e v -> (height e <= F)%nat -> v < 0 ->
  exists p s1 s2, build_stmt (expand (S F)) first (SDs e) s = Ok (Some p) s1 /\ expand (S F) p s1 = Exit (-1) s2 /\
    s_errs s2 = s_errs s + 1 /\ s_out s2 = s_out s.
Proof. exact ds_negative. Qed.
Print Assumptions C61_ds_negative.
(** An instruction that would be written beyond the end of the file ends the program: nothing of it is written. *)
Theorem C61_gap_stops : forall ex p s, s_opened s = true -> s_org_spec s = true -> s_origin s + s_total s + head_size s < s_pc s ->
  exists s', generate_output ex p s = Exit (-1) s' /\ s_errs s' = s_errs s + 1 /\
    s_out s' = (if (s_total s =? 0) && s_c64 s then [s_origin s / 256 mod 256; s_origin s mod 256] else []) ++ s_out s.
Proof. exact gap_stops. Qed.
Print Assumptions C61_gap_stops.

Lemma ready_once b s : ready s -> ready (set_org_once b s). Proof. exact (fun H => H). Qed.
Lemma ready_cfg c s : ready s -> ready (set_cfg c s). Proof. exact (fun H => H). Qed.
Lemma hole_cfg c s : no_hole s -> no_hole (set_cfg c s). Proof. exact (fun H => H). Qed.
(** the hypotheses, in a state of the final pass at $2000 with x0 = 5 *)
Example C61_example : ready at_end /\ operand_value at_end e_small 8 /\ (height e_small <= 2)%nat /\
  s_org_once (set_org_once false at_end) = false /\ ready (set_org_once true at_end) /\
  (let s := set_pc 8200 at_end in s_opened s = true /\ s_org_spec s = true /\ s_origin s + s_total s + head_size s < s_pc s).
Proof.
  split; [exact at_end_ready|]. split; [exact v_small|]. split; [cbn; lia|]. split; [reflexivity|].
  split; [apply ready_once, at_end_ready|]. vm_compute. repeat split; reflexivity.
Qed.
(** .DS 3 after the code, and labels behind it *)
Example C61_program : run ["  * = $1000"; "  lda l2"; "  lda l3"; "  rts"; "l2  .ds 1+2"; "l3  .ds 1"] =
  Some (mkSum false 0 [173; 7; 16; 173; 10; 16; 96] 0 2).
Proof. vm_compute. reflexivity. Qed.

(** .DS 0 reserves a byte. *)
Theorem C61_ds_zero_refuted : run ["  .org $1000"; "  jmp l1"; "l1"; "  .ds 0"; "l2"] = Some (mkSum false 0 [76; 3; 16] 0 2) /\
  exists s, assemble 1000 (boot ["  .org $1000"; "  jmp l1"; "l1"; "  .ds 0"; "l2"]) = Ok 0 s /\ value_of s (cs "l1") = 4099 /\ value_of s (cs "l2") = 4100.
Proof. split; [vm_compute; reflexivity|]. eexists. split; [vm_compute; reflexivity|]. vm_compute. split; reflexivity. Qed.
Print Assumptions C61_ds_zero_refuted.
(** The bytes reserved are not in the file: code behind .DS ends the program in the final pass, with the first part written. *)
Theorem C61_ds_between_refuted : run ["  .org $1000"; "  .byte 1"; "  .ds 2"; "  nop"] = Some (mkSum true (-1) [1] 1 1).
Proof. vm_compute. reflexivity. Qed.
Print Assumptions C61_ds_between_refuted.
(** * = does not move in the file: the byte for $1010 follows that for $1000, and one for $0FFF follows both. *)
Theorem C61_star_offset_refuted : run ["  .org $1000"; "  .byte 1"; "  * = $1010"; "  .byte 2"; "  * = $0fff"; "  .byte 3"] = Some (mkSum false 0 [1; 2; 3] 0 1).
Proof. vm_compute. reflexivity. Qed.
Print Assumptions C61_star_offset_refuted.

(** ** C62 *)
(** .LOAD of a file that can be read, of any length but 0, writes its bytes in order (in the final pass) and moves the
    program counter by their number in every pass. *)
Theorem C62_load : forall F first raw t l s, ready s -> text_of raw = Some t -> g_bins (s_cfg s) t = Some l -> Forall is_byte l -> l <> [] ->
  (s_final s = true -> no_hole s) -> 0 <= s_total s ->
  exists p s1 s2, build_stmt (expand (S (S (S (S F))))) first (SLoad raw) s = Ok (Some p) s1 /\ expand (S (S (S (S F)))) p s1 = Ok 1 s2 /\
    s_pc s2 = s_pc s + Z.of_nat (length l) /\ data_written l s s2 /\ s_errs s2 = s_errs s /\ (forall n, plain n -> value_of s2 n = value_of s n).
Proof. exact load_ok. Qed.
Print Assumptions C62_load.
Definition with_bins (f : cstr -> option (list Z)) (s : state) : state :=
  set_cfg (mkCfg (g_files (s_cfg s)) f (g_inputs (s_cfg s)) (g_out (s_cfg s)) (g_canwrite (s_cfg s))) s.
Definition load_bin (n : cstr) : option (list Z) := if lzeqb n (cs "d.bin") then Some [1; 2; 255; 0; 7] else None.
Example C62_example : let s := with_bins load_bin at_end in
  ready s /\ text_of (cs """d.bin""") = Some (cs "d.bin") /\ g_bins (s_cfg s) (cs "d.bin") = Some [1; 2; 255; 0; 7] /\
  Forall is_byte [1; 2; 255; 0; 7] /\ no_hole s /\ 0 <= s_total s.
Proof.
  split; [apply ready_cfg, at_end_ready|]. split; [vm_compute; reflexivity|]. split; [vm_compute; reflexivity|].
  split; [repeat constructor; lia|]. split; [apply hole_cfg, at_end_hole|vm_compute; discriminate].
Qed.
Example C62_program : let s := with_bins load_bin (boot ["  .org $1000"; "  lda #<l1"; "  .load ""d.bin"""; "l1 rts"]) in
  summarise (assemble 1000 s) = Some (mkSum false 0 [169; 7; 1; 2; 255; 0; 7; 96] 0 2).
Proof. vm_compute. reflexivity. Qed.
(** A file that cannot be read is reported and then used all the same: fseek on a null pointer. *)
Theorem C62_missing_refuted : forall F first raw t s, ready s -> text_of raw = Some t -> g_bins (s_cfg s) t = None ->
  exists p s1, build_stmt (expand (S F)) first (SLoad raw) s = Ok (Some p) s1 /\ expand (S F) p s1 = Ub UbNull.
Proof. exact load_missing. Qed.
Print Assumptions C62_missing_refuted.
Example C62_missing_example : ready at_end /\ text_of (cs """no.bin""") = Some (cs "no.bin") /\ g_bins (s_cfg at_end) (cs "no.bin") = None.
Proof. split; [exact at_end_ready|split; vm_compute; reflexivity]. Qed.

(** ** C63 *)
(** .PRINT and .PRINTALL of any list: the strings as they are, the values as one byte or two in hex, each after a
    space, then a line feed.  .PRINT is silent but in the final pass.  Nothing else changes. *)
Theorem C63_print : forall F first all l t s, ready s -> l <> [] -> (forall i, In i l -> data_item s i) -> (list_fuel l <= F)%nat ->
  items_say (value_of s) (s_pc s) l = Some t ->
  exists p s1 s2, build_stmt (expand (S F)) first (SPrint all l) s = Ok (Some p) s1 /\ expand (S F) p s1 = Ok 0 s2 /\
    only_says (if s_final s || all then t ++ [10] else []) s s2.
Proof. exact print_ok. Qed.
Print Assumptions C63_print.
(** 1, x0+3, "a\n", -2, <* where x0 = 5, at $2000 *)
Example C63_example : ready at_end /\ (forall i, In i items_ex -> data_item at_end i) /\ (list_fuel items_ex <= 20)%nat /\
  items_say (value_of at_end) (s_pc at_end) items_ex = Some ([32; 36; 48; 49] ++ [32; 36; 48; 56] ++ [32; 97; 10] ++ [32; 36; 70; 70; 32; 36; 70; 69] ++ [32; 36; 48; 48]).
Proof. split; [exact at_end_ready|]. split; [exact items_ex_ok|]. split; [vm_compute; lia|vm_compute; reflexivity]. Qed.
Definition says (l : list string) : option cstr := match assemble 1000 (boot l) with Ok _ s => Some (rev (s_console s)) | _ => None end.
Example C63_program : says ["  .org $1000"; "n2=$1234"; "  .print ""is"", 1, n2"; "  .printall 7"; "  rts"] =
  Some ([32; 36; 48; 55; 10] ++ [32; 36; 48; 55; 10] ++ [32; 105; 115; 32; 36; 48; 49; 32; 36; 49; 50; 32; 36; 51; 52; 10] ++ [32; 36; 48; 55; 10]).
Proof. vm_compute. reflexivity. Qed.

(** ** C64 *)
(** A switch sets what it names; the rest of the settings, the names, the program counter and the output stay.  No
    statement that is carried out changes a setting. *)
Theorem C64_switch : forall F first st c s, ready s -> switch st (settings s) = Some c ->
  exists p s1 s2, build_stmt (expand (S F)) first st s = Ok (Some p) s1 /\ expand (S F) p s1 = Ok 0 s2 /\
    settings s2 = c /\ s_pc s2 = s_pc s /\ rest_same s s2.
Proof. exact switch_ok. Qed.
Print Assumptions C64_switch.
Theorem C64_kept : forall F p s, match expand F p s with Ok _ s' | Exit _ s' => settings s' = settings s | _ => True end.
Proof. exact expand_settings. Qed.
Print Assumptions C64_kept.
Example C64_example : ready at_end /\ settings at_end = (false, false, false) /\ switch (SCpu true) (settings at_end) = Some (true, false, false) /\
  run ["  .org $1000"; "  .65c02 on"; "  bra l1"; "l1 rts"; "  .6502 on"; "  .65c02 on"] = Some (mkSum false 0 [128; 0; 96] 0 2).
Proof. split; [exact at_end_ready|]. split; [vm_compute; reflexivity|]. split; vm_compute; reflexivity. Qed.
(** A pass begins with the settings the last one ended with: on a 65C02, this program has status 0 and its first byte is
    255, which is no instruction of it. *)
Theorem C64_next_pass_refuted : run_c02 ["  .org $1000"; "  inc a"; "  rts"] = Some (mkSum false 0 [26; 96] 0 1) /\
  run_c02 ["  .org $1000"; "  inc a"; "  rts"; "  .6502 on"] = Some (mkSum false 0 [255; 96] 1 1).
Proof. split; vm_compute; reflexivity. Qed.
Print Assumptions C64_next_pass_refuted.
(** A switch in the branch of an .IF that is not taken, or in a macro that is never called, is obeyed. *)
Theorem C64_branch_refuted : run ["  .org $1000"; "  .if 0"; "  .endif"; "  bra l1"; "l1 rts"] = Some (mkSum false (-1) [] 1 1) /\
  run ["  .org $1000"; "  .if 0"; "  .65c02 on"; "  .endif"; "  bra l1"; "l1 rts"] = Some (mkSum false 0 [128; 0; 96] 0 2) /\
  run ["  .org $1000"; "  .macro m1"; "  .65c02 on"; "  .endm"; "  bra l1"; "l1 rts"] = Some (mkSum false 0 [128; 0; 96] 0 2).
Proof. split; [|split]; vm_compute; reflexivity. Qed.
Print Assumptions C64_branch_refuted.

(** ** C65 *)
(** .VAR name = expression, outside sections, for an expression that is not a name alone and does not contain the name:
    the name has the expression's value, of any size; all else stays, the change counter included. *)
Theorem C65_var : forall F first n e v s, ready s -> owned s -> s_scope s = None -> plain n -> cmacro (meaning s n) = false ->
  nonname e -> (forall m, In m (names e) -> fk m <> fk n) -> operand_value s e v -> (height e <= F)%nat ->
  exists p s1 s2, build_stmt (expand (S (S F))) first (SVar [(n, Some e)]) s = Ok (Some p) s1 /\ expand (S (S F)) p s1 = Ok 0 s2 /\ only_sets n v s s2.
Proof. exact var_ok. Qed.
Print Assumptions C65_var.
(** .VAR name = other sets both names to 0 and reports nothing. *)
Theorem C65_var_name_refuted : forall F first n m s, ready s -> owned s -> s_scope s = None -> plain n -> cmacro (meaning s n) = false ->
  plain m -> cmacro (meaning s m) = false -> fk m <> fk n ->
  exists p s1 s2, build_stmt (expand (S (S F))) first (SVar [(n, Some (ESym m))]) s = Ok (Some p) s1 /\ expand (S (S F)) p s1 = Ok 0 s2 /\
    value_of s2 n = 0 /\ value_of s2 m = 0 /\ s_errs s2 = s_errs s /\ s_changed s2 = s_changed s.
Proof. exact var_name_resets. Qed.
Print Assumptions C65_var_name_refuted.
Example C65_example : let s := mac_st in ready s /\ owned s /\ s_scope s = None /\ plain (cs "v1") /\ cmacro (meaning s (cs "v1")) = false /\
  plain (cs "x0") /\ cmacro (meaning s (cs "x0")) = false /\ fk (cs "x0") <> fk (cs "v1") /\
  operand_value s (EBin OPlus (ESym (cs "x0")) (EInt 70000)) 70005.
Proof.
  cbv zeta. assert (R : ready mac_st) by (destruct mac_st_tab as (T1 & T2 & T3); split; [exact T1|split; [exact T2|split; [exact T3|vm_compute; reflexivity]]]).
  split; [exact R|]. split; [exact mac_st_owned|]. split; [vm_compute; reflexivity|]. split; [plain_tac|]. split; [vm_compute; reflexivity|].
  split; [plain_tac|]. split; [vm_compute; reflexivity|]. split; [vm_compute; discriminate|].
  split; [reflexivity|]. split; [|split; [reflexivity|split; [exact I|split; [|vm_compute; reflexivity]]]].
  - intros k [<-|[]]. split; [plain_tac|]. intros y. vm_compute. intros H. injection H as <-. reflexivity.
  - intros k [<-|[]]. eexists. split; vm_compute; reflexivity.
Qed.
Example C65_program : run ["  .org $1000"; "n1 = 5"; "  .var n2 = n1+0"; "  .byte n1,n2"] = Some (mkSum false 0 [5; 5] 0 2) /\
  run ["  .org $1000"; "n1 = 5"; "  .var n2 = n1"; "  .byte n1,n2"] = Some (mkSum false 0 [0; 0] 0 2).
Proof. split; vm_compute; reflexivity. Qed.
