(* The 100 assembler tests of /repo/CMakePasm/unittests/assemble_unit_test.cc,
   run on the model: source text, expected output bytes and, from the expected
   listing, the number of passes before the final one.  They tie the model to
   the behaviour the project itself records; they are not property theorems. *)
From Coq Require Import String Ascii List ZArith Bool.
From Verif Require Import Base Dict Opcodes State Sym Machine Build Pass Lexer Parser Prog.
Import ListNotations.
Open Scope string_scope. Open Scope list_scope. Open Scope Z_scope.

(* unit_test.cc execute_text: one input file; the include and load tests also
   write a file next to it. *)
Definition ut_cfg (t : list string) : config :=
  mkCfg (fun n =>
           if streq n (cs "test_include.a")
           then Some (parse_text (lines ["; include file"; "   nop"; "   brk"; ""]))
           else Some (parse_text (lines t)))
        (fun n => if streq n (cs "test_load.bin") then Some [1; 2; 3] else None)
        [cs "execute_text.a"] true true.

Definition ut (t : list string) (expected : list Z) (passes : Z) : bool :=
  match assemble 3000 (init_state (ut_cfg t) false false false) with
  | Ok c s => (c =? 0) && (if list_eq_dec Z.eq_dec (rev (s_out s)) expected then true else false)
              && (s_pass s - 1 =? passes)
  | _ => false
  end.

Example ut_program_statement : ut
  ["   .org $1000";
   "   nop"]
  [234] 1 = true.
Proof. vm_compute. reflexivity. Qed.

Example ut_program_symbol : ut
  ["   .org $1000";
   "   start";
   "       nop"]
  [234] 2 = true.
Proof. vm_compute. reflexivity. Qed.

Example ut_stmt_opcode : ut
  ["   .org $1000";
   "       clc"]
  [24] 1 = true.
Proof. vm_compute. reflexivity. Qed.

Example ut_branch_list : ut
  ["    .org $C63A";
   "    BCDSTR = $003B";
   "    BCDLEN = $61";
   ";********************************************";
   ";*                                          *";
   ";*  BCDLENGTH                               *";
   ";*                                          *";
   ";*  get length of BCDSTR                    *";
   ";*  store result in BCDLEN                  *";
   ";*                                          *";
   ";*  destroys    a,y                         *";
   ";*                                          *";
   ";********************************************";
   "BCDLENGTH";
   "        ;";
   "        ;   loop through 5 chars";
   "        ;";
   "        ldy #0";
   "        sty BCDLEN";
   "-";
   "        lda BCDSTR,y";
   "        cmp #'0'";
   "        bne +";
   "";
   "        cpy #4";
   "        beq +";
   "";
   "        ldx BCDLEN";
   "        beq ++";
   "+";
   "        sty BCDLEN";
   "        lda #5";
   "        sec";
   "        sbc BCDLEN";
   "        sta BCDLEN";
   "        rts";
   "+";
   "        iny";
   "        bne -"]
  [160; 0; 132; 97; 185; 59; 0; 201; 48; 208; 8; 192; 4; 240; 4; 166; 97; 240; 10; 132; 97; 169; 5; 56; 229; 97; 133; 97; 96; 200; 208; 228] 2 = true.
Proof. vm_compute. reflexivity. Qed.

Example ut_stmt_directive : ut
  ["   .org $1000";
   "   brk"]
  [0] 1 = true.
Proof. vm_compute. reflexivity. Qed.

Example ut_stmt_symbol_value : ut
  ["   .org $1000";
   "symbol";
   "   .word symbol"]
  [0; 16] 2 = true.
Proof. vm_compute. reflexivity. Qed.

Example ut_stmt_symbol_assign : ut
  ["   .org $1000";
   "   symbol = $1234";
   "   .word symbol"]
  [52; 18] 2 = true.
Proof. vm_compute. reflexivity. Qed.

Example ut_stmt_pc_assign : ut
  ["   * = $300";
   "   here";
   "   * = $500";
   "   there";
   "   .org $1000";
   "   .word *";
   "   .word here";
   "   .word there"]
  [0; 16; 0; 3; 0; 5] 2 = true.
Proof. vm_compute. reflexivity. Qed.

Example ut_stmt_ifexpr : ut
  ["   .org $1000";
   "   .var sym = 23";
   "   .if sym > 20";
   "       .text ""sym > 20""";
   "   .else";
   "       .text ""sym <= 20""";
   "   .endif";
   "   .if * < $1000";
   "       .text ""* < $1000""";
   "   .else";
   "       .text ""* >= $1000""";
   "   .endif"]
  [115; 121; 109; 32; 62; 32; 50; 48; 42; 32; 62; 61; 32; 36; 49; 48; 48; 48] 1 = true.
Proof. vm_compute. reflexivity. Qed.

Example ut_stmt_loopexpr : ut
  ["   .org $1000";
   "   .var i = 23";
   "   .repeat";
   "       .word i";
   "       i = i -1";
   "   .until i < 20"]
  [23; 0; 22; 0; 21; 0; 20; 0] 1 = true.
Proof. vm_compute. reflexivity. Qed.

Example ut_stmt_regloopexpr : ut
  ["    .org $1000";
   "";
   "    lda #$FF";
   "    .for .regx = 0 .to 10";
   "        sta data, x";
   "    .next X";
   "    stx cow";
   "";
   "    data .ds 11";
   "    cow  .ds 12"]
  [169; 255; 162; 0; 157; 15; 16; 232; 224; 11; 144; 248; 142; 26; 16] 2 = true.
Proof. vm_compute. reflexivity. Qed.

Example ut_stmt_macrodef : ut
  ["        .macro ADD16";
   "        clc";
   "        lda \1";
   "        adc \2";
   "        sta \3";
   "        lda \1 + 1";
   "        adc \2 + 1";
   "        sta \3 + 1";
   "        .endm";
   "";
   "        .org $1000";
   "        ADD16 AAA, BBB, RESULT";
   "";
   "AAA     .word $1234";
   "BBB     .word $4567";
   "RESULT  .word 0"]
  [24; 173; 19; 16; 109; 21; 16; 141; 23; 16; 173; 20; 16; 109; 22; 16; 141; 24; 16; 52; 18; 103; 69; 0; 0] 3 = true.
Proof. vm_compute. reflexivity. Qed.

Example ut_stmt_macrocall : ut
  ["        .macro ADD16";
   "        clc";
   "        lda \1";
   "        adc \2";
   "        sta \3";
   "        lda \1 + 1";
   "        adc \2 + 1";
   "        sta \3 + 1";
   "        .endm";
   "";
   "        .org $1000";
   "        ADD16 AAA, BBB, RESULT";
   "";
   "AAA     .word $1234";
   "BBB     .word $4567";
   "RESULT  .word 0"]
  [24; 173; 19; 16; 109; 21; 16; 141; 23; 16; 173; 20; 16; 109; 22; 16; 141; 24; 16; 52; 18; 103; 69; 0; 0] 3 = true.
Proof. vm_compute. reflexivity. Qed.

Example ut_stmt_vardef : ut
  ["   .org $c000";
   "   .var aa = 1, bb = 2, t";
   "   .while aa < 256";
   "       .byte aa";
   "       t = aa";
   "       aa = bb";
   "       bb = t + bb";
   "   .wend"]
  [1; 2; 3; 5; 8; 13; 21; 34; 55; 89; 144; 233] 1 = true.
Proof. vm_compute. reflexivity. Qed.

Example ut_stmt_EOL : ut
  ["   .org $c000";
   "";
   "";
   "   .byte 0"]
  [0] 1 = true.
Proof. vm_compute. reflexivity. Qed.

Example ut_stmt_list_stmt : ut
  ["   .org $c000";
   "";
   "   .byte 0"]
  [0] 1 = true.
Proof. vm_compute. reflexivity. Qed.

Example ut_stmt_list_stmt_list : ut
  ["   .org $c000";
   "";
   "";
   " .do       .byte 0";
   "       .byte 1";
   "";
   " .while 0"]
  [0; 1] 1 = true.
Proof. vm_compute. reflexivity. Qed.

Example ut_ifexpr_if_else : ut
  ["   .org $1000";
   "   .var aa = 100, bb = 200";
   "   .if aa > 50";
   "       .text ""aa > 50""";
   "   .else";
   "       .text ""FAIL""";
   "   .endif";
   "   .if bb > 200";
   "       .text ""FAIL""";
   "   .else";
   "       .text ""bb <= 200""";
   "   .endif"]
  [97; 97; 32; 62; 32; 53; 48; 98; 98; 32; 60; 61; 32; 50; 48; 48] 1 = true.
Proof. vm_compute. reflexivity. Qed.

Example ut_ifexpr_if : ut
  ["   .org $1000";
   "   .var aa = 889";
   "   .if aa > 88";
   "       .text ""aa > 88""";
   "   .endif"]
  [97; 97; 32; 62; 32; 56; 56] 1 = true.
Proof. vm_compute. reflexivity. Qed.

Example ut_loopexpr_repeat_unil : ut
  ["   .org $c000";
   "   .var aa = 1, bb = 2, t";
   "   .repeat";
   "       .byte aa";
   "       t = aa";
   "       aa = bb";
   "       bb = t + bb";
   "   .until aa >= 256"]
  [1; 2; 3; 5; 8; 13; 21; 34; 55; 89; 144; 233] 1 = true.
Proof. vm_compute. reflexivity. Qed.

Example ut_loopexpr_do_while : ut
  ["   .org $c000";
   "   .var aa = 1, bb = 2, t";
   "   .do";
   "       .byte aa";
   "       t = aa";
   "       aa = bb";
   "       bb = t + bb";
   "   .while aa < 256"]
  [1; 2; 3; 5; 8; 13; 21; 34; 55; 89; 144; 233] 1 = true.
Proof. vm_compute. reflexivity. Qed.

Example ut_loopexpr_while_wend : ut
  ["   .org $c000";
   "   .var aa = 1, bb = 2, t";
   "   .while aa < 256";
   "       .byte aa";
   "       t = aa";
   "       aa = bb";
   "       bb = t + bb";
   "   .wend"]
  [1; 2; 3; 5; 8; 13; 21; 34; 55; 89; 144; 233] 1 = true.
Proof. vm_compute. reflexivity. Qed.

Example ut_loopexpr_for_next_step : ut
  ["   .org $c000";
   "   .var aa = 1, bb = 2, t, i";
   "   .for i = 12 .to 1 .step -1";
   "       .byte aa";
   "       t = aa";
   "       aa = bb";
   "       bb = t + bb";
   "   .next i"]
  [1; 2; 3; 5; 8; 13; 21; 34; 55; 89; 144; 233] 1 = true.
Proof. vm_compute. reflexivity. Qed.

Example ut_loopexpr_for_next : ut
  ["   .org $c000";
   "   .var aa = 1, bb = 2, t, i";
   "   .for i = 1 .to 12";
   "       .byte aa";
   "       t = aa";
   "       aa = bb";
   "       bb = t + bb";
   "   .next i"]
  [1; 2; 3; 5; 8; 13; 21; 34; 55; 89; 144; 233] 1 = true.
Proof. vm_compute. reflexivity. Qed.

Example ut_regloopexpr_for_regx_to : ut
  ["    .org $1000";
   "";
   "    lda #$FF";
   "    .for .regx = 0 .to 10";
   "        sta data, x";
   "    .next X";
   "";
   "    data .ds 11"]
  [169; 255; 162; 0; 157; 12; 16; 232; 224; 11; 144; 248] 2 = true.
Proof. vm_compute. reflexivity. Qed.

Example ut_regloopexpr_for_regx_downto : ut
  ["    .org $1000";
   "";
   "    lda #$FF";
   "    .for .regx = 10 .downto 0";
   "        sta data, x";
   "    .next X";
   "";
   "    data"]
  [169; 255; 162; 10; 157; 10; 16; 202; 176; 250] 2 = true.
Proof. vm_compute. reflexivity. Qed.

Example ut_regloopexpr_for_regy_to : ut
  ["    .org $1000";
   "";
   "    lda #$FF";
   "    .for .regy = 0 .to 10";
   "        sta data, y";
   "    .next Y";
   "";
   "    data"]
  [169; 255; 160; 0; 153; 12; 16; 200; 192; 11; 144; 248] 2 = true.
Proof. vm_compute. reflexivity. Qed.

Example ut_regloopexpr_for_regy_downto : ut
  ["    .org $1000";
   "";
   "    lda #$FF";
   "    .for .regy = 10 .downto 0";
   "        sta data, y";
   "    .next Y";
   "";
   "    data .ds 11"]
  [169; 255; 160; 10; 153; 10; 16; 136; 176; 250] 2 = true.
Proof. vm_compute. reflexivity. Qed.

Example ut_expr_list_subexpr : ut
  ["   .org $1000";
   "   .byte $56"]
  [86] 1 = true.
Proof. vm_compute. reflexivity. Qed.

Example ut_expr_list_string_literal : ut
  ["   .org $1000";
   "   .byte ""abcdef"""]
  [97; 98; 99; 100; 101; 102] 1 = true.
Proof. vm_compute. reflexivity. Qed.

Example ut_expr_list_expr_list_subexpr : ut
  ["   .org $1000";
   "   .byte $56, $55, $54"]
  [86; 85; 84] 1 = true.
Proof. vm_compute. reflexivity. Qed.

Example ut_expr_list_expr_list_string_literal : ut
  ["   .org $1000";
   "   .byte ""cat"",""dog"",""cow"""]
  [99; 97; 116; 100; 111; 103; 99; 111; 119] 1 = true.
Proof. vm_compute. reflexivity. Qed.

Example ut_macro_def : ut
  ["        .macro ADD16";
   "        clc";
   "        lda \1";
   "        adc \2";
   "        sta \3";
   "        lda \1 + 1";
   "        adc \2 + 1";
   "        sta \3 + 1";
   "        .endm";
   "";
   "        .org $1000";
   "        ADD16 AAA, BBB, RESULT";
   "";
   "AAA     .word $1234";
   "BBB     .word $4567";
   "RESULT  .ds 2"]
  [24; 173; 19; 16; 109; 21; 16; 141; 23; 16; 173; 20; 16; 109; 22; 16; 141; 24; 16; 52; 18; 103; 69] 3 = true.
Proof. vm_compute. reflexivity. Qed.

Example ut_macrocall : ut
  ["        .macro ADD16";
   "        clc";
   "        lda \1";
   "        adc \2";
   "        sta \3";
   "        lda \1 + 1";
   "        adc \2 + 1";
   "        sta \3 + 1";
   "        .endm";
   "";
   "        .org $1000";
   "        ADD16 AAA, BBB, RESULT";
   "";
   "AAA     .word $1234";
   "BBB     .word $4567";
   "RESULT  .ds 2"]
  [24; 173; 19; 16; 109; 21; 16; 141; 23; 16; 173; 20; 16; 109; 22; 16; 141; 24; 16; 52; 18; 103; 69] 3 = true.
Proof. vm_compute. reflexivity. Qed.

Example ut_symbol_list_symbol : ut
  ["   .org $1000";
   "   .var sym";
   "   sym = $5043";
   "   .word sym"]
  [67; 80] 1 = true.
Proof. vm_compute. reflexivity. Qed.

Example ut_symbol_list_symbol_list_symbol : ut
  ["   .org $1000";
   "   .var sym1, sym2";
   "   sym1 = $5043";
   "   sym2 = $5289";
   "   .word sym1, sym2"]
  [67; 80; 137; 82] 1 = true.
Proof. vm_compute. reflexivity. Qed.

Example ut_symbol_list_symbol_equals : ut
  ["   .org $1000";
   "   .var sym = $3244";
   "   .word sym"]
  [68; 50] 1 = true.
Proof. vm_compute. reflexivity. Qed.

Example ut_symbol_list_symbol_list_symbol_equals : ut
  ["   .org $1000";
   "   .var sym1 = $3244, sym2 = $7896";
   "   .word sym1,sym2"]
  [68; 50; 150; 120] 1 = true.
Proof. vm_compute. reflexivity. Qed.

Example ut_var_def : ut
  ["   .org $1000";
   "   .var sym1 = $3244, sym2, sym3 = $7896";
   "   .word sym1, sym2, sym3"]
  [68; 50; 0; 0; 150; 120] 1 = true.
Proof. vm_compute. reflexivity. Qed.

Example ut_symbol_assign_equals : ut
  ["   .org $1000";
   "   sym1 = $3244";
   "   .word sym1"]
  [68; 50] 2 = true.
Proof. vm_compute. reflexivity. Qed.

Example ut_symbol_assign_equ : ut
  ["   .org $1000";
   "   sym1 .EQU $3244";
   "   .word sym1"]
  [68; 50] 2 = true.
Proof. vm_compute. reflexivity. Qed.

Example ut_pc_assign_equals : ut
  ["   * = $300";
   "here";
   "   * = * + 2";
   "there";
   "   .org $1000";
   "   .word there"]
  [2; 3] 2 = true.
Proof. vm_compute. reflexivity. Qed.

Example ut_pc_assign_equ : ut
  ["   * .equ $0300";
   "   here";
   "   .org $1000";
   "   .word here"]
  [0; 3] 2 = true.
Proof. vm_compute. reflexivity. Qed.

Example ut_symbol_value : ut
  ["   .org $1000";
   "   SYM   .word SYM"]
  [0; 16] 2 = true.
Proof. vm_compute. reflexivity. Qed.

Example ut_opcode_opcode_i : ut
  ["   .org $1000";
   "   nop"]
  [234] 1 = true.
Proof. vm_compute. reflexivity. Qed.

Example ut_opcode_opcode_I : ut
  ["   .org $1000";
   "   ldx #$05"]
  [162; 5] 1 = true.
Proof. vm_compute. reflexivity. Qed.

Example ut_opcode_opcode_a : ut
  ["   .org $1000";
   "   asl a"]
  [10] 1 = true.
Proof. vm_compute. reflexivity. Qed.

Example ut_opcode_opcode_ax : ut
  ["   .org $1000";
   "   sta $2000,x"]
  [157; 0; 32] 1 = true.
Proof. vm_compute. reflexivity. Qed.

Example ut_opcode_opcode_ay : ut
  ["   .org $1000";
   "   sta $2000,y"]
  [153; 0; 32] 1 = true.
Proof. vm_compute. reflexivity. Qed.

Example ut_opcode_opcode_ind : ut
  ["   .org $1000";
   "   jmp ($2000)"]
  [108; 0; 32] 1 = true.
Proof. vm_compute. reflexivity. Qed.

Example ut_opcode_opcode_aix : ut
  ["   .org $1000";
   "   lda ($44,x)"]
  [161; 68] 1 = true.
Proof. vm_compute. reflexivity. Qed.

Example ut_opcode_opcode_izy : ut
  ["   .org $1000";
   "   lda ($44),y"]
  [177; 68] 1 = true.
Proof. vm_compute. reflexivity. Qed.

Example ut_directive_org : ut
  ["   .org $1000";
   "   .dw *"]
  [0; 16] 1 = true.
Proof. vm_compute. reflexivity. Qed.

Example ut_directive_ds : ut
  ["   * = $100";
   "here .ds 2";
   "   .org $1000";
   "   .dw *";
   "   .dw here"]
  [0; 16; 0; 1] 2 = true.
Proof. vm_compute. reflexivity. Qed.

Example ut_directive_byte : ut
  ["   .org $1000";
   "   .byte $02, $04, $06, $08, $0A"]
  [2; 4; 6; 8; 10] 1 = true.
Proof. vm_compute. reflexivity. Qed.

Example ut_directive_word : ut
  ["   .org $1000";
   "   .word $02, $04, $06, $08, $0A, $1234"]
  [2; 0; 4; 0; 6; 0; 8; 0; 10; 0; 52; 18] 1 = true.
Proof. vm_compute. reflexivity. Qed.

Example ut_directive_str : ut
  ["   .org $1000";
   "   .text ""One Plus One = Two"", $00"]
  [79; 110; 101; 32; 80; 108; 117; 115; 32; 79; 110; 101; 32; 61; 32; 84; 119; 111; 0] 1 = true.
Proof. vm_compute. reflexivity. Qed.

Example ut_directive_fill : ut
  ["   .org $1000";
   "   .fill $01, $0a"]
  [1; 1; 1; 1; 1; 1; 1; 1; 1; 1] 1 = true.
Proof. vm_compute. reflexivity. Qed.

Example ut_directive_print : ut
  ["   .org $1000";
   "   .print";
   "   nop"]
  [234] 1 = true.
Proof. vm_compute. reflexivity. Qed.

Example ut_directive_print_expession_list : ut
  ["   .org $1000";
   "   .print ""123"",65";
   "   nop";
   ""]
  [234] 1 = true.
Proof. vm_compute. reflexivity. Qed.

Example ut_directive_printall : ut
  ["   .org $1000";
   "   .printall";
   "   nop"]
  [234] 1 = true.
Proof. vm_compute. reflexivity. Qed.

Example ut_directive_printall_expession_list : ut
  ["   .org $1000";
   "   .printall ""123"",65";
   "   nop"]
  [234] 1 = true.
Proof. vm_compute. reflexivity. Qed.

Example ut_directive_printon : ut
  ["    .org $1000";
   "    ldx #9";
   "    nop";
   "    .print off";
   "    asl";
   "    ldy #2";
   "    .print on";
   "    lda #39";
   "    ldy $4";
   "    sta $30"]
  [162; 9; 234; 10; 160; 2; 169; 39; 164; 4; 133; 48] 1 = true.
Proof. vm_compute. reflexivity. Qed.

Example ut_directive_printoff : ut
  ["    .org $1000";
   "    ldx #9";
   "    nop";
   "    .print off";
   "    asl";
   "    ldy #2";
   "    .print on";
   "    lda #39";
   "    ldy $4";
   "    sta $30"]
  [162; 9; 234; 10; 160; 2; 169; 39; 164; 4; 133; 48] 1 = true.
Proof. vm_compute. reflexivity. Qed.

Example ut_directive_section : ut
  ["    .org $1000";
   "    .SECTION TOP";
   "    ldx #$02";
   "";
   "here";
   "    dex";
   "    bne here";
   "    .ENDSECTION";
   "";
   "here";
   "    nop";
   "    bne here";
   "    bne TOP.HERE";
   "";
   "    rts"]
  [162; 2; 202; 208; 253; 234; 208; 253; 208; 248; 96] 2 = true.
Proof. vm_compute. reflexivity. Qed.

Example ut_directive_endsection : ut
  ["    .org $1000";
   "    .SECTION TOP";
   "    ldx #$02";
   "";
   "here";
   "    dex";
   "    bne here";
   "    .ENDSECTION";
   "";
   "here";
   "    nop";
   "    bne here";
   "    bne TOP.HERE";
   "";
   "    rts"]
  [162; 2; 202; 208; 253; 234; 208; 253; 208; 248; 96] 2 = true.
Proof. vm_compute. reflexivity. Qed.

Example ut_directive_end : ut
  ["    .org $1000";
   "    nop";
   "   .END";
   "";
   "    nop"]
  [234] 1 = true.
Proof. vm_compute. reflexivity. Qed.

Example ut_directive_inc : ut
  ["    .org $1000";
   "    .inc ""test_include.a""";
   "    jmp $1234";
   "    nop"]
  [234; 0; 76; 52; 18; 234] 1 = true.
Proof. vm_compute. reflexivity. Qed.

Example ut_directive_load : ut
  ["    .org $1000";
   "    .load ""test_load.bin""";
   "    jmp $1234";
   "    nop"]
  [1; 2; 3; 76; 52; 18; 234] 1 = true.
Proof. vm_compute. reflexivity. Qed.

Example ut_expr_integer : ut
  ["   .org $1000";
   "   .var expression";
   "   expression = 12345";
   "   .word expression";
   "   .word 567, 89"]
  [57; 48; 55; 2; 89; 0] 1 = true.
Proof. vm_compute. reflexivity. Qed.

Example ut_expr_symbol : ut
  ["   .org $1000";
   "expression1";
   "   .word expression1";
   "expression2   .word expression2";
   "   .word expression1 + expression2"]
  [0; 16; 2; 16; 2; 32] 2 = true.
Proof. vm_compute. reflexivity. Qed.

Example ut_expr_uminus : ut
  ["   .org $1000";
   "   .word -($1359)";
   "   .byte -2"]
  [167; 236; 254] 1 = true.
Proof. vm_compute. reflexivity. Qed.

Example ut_expr_tilda : ut
  ["   .org $1000";
   "   .word ~($1359)";
   "   .byte ~2"]
  [166; 236; 253] 1 = true.
Proof. vm_compute. reflexivity. Qed.

Example ut_expr_lobyte : ut
  ["   .org $1000";
   "   .byte <$1234"]
  [52] 1 = true.
Proof. vm_compute. reflexivity. Qed.

Example ut_expr_hibyte : ut
  ["   .org $1000";
   "   .byte >$1234"]
  [18] 1 = true.
Proof. vm_compute. reflexivity. Qed.

Example ut_expr_not : ut
  ["   .org $1000";
   "   .word NOT 0";
   "   .byte NOT 1 < 2, NOT 5"]
  [1; 0; 0; 0] 1 = true.
Proof. vm_compute. reflexivity. Qed.

Example ut_expr_or : ut
  ["   .org $1000";
   "   .word 0 || 0";
   "   .byte 1 || 2, 0 || 1"]
  [0; 0; 1; 1] 1 = true.
Proof. vm_compute. reflexivity. Qed.

Example ut_expr_and : ut
  ["   .org $1000";
   "   .word 0 && 0";
   "   .byte 1 && 2, 0 && 1"]
  [0; 0; 1; 0] 1 = true.
Proof. vm_compute. reflexivity. Qed.

Example ut_expr_shift_left : ut
  ["   .org $1000";
   "   .word 1 << 8";
   "   .byte 1 << 2, 3 << 1 << 2"]
  [0; 1; 4; 24] 1 = true.
Proof. vm_compute. reflexivity. Qed.

Example ut_expr_shift_right : ut
  ["   .org $1000";
   "   .word $0100 >> 8";
   "   .byte 4 >> 2, $18 >> 1 >>2"]
  [1; 0; 1; 3] 1 = true.
Proof. vm_compute. reflexivity. Qed.

Example ut_expr_less_than : ut
  ["   .org $1000";
   "   .word $01 < $08";
   "   .byte 4 < 2, $18 < $55"]
  [1; 0; 0; 1] 1 = true.
Proof. vm_compute. reflexivity. Qed.

Example ut_expr_greater_than : ut
  ["   .org $1000";
   "   .word $08 > $01";
   "   .byte 2 > 4, $55 > $18"]
  [1; 0; 0; 1] 1 = true.
Proof. vm_compute. reflexivity. Qed.

Example ut_expr_greater_than_equal_to : ut
  ["   .org $1000";
   "   .word $08 >= $08";
   "   .byte 2 >= 4, $55 >= $18"]
  [1; 0; 0; 1] 1 = true.
Proof. vm_compute. reflexivity. Qed.

Example ut_expr_less_than_equal_to : ut
  ["   .org $1000";
   "   .word $08 <= $08";
   "   .byte 2 <= 4, $55 <= $18"]
  [1; 0; 1; 0] 1 = true.
Proof. vm_compute. reflexivity. Qed.

Example ut_expr_equal_to : ut
  ["   .org $1000";
   "   .word $08 == $08";
   "   .byte 2 == 4, $55 == $18"]
  [1; 0; 0; 0] 1 = true.
Proof. vm_compute. reflexivity. Qed.

Example ut_expr_not_equal_to : ut
  ["   .org $1000";
   "   .word $08 != $08";
   "   .byte 2 != 4, $55 != $18"]
  [0; 0; 1; 1] 1 = true.
Proof. vm_compute. reflexivity. Qed.

Example ut_expr_bit_and : ut
  ["   .org $1000";
   "   .word $78 & $08";
   "   .byte 2 & 4, $55 & $18"]
  [8; 0; 0; 16] 1 = true.
Proof. vm_compute. reflexivity. Qed.

Example ut_expr_bit_or : ut
  ["   .org $1000";
   "   .word $78 | $84";
   "   .byte 2 | 4, $55 | $18"]
  [252; 0; 6; 93] 1 = true.
Proof. vm_compute. reflexivity. Qed.

Example ut_expr_bit_xor : ut
  ["   .org $1000";
   "   .word $78 ^ $06";
   "   .byte 2 ^ 4, $55 ^ $18"]
  [126; 0; 6; 77] 1 = true.
Proof. vm_compute. reflexivity. Qed.

Example ut_expr_plus : ut
  ["   .org $1000";
   "   .word $78 + $06";
   "   .byte 2 + 4, $55 + $18"]
  [126; 0; 6; 109] 1 = true.
Proof. vm_compute. reflexivity. Qed.

Example ut_expr_minus : ut
  ["   .org $1000";
   "   .word $78 - $06";
   "   .byte 2 - 4, $55 - $18"]
  [114; 0; 254; 61] 1 = true.
Proof. vm_compute. reflexivity. Qed.

Example ut_expr_multiply : ut
  ["   .org $1000";
   "   .word $78 * $06";
   "   .byte 2 * 4, $15 * $08"]
  [208; 2; 8; 168] 1 = true.
Proof. vm_compute. reflexivity. Qed.

Example ut_expr_divide : ut
  ["   .org $1000";
   "   .word $78 / $06";
   "   .byte 4 / 2, $15 / $08"]
  [20; 0; 2; 2] 1 = true.
Proof. vm_compute. reflexivity. Qed.

Example ut_expr_back_branch : ut
  ["    .org $1000";
   "    Start";
   "    nop";
   "";
   "    beq +";
   "-    ";
   "    lda ++,y";
   "    bne -";
   "    nop";
   "-";
   "    bpl -";
   "    jmp (--)";
   "    rts";
   "    ";
   "+";
   "    rts";
   "    jsr ++";
   "+";
   "    nop";
   "    nop";
   "    rts";
   "";
   "    beq --";
   "+   rts"]
  [234; 240; 12; 185; 19; 16; 208; 251; 234; 16; 254; 108; 3; 16; 96; 96; 32; 24; 16; 234; 234; 96; 240; 235; 96] 2 = true.
Proof. vm_compute. reflexivity. Qed.

Example ut_expr_forward_branch : ut
  ["    .org $1000";
   "    Start";
   "    nop";
   "";
   "    beq +";
   "-    ";
   "    lda ++,y";
   "    bne -";
   "    nop";
   "-";
   "    bpl -";
   "    jmp (--)";
   "    rts";
   "    ";
   "+";
   "    rts";
   "    jsr ++";
   "+";
   "    nop";
   "    nop";
   "    rts";
   "";
   "    beq --";
   "+   rts"]
  [234; 240; 12; 185; 19; 16; 208; 251; 234; 16; 254; 108; 3; 16; 96; 96; 32; 24; 16; 234; 234; 96; 240; 235; 96] 2 = true.
Proof. vm_compute. reflexivity. Qed.

Example ut_subexpr_expr : ut
  ["   .org $1000";
   "   .var expression";
   "   expression = 12345";
   "   .word expression"]
  [57; 48] 1 = true.
Proof. vm_compute. reflexivity. Qed.

Example ut_subexpr_program_counter : ut
  ["   .org $1000";
   "   .var expression";
   "   expression = *";
   "   .word expression"]
  [0; 16] 1 = true.
Proof. vm_compute. reflexivity. Qed.

Example ut_subexpr_parenthesis : ut
  ["   .org $1000";
   "   .var expression";
   "   expression = 5 * (6 + 4)";
   "   .word expression"]
  [50; 0] 1 = true.
Proof. vm_compute. reflexivity. Qed.

Example ut_expression_evaluator : ut
  ["   .org $1000";
   "   .var expression";
   "   expression = 5 + 3 * (6 + 4) / 7 + 6 / 3 + 1";
   "   .word expression"]
  [12; 0] 1 = true.
Proof. vm_compute. reflexivity. Qed.

Example ut_program_counter_test : ut
  ["    .org $c000";
   "    .repeat";
   "        .byte 1";
   "    .until * > $c0FF";
   "    nop"]
  [1; 1; 1; 1; 1; 1; 1; 1; 1; 1; 1; 1; 1; 1; 1; 1; 1; 1; 1; 1; 1; 1; 1; 1; 1; 1; 1; 1; 1; 1; 1; 1; 1; 1; 1; 1; 1; 1; 1; 1; 1; 1; 1; 1; 1; 1; 1; 1; 1; 1; 1; 1; 1; 1; 1; 1; 1; 1; 1; 1; 1; 1; 1; 1; 1; 1; 1; 1; 1; 1; 1; 1; 1; 1; 1; 1; 1; 1; 1; 1; 1; 1; 1; 1; 1; 1; 1; 1; 1; 1; 1; 1; 1; 1; 1; 1; 1; 1; 1; 1; 1; 1; 1; 1; 1; 1; 1; 1; 1; 1; 1; 1; 1; 1; 1; 1; 1; 1; 1; 1; 1; 1; 1; 1; 1; 1; 1; 1; 1; 1; 1; 1; 1; 1; 1; 1; 1; 1; 1; 1; 1; 1; 1; 1; 1; 1; 1; 1; 1; 1; 1; 1; 1; 1; 1; 1; 1; 1; 1; 1; 1; 1; 1; 1; 1; 1; 1; 1; 1; 1; 1; 1; 1; 1; 1; 1; 1; 1; 1; 1; 1; 1; 1; 1; 1; 1; 1; 1; 1; 1; 1; 1; 1; 1; 1; 1; 1; 1; 1; 1; 1; 1; 1; 1; 1; 1; 1; 1; 1; 1; 1; 1; 1; 1; 1; 1; 1; 1; 1; 1; 1; 1; 1; 1; 1; 1; 1; 1; 1; 1; 1; 1; 1; 1; 1; 1; 1; 1; 1; 1; 1; 1; 1; 1; 1; 1; 1; 1; 1; 1; 1; 1; 1; 1; 1; 1; 234] 1 = true.
Proof. vm_compute. reflexivity. Qed.
