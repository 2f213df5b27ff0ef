(** Model of the scanner CMakePasm/source/pasm.l: text to tokens.

    flex takes the rule with the longest match, the earlier one on a tie, without regard to case.  Every rule is
    modelled by a function giving the length of its longest match at the head of the input, and the rules are tried
    in the order of the file.
    Simplifications: the start condition IF_DEF is applied to whole lines later (Pass.v), so text skipped by
    .IFDEF is still scanned here; .DEBUG_* directives are not modelled; rules whose action depends on the symbol
    table or on in_macro_definition yield a token that Build.v classifies. *)
From Coq Require Import String Ascii.
From Verif Require Import Base Str CNum Opcodes.
Open Scope string_scope.
Open Scope list_scope.
Open Scope Z_scope.

(** terminals that carry no value (pasm.y:49-54) and directives without a token (pasm.l:312-318) *)
Inductive kw :=
| WEol | WIfdef (neg : bool) (name : cstr) | WIf | WElse | WEndif | WByte | WWord | WDs | WEqu | WNot | WGe | WLe | WEq
| WNe | WShl | WShr | WOr | WBitor | WAnd | WBitand | WRepeat | WUntil | WEnd | WPrint | WPrintAll | WFor | WNext
| WStep | WTo | WDownto | WStr | WOrg | WSection | WEndSection | WInc | WLoad | WFill | WWhile | WEnddo | WWend | WDo
| WMacro | WEndMacro | WRegx | WRegy | WVar | WCpu (c02 : bool) | WIllegal (on : bool) | WWarn | WC64 | WPrintOn
| WPrintOff | WPcAssign | WX | WY.

Inductive tok :=
| TkInt (v : Z)
| TkOp (instr : Z)
| TkName (s : cstr) (first : bool)      (* {SYMB}:? ; [first]: last_token is NULL or "\n" *)
| TkPar (s : cstr)                      (* \\1 \\2 .. *)
| TkPm (s : cstr) (lab : bool)          (* [+|-]+ ; [lab]: a LABEL *)
| TkStr (raw : cstr)
| TkKw (k : kw)
| TkCh (c : Z)
| TkBad.                                (* the catch-all rule: yyerror *)

(** ** Matchers *)
Definition matcher := cstr -> option nat.

(** character classes *)
Definition is_hex (c : Z) : bool := isxdigit c.
Definition is_bin (c : Z) : bool := (c =? 48) || (c =? 49).
Definition is_oct (c : Z) : bool := (48 <=? c) && (c <=? 55).
Definition is_ws (c : Z) : bool := (c =? 32) || (c =? 9).
Definition is_nl (c : Z) : bool := c =? 10.
Definition is_alpha (c : Z) : bool := ((65 <=? c) && (c <=? 90)) || ((97 <=? c) && (c <=? 122)).
Definition is_sym0 (c : Z) : bool := is_alpha c || (c =? 95).
Definition is_sym1 (c : Z) : bool := is_sym0 c || isdigit c || (c =? 46).
Definition is_pmc (c : Z) : bool := (c =? 43) || (c =? 124) || (c =? 45).

Fixpoint span (p : Z -> bool) (s : cstr) : nat :=
  match s with c :: s' => if p c then S (span p s') else O | [] => O end.

(** a literal, without regard to case *)
Fixpoint lit (w : cstr) (s : cstr) : option nat :=
  match w, s with
  | [], _ => Some O
  | a :: w, c :: s => if tolower a =? tolower c then option_map S (lit w s) else None
  | _, [] => None
  end.
Definition one (p : Z -> bool) : matcher := fun s => match s with c :: _ => if p c then Some 1%nat else None | [] => None end.
Definition star (p : Z -> bool) : matcher := fun s => Some (span p s).
Definition plus (p : Z -> bool) : matcher := fun s => match span p s with O => None | n => Some n end.
Definition seq (a b : matcher) : matcher :=
  fun s => match a s with
           | Some n => match b (skipn n s) with Some m => Some (n + m)%nat | None => None end
           | None => None
           end.
Definition opt (a : matcher) : matcher := fun s => match a s with Some n => Some n | None => Some O end.
(** longest of two *)
Definition alt (a b : matcher) : matcher :=
  fun s => match a s, b s with
           | Some n, Some m => Some (Nat.max n m)
           | Some n, None => Some n
           | None, r => r
           end.
Notation ch c := (one (fun x => x =? c)).
Definition notnl : matcher := one (fun c => negb (is_nl c)).

(** pasm.l:63 SYMB *)
Definition symb : matcher := seq (opt (ch 64)) (seq (one is_sym0) (star is_sym1)).
(** pasm.l:57 ES; [0-7]{1,3} is greedy here, which is the longest match because an octal digit is also an
    ordinary string character *)
Definition es : matcher :=
  seq (ch 92)
      (alt (one (fun c => existsb (fun x => x =? c) [39; 34; 63; 92; 97; 98; 102; 110; 114; 116; 118;
                                                     65; 66; 70; 78; 82; 84; 86]))
           (alt (seq (one is_oct) (seq (opt (one is_oct)) (opt (one is_oct))))
                (seq (one (fun c => tolower c =? 120)) (plus is_hex)))).
(** pasm.l:62 STRVALUE: one or more quoted strings side by side.  [inside] matches up to the closing quote. *)
Fixpoint quoted (fuel : nat) (s : cstr) : option nat :=
  match fuel with
  | O => None
  | S f =>
      match s with
      | [] => None
      | c :: s' =>
          if c =? 34 then Some 1%nat
          else if c =? 10 then None
          else if c =? 92 then
            match es s with Some n => option_map (Nat.add n) (quoted f (skipn n s)) | None => None end
          else option_map S (quoted f s')
      end
  end.
Definition strvalue1 : matcher := fun s => seq (ch 34) (quoted (S (List.length s))) s.
Fixpoint strvalues (fuel : nat) (s : cstr) : option nat :=
  match fuel with
  | O => None
  | S f => match strvalue1 s with
           | None => None
           | Some n => match strvalues f (skipn n s) with Some m => Some (n + m)%nat | None => Some n end
           end
  end.
Definition strvalue : matcher := fun s => strvalues (S (List.length s)) s.

(** ** Actions *)
Inductive act :=
| ATok (t : tok)
| APc                   (* PCASSIGN, then unput('=') *)
| AWhile                (* .WHILE: ENDDO when do_count > 0 *)
| ADo
| AName | APm | APar
| AComment              (* enter C_COMMENT *)
| ANone.                (* no token, last_token unchanged *)

(** (int) strtol(yytext + off, NULL, base) of digits *)
Fixpoint number (base : Z) (s : cstr) (acc : Z) : Z :=
  match s with
  | [] => acc
  | c :: s => if isxdigit c && (hexval c <? base) then number base s (acc * base + hexval c) else acc
  end.
(** LONG_MAX is the largest result of strtol *)
Definition int_of (base : Z) (s : cstr) : Z := i32 (Z.min (number base s 0) (2 ^ 63 - 1)).

(** INT_1BYTE: the character after the opening quote of the sanitized lexeme.  Simplification: the error that
    sanitize_string reports for an unknown escape (str.cc:96-99) is not counted for such a literal. *)
Definition one_byte (s : cstr) : tok :=
  match sanitize_string s with
  | SOk (_ :: c :: _) _ => TkInt (c mod 256)
  | _ => TkBad
  end.

(** pasm.l:65-155 *)
Definition op_table : list (string * Z) :=
  [("ORA", i_ora); ("AND", i_and); ("EOR", i_eor); ("ADC", i_adc); ("SBC", i_sbc); ("CMP", i_cmp);
   ("CPX", i_cpx); ("CPY", i_cpy); ("DEC", i_dec); ("DEX", i_dex); ("DEY", i_dey); ("INC", i_inc);
   ("INX", i_inx); ("INY", i_iny); ("ASL", i_asl); ("ROL", i_rol); ("LSR", i_lsr); ("ROR", i_ror);
   ("LDA", i_lda); ("STA", i_sta); ("LDX", i_ldx); ("STX", i_stx); ("LDY", i_ldy); ("STY", i_sty);
   ("TAX", i_tax); ("TXA", i_txa); ("TAY", i_tay); ("TYA", i_tya); ("TSX", i_tsx); ("TXS", i_txs);
   ("PLA", i_pla); ("PHA", i_pha); ("PLP", i_plp); ("PHP", i_php); ("BPL", i_bpl); ("BMI", i_bmi);
   ("BVC", i_bvc); ("BVS", i_bvs); ("BCC", i_bcc); ("BCS", i_bcs); ("BNE", i_bne); ("BEQ", i_beq);
   ("BRK", i_brk); ("RTI", i_rti); ("JSR", i_jsr); ("RTS", i_rts); ("JMP", i_jmp); ("BIT", i_bit);
   ("CLC", i_clc); ("SEC", i_sec); ("CLD", i_cld); ("SED", i_sed); ("CLI", i_cli); ("SEI", i_sei);
   ("CLV", i_clv); ("NOP", i_nop); ("SLO", i_slo); ("RLA", i_rla); ("SRE", i_sre); ("RRA", i_rra);
   ("SAX", i_sax); ("LAX", i_lax); ("DCP", i_dcp); ("ISC", i_isc); ("ANC", i_anc); ("ANC2", i_anc2);
   ("ALR", i_alr); ("ARR", i_arr); ("XAA", i_xaa); ("AXS", i_axs); ("USBC", i_usbc); ("AHX", i_ahx);
   ("SHY", i_shy); ("SHX", i_shx); ("TAS", i_tas); ("LAS", i_las); ("BRA", i_bra); ("PHX", i_phx);
   ("PHY", i_phy); ("PLX", i_plx); ("PLY", i_ply); ("STZ", i_stz); ("TRB", i_trb); ("TSB", i_tsb);
   ("STP", i_stp); ("WAI", i_wai); ("BBR0", i_bbr0); ("BBR1", i_bbr1); ("BBR2", i_bbr2); ("BBR3", i_bbr3);
   ("BBR4", i_bbr4); ("BBR5", i_bbr5); ("BBR6", i_bbr6); ("BBR7", i_bbr7); ("BBS0", i_bbs0); ("BBS1", i_bbs1);
   ("BBS2", i_bbs2); ("BBS3", i_bbs3); ("BBS4", i_bbs4); ("BBS5", i_bbs5); ("BBS6", i_bbs6); ("BBS7", i_bbs7);
   ("RMB0", i_rmb0); ("RMB1", i_rmb1); ("RMB2", i_rmb2); ("RMB3", i_rmb3); ("RMB4", i_rmb4); ("RMB5", i_rmb5);
   ("RMB6", i_rmb6); ("RMB7", i_rmb7); ("SMB0", i_smb0); ("SMB1", i_smb1); ("SMB2", i_smb2); ("SMB3", i_smb3);
   ("SMB4", i_smb4); ("SMB5", i_smb5); ("SMB6", i_smb6); ("SMB7", i_smb7)].

(** literal rules, pasm.l:225-327 *)
Definition kw_table : list (string * kw) :=
  [(".ENDIF", WEndif); (".IF", WIf); (".ELSE", WElse); (".BYTE", WByte); (".DB", WByte); (".WORD", WWord); (".DW", WWord);
   (".DCW", WWord); (".DS", WDs); (".EQU", WEqu); ("NOT", WNot); (">=", WGe); ("<=", WLe); ("==", WEq); ("!=", WNe);
   ("<>", WNe); ("<<", WShl); (">>", WShr); ("||", WOr); ("|", WBitor); ("&&", WAnd); ("&", WBitand);
   (".REPEAT", WRepeat); (".UNTIL", WUntil); (".END", WEnd); (".PRINT", WPrint); ("?", WPrint); (".PRINTALL", WPrintAll);
   ("??", WPrintAll); (".FOR", WFor); (".NEXT", WNext); (".STEP", WStep); (".TO", WTo); (".DOWNTO", WDownto);
   (".STR", WStr); (".TEXT", WStr); (".STRING", WStr); (".ORG", WOrg); (".SECTION", WSection);
   (".ENDSECTION", WEndSection); (".SECT", WSection); (".ENDS", WEndSection); (".INC", WInc); (".LOAD", WLoad);
   (".FILL", WFill)].
Definition kw_table2 : list (string * kw) :=
  [(".WEND", WWend); (".MACRO", WMacro); (".MAC", WMacro); (".ENDMACRO", WEndMacro); (".ENDM", WEndMacro);
   (".REGX", WRegx); (".REGY", WRegy); (".VAR", WVar)].
Definition kw_table3 : list (string * string * kw) :=
  [(".6502", "ON", WCpu false); (".65C02", "ON", WCpu true); (".ILLEGAL", "ON", WIllegal true);
   (".ILLEGAL", "OFF", WIllegal false); (".WARN", "ON", WWarn); (".WARN", "OFF", WWarn)].

Definition rule := (matcher * (cstr -> act))%type.
Definition k_rule (w : string * kw) : rule := (lit (cs (fst w)), fun _ => ATok (TkKw (snd w))).

(** ".IFDEF"[ \t]+{SYMB}; SKIP_WHITE gives the name *)
Definition after_ws (s : cstr) : cstr :=
  let t := skipn (span (fun c => negb (is_ws c)) s) s in skipn (span is_ws t) t.
Definition ifdef_rule (w : string) (neg : bool) : rule :=
  (seq (lit (cs w)) (seq (plus is_ws) symb), fun s => ATok (TkKw (WIfdef neg (after_ws s)))).

(** opcodes, end of line, directives and operators spelled out (pasm.l:65-327) *)
Definition rules_words : list rule :=
  map (fun w : string * Z => (lit (cs (fst w)), fun _ => ATok (TkOp (snd w)))) op_table ++
  [(one (fun c => (c =? 10) || (c =? 13)), fun _ => ATok (TkKw WEol));
   ifdef_rule ".IFDEF" false; ifdef_rule ".IFNDEF" true] ++
  map k_rule kw_table ++
  [(lit (cs ".WHILE"), fun _ => AWhile); (lit (cs ".DO"), fun _ => ADo)] ++
  map k_rule kw_table2 ++
  map (fun w : string * string * kw =>
         (seq (lit (cs (fst (fst w)))) (seq (star is_ws) (lit (cs (snd (fst w))))), fun _ => ATok (TkKw (snd w))))
      kw_table3.
(** the remaining rules (pasm.l:327-428) *)
Definition rules_rest : list rule :=
  [k_rule (".C64", WC64);
   (seq (lit (cs ".PRINT")) (seq (one is_ws) (lit (cs "ON"))), fun _ => ATok (TkKw WPrintOn));
   (seq (lit (cs ".PRINT")) (seq (one is_ws) (lit (cs "OFF"))), fun _ => ATok (TkKw WPrintOff));
   (* [\\][1-9]+[0-9]* ; [1-9]+[0-9]* is a digit 1-9 followed by digits *)
   (seq (ch 92) (seq (one (fun c => isdigit c && negb (c =? 48))) (star isdigit)), fun _ => APar);
   (plus is_pmc, fun _ => APm);
   (seq (ch 39) (seq notnl (ch 39)), fun s => ATok (one_byte s));
   (seq (ch 39) (seq (ch 92) (seq notnl (ch 39))), fun s => ATok (one_byte s));
   (seq (ch 34) (seq notnl (ch 34)), fun s => ATok (one_byte s));
   (seq (ch 34) (seq (ch 92) (seq notnl (one (fun c => (c =? 39) || (c =? 34))))), fun s => ATok (one_byte s));
   (seq (ch 36) (star is_hex), fun s => ATok (TkInt (int_of 16 (skipn 1 s))));
   (seq (ch 39) (seq (ch 92) (seq (one (fun c => tolower c =? 120)) (seq (plus is_hex) (ch 39)))),
    fun s => ATok (TkInt (int_of 16 (skipn 3 s))));
   (plus isdigit, fun s => ATok (TkInt (int_of 10 s)));
   (seq (ch 37) (star is_bin), fun s => ATok (TkInt (int_of 2 (skipn 1 s))));
   (seq (ch 48) (seq (one (fun c => tolower c =? 98)) (star is_bin)), fun s => ATok (TkInt (int_of 2 (skipn 2 s))));
   (seq (ch 39) (seq (ch 92) (seq (one is_oct) (seq (one is_oct) (seq (one is_oct) (ch 39))))),
    fun s => ATok (TkInt (int_of 8 (skipn 2 s))));
   (strvalue, fun s => ATok (TkStr s));
   (seq (ch 42) (seq (star is_ws) (ch 61)), fun _ => APc);
   (seq (ch 42) (seq (star is_ws) (lit (cs ".EQU"))), fun _ => APc);
   k_rule ("X", WX); k_rule ("Y", WY);
   (seq symb (opt (ch 58)), fun _ => AName);
   (lit (cs "/*"), fun _ => AComment);
   (seq (ch 59) (star (fun c => negb (is_nl c))), fun _ => ANone);
   (seq (lit (cs "//")) (star (fun c => negb (is_nl c))), fun _ => ANone);
   (one (fun c => (c =? 126) || (c =? 94)), fun s => ATok (TkCh (hd 0 s)));
   (one (fun c => existsb (fun x => x =? c) [45; 60; 62; 61; 43; 42; 47; 35; 44; 40; 41; 59; 10]),
    fun s => ATok (TkCh (hd 0 s)));
   (plus is_ws, fun _ => ANone);
   (notnl, fun _ => ATok TkBad)].
Definition rules : list rule := rules_words ++ rules_rest.

(** the longest match; the earliest rule on a tie; empty matches are not taken *)
Fixpoint best (rs : list rule) (s : cstr) (n : nat) (a : cstr -> act) : nat * (cstr -> act) :=
  match rs with
  | [] => (n, a)
  | (m, f) :: rs =>
      match m s with
      | Some k => if Nat.ltb n k then best rs s k f else best rs s n a
      | None => best rs s n a
      end
  end.

(** ** The scanner.  [last] is the first character of last_token (None: NULL); [dc] is do_count; [ln] is yylineno.
    EOL tokens carry yylineno after them, .ELSE and .ENDIF the value when they are read. *)
Inductive ltok := LTok (t : tok) (line : Z).

Fixpoint lines_in (s : cstr) : Z := match s with [] => 0 | c :: s => (if c =? 10 then 1 else 0) + lines_in s end.

(** C_COMMENT: skip to the closing mark *)
Fixpoint skip_comment (s : cstr) : cstr * Z :=
  match s with
  | [] => ([], 0)
  | c :: s' =>
      if (c =? 42) && (match s' with d :: _ => d =? 47 | [] => false end) then (tl s', 0)
      else let '(r, n) := skip_comment s' in (r, (if c =? 10 then 1 else 0) + n)
  end.

Fixpoint scan (fuel : nat) (s : cstr) (last : option Z) (dc ln : Z) : list ltok :=
  match fuel with
  | O => []
  | S f =>
      match s with
      | [] => []
      | c0 :: _ =>
          let '(n, a) := best rules s O (fun _ => ATok TkBad) in
          let n := Nat.max n 1 in
          let w := firstn n s in
          let r := skipn n s in
          let ln' := ln + lines_in w in
          let first := match last with None => true | Some c => c =? 10 end in
          let lab := match last with None => false | Some c => c =? 10 end in
          match a w with
          | ATok t => LTok t ln' :: scan f r (Some c0) dc ln'
          | APc => LTok (TkKw WPcAssign) ln' :: LTok (TkCh 61) ln' :: scan f r (Some 61) dc ln'
          | AWhile => if 0 <? dc then LTok (TkKw WEnddo) ln' :: scan f r (Some c0) (dc - 1) ln'
                      else LTok (TkKw WWhile) ln' :: scan f r (Some c0) dc ln'
          | ADo => LTok (TkKw WDo) ln' :: scan f r (Some c0) (dc + 1) ln'
          | AName => LTok (TkName w first) ln' :: scan f r (Some c0) dc ln'
          | APar => LTok (TkPar w) ln' :: scan f r (Some c0) dc ln'
          | APm => (if lab then LTok (TkPm w true) ln'
                    else match w with
                         | [c] => LTok (TkCh c) ln'
                         | _ => LTok (TkPm w false) ln'
                         end) :: scan f r (Some c0) dc ln'
          | AComment => let '(r', k) := skip_comment r in scan f r' (Some 42) dc (ln' + k)
          | ANone => scan f r last dc ln'
          end
      end
  end.
Definition tokens (s : cstr) : list ltok := scan (S (List.length s)) s None 0 0.
