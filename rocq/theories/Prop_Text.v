(** Source texts, see properties.jsonl.
    SrcText.v and SrcProg.v say how programs are written, without regard to how a text is read:
    [lexed true 0 0 ts s]: the text [s] is the tokens [ts] (with line numbers): numbers in the notations $ % 'c' and decimal, mnemonics,
    directives and register names in any case, names, operators, strings; blanks and comments (; // and /* */) between them.
    [file_of ls ts]: the tokens are the lines [ls]: statements with their operand forms and expressions ([written]: ExprShape.v), blocks
    with their bodies, labels, macro calls, conditional directives.  [reads_as ls s] is both. *)
From Coq Require Import String Lia.
From Verif Require Import Base BaseProofs Hash Dict DictProofs DictMore Str Opcodes OpcodesProofs Err State Sym Machine Build Lexer Parser Pass Prog
  SymProofs SymMore SymEx Sem ExprProofs OpProofs DataProofs DefProofs DataMore
  Colon Layout LineTwo LineFour PassProofs Frag FragPass FragProg FragAsm FragEx LexProofs ExprShape SrcText SrcProg LexText ParseText TextEx Prop_Prog.
Open Scope string_scope.
Open Scope list_scope.
Open Scope Z_scope.

(** ** C67 *)
Theorem C67_tokens : forall ts s, lexed true 0 0 ts s -> tokens s = ts.
Proof. exact lexed_tokens. Qed.
Print Assumptions C67_tokens.
(** a text is the tokens of one list only *)
Theorem C67_unambiguous : forall ts ts' s, lexed true 0 0 ts s -> lexed true 0 0 ts' s -> ts = ts'.
Proof. intros ts ts' s H H'. rewrite <- (lexed_tokens ts s H). apply lexed_tokens, H'. Qed.
Print Assumptions C67_unambiguous.
Example C67_example : lexed true 0 0 ex_tokens ex_text /\ List.length ex_tokens = 47%nat.
Proof. split; [exact ex_lexed|reflexivity]. Qed.

(** ** C68 *)
Theorem C68_lines : forall ls s, reads_as ls s -> parse_text s = ls.
Proof. exact text_lines. Qed.
Print Assumptions C68_lines.
Theorem C68_unambiguous : forall ls ls' s, reads_as ls s -> reads_as ls' s -> ls = ls'.
Proof. intros ls ls' s H H'. rewrite <- (text_lines ls s H). apply text_lines, H'. Qed.
Print Assumptions C68_unambiguous.
Example C68_example : reads_as ex_lines ex_text.
Proof. exists ex_tokens. split; [exact ex_lexed|exact ex_file]. Qed.

(** ** C69 *)
(** the texts [txt] of the input files, one after the other, are the lines [prog] *)
Fixpoint texts (txt : cstr -> cstr) (names : list cstr) (prog : list tline) : Prop :=
  match names with
  | [] => prog = []
  | n :: names => exists ls rest, reads_as (map SrcLine ls) (txt n) /\ prog = ls ++ rest /\ texts txt names rest
  end.
Theorem C69_text_layout : forall c02 ill c64 cfg txt F pre ol o body s',
  (forall n, In n (g_inputs cfg) -> g_files cfg n = Some (parse_text (txt n))) -> texts txt (g_inputs cfg) (pre ++ ol :: body) ->
  (1 <= F)%nat -> Forall (okl c02 ill F) (pre ++ ol :: body) ->
  org_of ol = Some o -> 1 <= o -> Forall (fun l => move_of l = None /\ silent (t_stmt l) = true) pre -> Forall (fun l => move_of l = None) body ->
  (exists l n, In l (pre ++ ol :: body) /\ t_label l = Some n) \/ (forall l n, In l (pre ++ ol :: body) -> ldef l = Some n -> False) ->
  g_out cfg = true ->
  assemble (S F) (init_state cfg c02 ill c64) = Ok 0 s' -> s_errs s' = 0 ->
  exists en, denotes en (pre ++ ol :: body) /\ Prop_Prog.written c02 ill c64 en pre o body (rev (s_out s')).
Proof.
  intros c02 ill c64 cfg txt F pre ol o body s' Gf Tx F1 OK Eo Po Sp Bb An Go E Er. apply (C49_layout c02 ill c64 cfg F pre ol o body s'); auto.
  clear - Gf Tx. revert Gf Tx. generalize (pre ++ ol :: body). induction (g_inputs cfg) as [|n names IH]; intros prog Gf Tx; [exact Tx|]. cbn [texts all_lines] in *.
  destruct Tx as (ls & rest & R & -> & Tx). exists ls, rest. split; [rewrite Gf by (left; reflexivity); rewrite (text_lines _ _ R); reflexivity|]. split; [|reflexivity].
  apply IH; auto. intros m Hm. apply Gf. right. exact Hm.
Qed.
Print Assumptions C69_text_layout.
Definition ex_cfg : config := mkCfg (fun _ => Some (parse_text ex_prog)) (fun _ => None) [cs "m.a"] true true.
Example C69_example : texts (fun _ => ex_prog) (g_inputs ex_cfg) ([] ++ ex_org :: ex_body) /\ Forall (okl false false 99) ([] ++ ex_org :: ex_body) /\
  org_of ex_org = Some 4096 /\ Forall (fun l => move_of l = None) ex_body /\ is_ok (assemble 100 (init_state ex_cfg false false false)) [169; 5; 208; 252] 3.
Proof.
  split; [exists (ex_org :: ex_body), []; split; [exact ex_prog_reads|split; [rewrite app_nil_r; reflexivity|reflexivity]]|].
  split; [apply oklsb_ok; vm_compute; reflexivity|]. split; [vm_compute; reflexivity|]. split; [vm_compute; repeat constructor|]. vm_compute. auto.
Qed.

(** the very first token of a file is not taken for a label of + or -: nothing says yet that a line begins here *)
Theorem C67_first_line_refuted : tokens (cs "+ rts" ++ [10]) = [cht 43 0; LTok (TkOp i_rts) 0; kwt WEol 1] /\
  tokens ([10] ++ cs "+ rts" ++ [10]) = [kwt WEol 1; LTok (TkPm [43] true) 1; LTok (TkOp i_rts) 1; kwt WEol 2].
Proof. vm_compute. auto. Qed.
Print Assumptions C67_first_line_refuted.

(** ** C67: the mnemonics *)
(** the names of the instructions in the opcode charts of the processors, row by row; - is no documented instruction *)
Definition chart_6502 : list string :=
  ["BRK"; "ORA"; "-"; "-"; "-"; "ORA"; "ASL"; "-"; "PHP"; "ORA"; "ASL"; "-"; "-"; "ORA"; "ASL"; "-";
   "BPL"; "ORA"; "-"; "-"; "-"; "ORA"; "ASL"; "-"; "CLC"; "ORA"; "-"; "-"; "-"; "ORA"; "ASL"; "-";
   "JSR"; "AND"; "-"; "-"; "BIT"; "AND"; "ROL"; "-"; "PLP"; "AND"; "ROL"; "-"; "BIT"; "AND"; "ROL"; "-";
   "BMI"; "AND"; "-"; "-"; "-"; "AND"; "ROL"; "-"; "SEC"; "AND"; "-"; "-"; "-"; "AND"; "ROL"; "-";
   "RTI"; "EOR"; "-"; "-"; "-"; "EOR"; "LSR"; "-"; "PHA"; "EOR"; "LSR"; "-"; "JMP"; "EOR"; "LSR"; "-";
   "BVC"; "EOR"; "-"; "-"; "-"; "EOR"; "LSR"; "-"; "CLI"; "EOR"; "-"; "-"; "-"; "EOR"; "LSR"; "-";
   "RTS"; "ADC"; "-"; "-"; "-"; "ADC"; "ROR"; "-"; "PLA"; "ADC"; "ROR"; "-"; "JMP"; "ADC"; "ROR"; "-";
   "BVS"; "ADC"; "-"; "-"; "-"; "ADC"; "ROR"; "-"; "SEI"; "ADC"; "-"; "-"; "-"; "ADC"; "ROR"; "-";
   "-"; "STA"; "-"; "-"; "STY"; "STA"; "STX"; "-"; "DEY"; "-"; "TXA"; "-"; "STY"; "STA"; "STX"; "-";
   "BCC"; "STA"; "-"; "-"; "STY"; "STA"; "STX"; "-"; "TYA"; "STA"; "TXS"; "-"; "-"; "STA"; "-"; "-";
   "LDY"; "LDA"; "LDX"; "-"; "LDY"; "LDA"; "LDX"; "-"; "TAY"; "LDA"; "TAX"; "-"; "LDY"; "LDA"; "LDX"; "-";
   "BCS"; "LDA"; "-"; "-"; "LDY"; "LDA"; "LDX"; "-"; "CLV"; "LDA"; "TSX"; "-"; "LDY"; "LDA"; "LDX"; "-";
   "CPY"; "CMP"; "-"; "-"; "CPY"; "CMP"; "DEC"; "-"; "INY"; "CMP"; "DEX"; "-"; "CPY"; "CMP"; "DEC"; "-";
   "BNE"; "CMP"; "-"; "-"; "-"; "CMP"; "DEC"; "-"; "CLD"; "CMP"; "-"; "-"; "-"; "CMP"; "DEC"; "-";
   "CPX"; "SBC"; "-"; "-"; "CPX"; "SBC"; "INC"; "-"; "INX"; "SBC"; "NOP"; "-"; "CPX"; "SBC"; "INC"; "-";
   "BEQ"; "SBC"; "-"; "-"; "-"; "SBC"; "INC"; "-"; "SED"; "SBC"; "-"; "-"; "-"; "SBC"; "INC"; "-"].
(** what the 65C02 adds, without the zero-page-indirect column (see C11), and the undocumented instructions *)
Definition extra_65C02 : list (Z * string) :=
  [(4, "TSB"); (7, "RMB0"); (12, "TSB"); (15, "BBR0"); (20, "TRB"); (23, "RMB1"); (26, "INC"); (28, "TRB"); (31, "BBR1"); (39, "RMB2"); (47, "BBR2"); (52, "BIT");
   (55, "RMB3"); (58, "DEC"); (60, "BIT"); (63, "BBR3"); (71, "RMB4"); (79, "BBR4"); (87, "RMB5"); (90, "PHY"); (95, "BBR5"); (100, "STZ"); (103, "RMB6"); (111, "BBR6");
   (116, "STZ"); (119, "RMB7"); (122, "PLY"); (124, "JMP"); (127, "BBR7"); (128, "BRA"); (135, "SMB0"); (137, "BIT"); (143, "BBS0"); (151, "SMB1"); (156, "STZ"); (158, "STZ");
   (159, "BBS1"); (167, "SMB2"); (175, "BBS2"); (183, "SMB3"); (191, "BBS3"); (199, "SMB4"); (203, "WAI"); (207, "BBS4"); (215, "SMB5"); (218, "PHX"); (219, "STP"); (223, "BBS5");
   (231, "SMB6"); (239, "BBS6"); (247, "SMB7"); (250, "PLX"); (255, "BBS7")].
Definition undocumented : list (Z * string) :=
  [(7, "SLO"); (39, "RLA"); (71, "SRE"); (103, "RRA"); (135, "SAX"); (167, "LAX"); (199, "DCP"); (231, "ISC"); (11, "ANC"); (43, "ANC2"); (75, "ALR"); (107, "ARR"); (139, "XAA");
   (203, "AXS"); (235, "USBC"); (159, "AHX"); (156, "SHY"); (158, "SHX"); (155, "TAS"); (187, "LAS")].
Definition charted (c02 ill : bool) (b : Z) (v : string) : Prop :=
  (0 <= b /\ nth_error chart_6502 (Z.to_nat b) = Some v /\ v <> "-") \/ (c02 = true /\ In (b, v) extra_65C02) \/ (c02 = false /\ ill = true /\ In (b, v) undocumented).
(** a name of the chart, in any case, is read as an instruction that has the opcode of its place in the chart *)
Theorem C67_mnemonics : forall c02 ill b v w, charted c02 ill b v -> same_text w (cs v) ->
  exists i m, tokens (w ++ [10]) = [LTok (TkOp i) 0; LTok (TkKw WEol) 1] /\ get_op_code c02 ill i m = b.
Proof.
  set (offers := fun (c02 ill : bool) (b : Z) (v : string) =>
    existsb (fun x : string * Z => String.eqb (fst x) v && existsb (fun m => get_op_code c02 ill (snd x) (Z.of_nat m) =? b) (List.seq 0 24)) op_table).
  assert (O : forall c02 ill b v w, offers c02 ill b v = true -> same_text w (cs v) ->
    exists i m, tokens (w ++ [10]) = [LTok (TkOp i) 0; LTok (TkKw WEol) 1] /\ get_op_code c02 ill i m = b).
  { unfold offers. intros c02 ill b v w H Sw. apply existsb_exists in H. destruct H as ([v' i] & Hin & H). cbn [fst snd] in H. apply andb_true_iff in H. destruct H as [H1 H2].
    apply String.eqb_eq in H1. subst v'. apply existsb_exists in H2. destruct H2 as (m & _ & H2). apply Z.eqb_eq in H2. exists i, (Z.of_nat m). split; [|exact H2].
    apply lexed_tokens. apply LexTok; [|exact (LexEol false 0 0 [] [] (LexEnd true 0 1))]. apply (LxOp _ _ _ v); auto. cbn. intros X. unfold word_char, name_char, letter, digit in X. lia. }
  assert (A : forall c02 ill, forallb (fun b => String.eqb (nth b chart_6502 "-") "-" || offers c02 ill (Z.of_nat b) (nth b chart_6502 "-")) (List.seq 0 256) = true) by (intros [|] [|]; vm_compute; reflexivity).
  assert (B : forall ill, forallb (fun x => offers true ill (fst x) (snd x)) extra_65C02 = true) by (intros [|]; vm_compute; reflexivity).
  assert (C : forallb (fun x => offers false true (fst x) (snd x)) undocumented = true) by (vm_compute; reflexivity).
  clearbody offers. intros c02 ill b v w [(Hb & Hn & Hv)|[(-> & H)|(-> & -> & H)]] Sw; (eapply O; [|exact Sw]).
  - specialize (A c02 ill). rewrite forallb_forall in A. assert (L : (Z.to_nat b < 256)%nat) by (change 256%nat with (List.length chart_6502); apply nth_error_Some; congruence).
    specialize (A (Z.to_nat b) ltac:(apply in_seq; lia)). rewrite (nth_error_nth _ _ _ Hn), Z2Nat.id in A by lia. apply orb_true_iff in A. destruct A as [A|A]; [apply String.eqb_eq in A; contradiction|exact A].
  - specialize (B ill). rewrite forallb_forall in B. exact (B _ H).
  - rewrite forallb_forall in C. exact (C _ H).
Qed.
Print Assumptions C67_mnemonics.
Example C67_mnemonics_example : charted false false 169 "LDA" /\ same_text (cs "lDa") (cs "LDA") /\ charted true false 128 "BRA" /\ charted false true 167 "LAX".
Proof. split; [left; repeat split; try discriminate; lia|]. split; [reflexivity|]. split; [right; left; split; [reflexivity|cbn; tauto]|right; right; split; [reflexivity|split; [reflexivity|cbn; tauto]]]. Qed.
