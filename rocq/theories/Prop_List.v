(** The list file, see properties.jsonl.
    [generate_list_file rd rs] (List.v) is the list file made from the records of the final pass, oldest first, as the sequence
    of what is printed: rows with an output column and a source column, and headings.  [rd] gives the text of the files.
    [columns ps] are the output columns; [read_rows] (ListProofs.v) is a reader of them written without regard to how they are made:
    "$HHHH:", then bytes as " $HH", then spaces and a statement, which if it is .db must spell the same bytes.
    [sources ps] are the source lines printed, with their numbers; [text_lines rd n] the lines of the text of file [n].
    [in_step rd n ls]: the statements [ls] of file [n] bear the numbers of lines of its text, rising, up to the last but one at least.
    The programs are those of Prop_Prog.v. *)
From Coq Require Import String Ascii Lia.
From Verif Require Import Base BaseProofs Hash Dict DictProofs DictMore Str Opcodes OpcodesProofs Err State Sym Machine Build Lexer Parser Pass Prog File
  SymProofs SymMore SymEx Sem ExprProofs OpProofs DataProofs DefProofs DataMore
  Colon Layout LineTwo LineFour PassProofs Frag FragPass FragProg FragAsm FragEx List ListRel ListProofs ListFile ListLines ListOnce ListAsm FileProofs TextLines ListBeside ListAddr Prop_Prog.
Open Scope string_scope.
Open Scope list_scope.
Open Scope Z_scope.

(** ** C55 *)
Theorem C55_listing_bytes : forall rd c02 ill c64 cfg F pre ol o body s' ps shown,
  (1 <= F)%nat -> all_lines cfg (g_inputs cfg) (pre ++ ol :: body) -> Forall (okl c02 ill F) (pre ++ ol :: body) ->
  org_of ol = Some o -> 1 <= o -> Forall (fun l => move_of l = None /\ silent (t_stmt l) = true) pre -> Forall (fun l => move_of l = None) body ->
  (exists l n, In l (pre ++ ol :: body) /\ t_label l = Some n) \/ (forall l n, In l (pre ++ ol :: body) -> ldef l = Some n -> False) ->
  g_out cfg = true ->
  (forall a b, stricmp a b = 0 -> rd a = rd b) -> (forall n ls, In n (g_inputs cfg) -> g_files cfg n = Some (map SrcLine ls) -> in_step rd n ls) ->
  assemble (S F) (init_state cfg c02 ill c64) = Ok 0 s' -> s_errs s' = 0 ->
  generate_list_file rd (rev (s_list s')) = Some ps -> read_rows (columns ps) = Some shown ->
  exists header, rev (s_out s') = header ++ shown /\ header = (if c64 && negb (forallb (fun l => silent (t_stmt l)) body) then [o mod 256; o / 256 mod 256] else []).
Proof.
  intros rd c02 ill c64 cfg F pre ol o body s' ps shown F1 Fi OK Eo Po Sp Bb An Go Hrd Hin E Er Eg Es.
  destruct (assemble_layout c02 ill c64 cfg F _ F1 Fi OK pre ol o body s' An Go eq_refl Sp Eo Po Bb E Er) as (s1 & _ & _ & (bytes & h & L1 & L2 & L3 & L4 & _ & _ & _ & L5) & _ & N1 & N2).
  destruct (L5 N1 N2) as (K1 & K2 & K3 & _). exists h.
  pose proof (all_placed rd cfg _ _ Hin K3) as P. apply Forall_rev in P. rewrite rev_involutive in P.
  rewrite (list_file_bytes rd Hrd _ _ _ K2 P Eg Es), K1. auto.
Qed.
Print Assumptions C55_listing_bytes.

(** if no row holds the text " $00.db", which only the row for the NUL that pads a string of .WORD does, every row can be read *)
Theorem C55_listing_reads : forall rd c02 ill c64 cfg F pre ol o body s' ps,
  (1 <= F)%nat -> all_lines cfg (g_inputs cfg) (pre ++ ol :: body) -> Forall (okl c02 ill F) (pre ++ ol :: body) ->
  org_of ol = Some o -> 1 <= o -> Forall (fun l => move_of l = None /\ silent (t_stmt l) = true) pre -> Forall (fun l => move_of l = None) body ->
  (exists l n, In l (pre ++ ol :: body) /\ t_label l = Some n) \/ (forall l n, In l (pre ++ ol :: body) -> ldef l = Some n -> False) ->
  g_out cfg = true ->
  (forall a b, stricmp a b = 0 -> rd a = rd b) -> (forall n ls, In n (g_inputs cfg) -> g_files cfg n = Some (map SrcLine ls) -> in_step rd n ls) ->
  assemble (S F) (init_state cfg c02 ill c64) = Ok 0 s' -> s_errs s' = 0 ->
  generate_list_file rd (rev (s_list s')) = Some ps -> (forall t, In t (columns ps) -> ~ within (cs " $00.db") t) ->
  exists shown header, read_rows (columns ps) = Some shown /\ rev (s_out s') = header ++ shown /\ header = (if c64 && negb (forallb (fun l => silent (t_stmt l)) body) then [o mod 256; o / 256 mod 256] else []).
Proof.
  intros rd c02 ill c64 cfg F pre ol o body s' ps F1 Fi OK Eo Po Sp Bb An Go Hrd Hin E Er Eg Np.
  destruct (assemble_layout c02 ill c64 cfg F _ F1 Fi OK pre ol o body s' An Go eq_refl Sp Eo Po Bb E Er) as (s1 & _ & _ & (bytes & h & L1 & L2 & L3 & L4 & _ & _ & _ & L5) & Nm & N1 & N2).
  destruct (L5 N1 N2) as (K1 & K2 & K3 & K4 & lb & K5 & K6 & K7). pose proof (all_placed rd cfg _ _ Hin K3) as P. apply Forall_rev in K2.
  exists bytes, h. rewrite (list_reads rd Hrd _ _ K2 P Eg Np). split; [|auto]. f_equal. exact K1.
Qed.
Print Assumptions C55_listing_reads.

(** ** C59 *)
(** [read_image] (ListAddr.v) reads every byte of the rows with its address, [from o bytes] are the bytes at the addresses from [o] on
    (modulo 65536): the list file shows every byte at the address where it is loaded *)
Theorem C59_listing_addresses : forall rd c02 ill c64 cfg F pre ol o body s' ps,
  (1 <= F)%nat -> all_lines cfg (g_inputs cfg) (pre ++ ol :: body) -> Forall (okl c02 ill F) (pre ++ ol :: body) ->
  org_of ol = Some o -> 1 <= o -> Forall (fun l => move_of l = None /\ silent (t_stmt l) = true) pre -> Forall (fun l => move_of l = None) body ->
  (exists l n, In l (pre ++ ol :: body) /\ t_label l = Some n) \/ (forall l n, In l (pre ++ ol :: body) -> ldef l = Some n -> False) ->
  g_out cfg = true ->
  (forall a b, stricmp a b = 0 -> rd a = rd b) -> (forall n ls, In n (g_inputs cfg) -> g_files cfg n = Some (map SrcLine ls) -> in_step rd n ls) ->
  assemble (S F) (init_state cfg c02 ill c64) = Ok 0 s' -> s_errs s' = 0 ->
  generate_list_file rd (rev (s_list s')) = Some ps -> (forall t, In t (columns ps) -> ~ within (cs " $00.db") t) ->
  exists bytes header, read_image (columns ps) = Some (from o bytes) /\ rev (s_out s') = header ++ bytes /\ header = (if c64 && negb (forallb (fun l => silent (t_stmt l)) body) then [o mod 256; o / 256 mod 256] else []).
Proof.
  intros rd c02 ill c64 cfg F pre ol o body s' ps F1 Fi OK Eo Po Sp Bb An Go Hrd Hin E Er Eg Np.
  destruct (assemble_layout c02 ill c64 cfg F _ F1 Fi OK pre ol o body s' An Go eq_refl Sp Eo Po Bb E Er) as (s1 & _ & _ & (bytes & h & L1 & L2 & L3 & L4 & _ & _ & _ & L5) & Nm & N1 & N2).
  destruct (L5 N1 N2) as (K1 & K2 & K3 & K4 & lb & K5 & K6 & K7). pose proof (all_placed rd cfg _ _ Hin K3) as P. apply Forall_rev in K2.
  exists bytes, h. rewrite (list_image rd Hrd _ _ o K2 P Eg Np K4). split; [|auto]. do 2 f_equal. exact K1.
Qed.
Print Assumptions C59_listing_addresses.

(** ** C60 *)
(** [lined c02 ill en o body lb]: [lb] are the bytes of each line of [body], with the number of the line, when the lines are placed one after
    the other from [o] on and names denote [en].  [beside 0 ps] are the rows with bytes, each with the number of the source line
    in it, or of the row with bytes directly above it (0 if there is none).  The rows of each line show the bytes of that line. *)
Theorem C60_listing_beside : forall rd c02 ill c64 cfg F pre ol o body s' ps,
  (1 <= F)%nat -> all_lines cfg (g_inputs cfg) (pre ++ ol :: body) -> Forall (okl c02 ill F) (pre ++ ol :: body) ->
  org_of ol = Some o -> 1 <= o -> Forall (fun l => move_of l = None /\ silent (t_stmt l) = true) pre -> Forall (fun l => move_of l = None) body ->
  (exists l n, In l (pre ++ ol :: body) /\ t_label l = Some n) \/ (forall l n, In l (pre ++ ol :: body) -> ldef l = Some n -> False) ->
  g_out cfg = true ->
  (forall a b, stricmp a b = 0 -> rd a = rd b) -> (forall n ls, In n (g_inputs cfg) -> g_files cfg n = Some (map SrcLine ls) -> in_step rd n ls) ->
  distinct (g_inputs cfg) ->
  assemble (S F) (init_state cfg c02 ill c64) = Ok 0 s' -> s_errs s' = 0 ->
  generate_list_file rd (rev (s_list s')) = Some ps -> (forall t, In t (columns ps) -> ~ within (cs " $00.db") t) ->
  exists en lb header, denotes en (pre ++ ol :: body) /\ layout c02 ill en o body (concat (map snd lb)) /\ lined c02 ill en o body lb /\
    rev (s_out s') = header ++ concat (map snd lb) /\ header = (if c64 && negb (forallb (fun l => silent (t_stmt l)) body) then [o mod 256; o / 256 mod 256] else []) /\
    grouped lb (beside 0 ps).
Proof.
  intros rd c02 ill c64 cfg F pre ol o body s' ps F1 Fi OK Eo Po Sp Bb An Go Hrd Hin Hd E Er Eg Np.
  destruct (assemble_layout c02 ill c64 cfg F _ F1 Fi OK pre ol o body s' An Go eq_refl Sp Eo Po Bb E Er) as (s1 & _ & _ & (bytes & h & L1 & L2 & L3 & L4 & _ & _ & _ & L5) & Nm & N1 & N2).
  destruct (L5 N1 N2) as (K1 & K2 & K3 & K4 & lb & K5 & K6 & K7). pose proof (all_placed rd cfg _ _ Hin K3) as P. apply Forall_rev in K2.
  pose proof (all_wholes rd cfg _ _ Hin K2 K3) as W. exists (env s1), lb, h. rewrite <- K6. split; [exact Nm|]. split; [exact L2|]. split; [exact K5|]. split; [exact L3|]. split; [exact L4|].
  rewrite (list_file_beside rd (g_inputs cfg) (rev (s_list s')) ps 0 W Hd); [|revert P; apply Forall_impl; intros r; apply placed_reaches|exact (all_clumped rd cfg _ _ Hin K3)|exact Eg].
  apply spread_grouped; [exact K7|exact (rows_unpadded rd Hrd _ _ K2 P Eg Np)].
Qed.
Print Assumptions C60_listing_beside.

(** ** C56 *)
(** the program is assembled without errors, the names of the input files differ by more than case: the list file shows every line of
    every input file exactly once, in order *)
Theorem C56_listing_lines : forall rd c02 ill c64 cfg F pre ol o body s' ps,
  (1 <= F)%nat -> all_lines cfg (g_inputs cfg) (pre ++ ol :: body) -> Forall (okl c02 ill F) (pre ++ ol :: body) ->
  org_of ol = Some o -> 1 <= o -> Forall (fun l => move_of l = None /\ silent (t_stmt l) = true) pre -> Forall (fun l => move_of l = None) body ->
  (exists l n, In l (pre ++ ol :: body) /\ t_label l = Some n) \/ (forall l n, In l (pre ++ ol :: body) -> ldef l = Some n -> False) ->
  g_out cfg = true ->
  distinct (g_inputs cfg) -> (forall n ls, In n (g_inputs cfg) -> g_files cfg n = Some (map SrcLine ls) -> in_step rd n ls) ->
  assemble (S F) (init_state cfg c02 ill c64) = Ok 0 s' -> s_errs s' = 0 ->
  generate_list_file rd (rev (s_list s')) = Some ps ->
  sources ps = concat (map (text_lines rd) (g_inputs cfg)).
Proof.
  intros rd c02 ill c64 cfg F pre ol o body s' ps F1 Fi OK Eo Po Sp Bb An Go Hd Hin E Er Eg.
  destruct (assemble_layout c02 ill c64 cfg F _ F1 Fi OK pre ol o body s' An Go eq_refl Sp Eo Po Bb E Er) as (s1 & _ & _ & (bytes & h & L1 & L2 & L3 & L4 & _ & _ & _ & L5) & _ & N1 & N2).
  destruct (L5 N1 N2) as (K1 & K2 & K3 & _). apply (list_file_lines rd _ _ _ (all_wholes rd cfg _ _ Hin (Forall_rev K2) K3) Hd Eg).
Qed.
Print Assumptions C56_listing_lines.
(** whatever the program and its records are, no line of a file is printed twice *)
Theorem C56_listing_once : forall rd rs ps, generate_list_file rd rs = Some ps -> NoDup (keys ps).
Proof. intros rd rs ps. apply list_file_once. Qed.
Print Assumptions C56_listing_once.
(** a list file is made of the records of any run if no line of a file and no row is too long for the buffer *)
Theorem C56_listing_fits : forall rd w r rs, (forall n x, In x (text_lines rd n) -> Z.of_nat (length (snd x)) <= w) -> 1 <= w -> w + 148 < max_line_len ->
  l_line r = 0 -> Forall (fun r => Z.of_nat (length (body_text (l_body r))) <= 148) (r :: rs) -> exists ps, generate_list_file rd (r :: rs) = Some ps.
Proof.
  intros rd w r rs H1 H2 H3 H4 H5. unfold generate_list_file. rewrite H4. change (Z.to_nat (0 - 1)) with O. cbn [before].
  destruct (records_some rd w H1 H3 H2 (r :: rs) (l_file r) 1 [] H5 (Forall_nil _)) as (ps & Ep).
  eexists. exact (f_equal (option_map (app (PBlank :: PHead (l_file r) :: []))) Ep).
Qed.
Print Assumptions C56_listing_fits.

(** ** From the texts *)
(** The input files are texts of lines: [txt n] are the lines of file [n], none holds a newline or a carriage return or is 2047
    characters long or more, and every /* is closed ([text_ok]).  What is assembled is what the parser makes of the texts. *)
Theorem C55_text_bytes : forall rd txt c02 ill c64 cfg F pre ol o body s' ps shown,
  (1 <= F)%nat -> all_lines cfg (g_inputs cfg) (pre ++ ol :: body) -> Forall (okl c02 ill F) (pre ++ ol :: body) ->
  org_of ol = Some o -> 1 <= o -> Forall (fun l => move_of l = None /\ silent (t_stmt l) = true) pre -> Forall (fun l => move_of l = None) body ->
  (exists l n, In l (pre ++ ol :: body) /\ t_label l = Some n) \/ (forall l n, In l (pre ++ ol :: body) -> ldef l = Some n -> False) ->
  g_out cfg = true ->
  (forall a b, stricmp a b = 0 -> rd a = rd b) -> (forall n, g_files cfg n = option_map parse_text (rd n)) ->
  (forall n, In n (g_inputs cfg) -> rd n = Some (text (txt n)) /\ text_ok (txt n)) ->
  assemble (S F) (init_state cfg c02 ill c64) = Ok 0 s' -> s_errs s' = 0 ->
  generate_list_file rd (rev (s_list s')) = Some ps -> read_rows (columns ps) = Some shown ->
  exists header, rev (s_out s') = header ++ shown /\ header = (if c64 && negb (forallb (fun l => silent (t_stmt l)) body) then [o mod 256; o / 256 mod 256] else []).
Proof.
  intros rd txt c02 ill c64 cfg F pre ol o body s' ps shown F1 Fi OK Eo Po Sp Bb An Go Hrd Gf Ht.
  apply (C55_listing_bytes rd c02 ill c64 cfg F pre ol o body s' ps shown); auto.
  exact (texts_step rd c02 ill F cfg txt _ _ Gf Ht Fi OK).
Qed.
Print Assumptions C55_text_bytes.
Theorem C56_text_lines : forall rd txt c02 ill c64 cfg F pre ol o body s' ps,
  (1 <= F)%nat -> all_lines cfg (g_inputs cfg) (pre ++ ol :: body) -> Forall (okl c02 ill F) (pre ++ ol :: body) ->
  org_of ol = Some o -> 1 <= o -> Forall (fun l => move_of l = None /\ silent (t_stmt l) = true) pre -> Forall (fun l => move_of l = None) body ->
  (exists l n, In l (pre ++ ol :: body) /\ t_label l = Some n) \/ (forall l n, In l (pre ++ ol :: body) -> ldef l = Some n -> False) ->
  g_out cfg = true -> distinct (g_inputs cfg) ->
  (forall n, g_files cfg n = option_map parse_text (rd n)) ->
  (forall n, In n (g_inputs cfg) -> rd n = Some (text (txt n)) /\ text_ok (txt n)) ->
  assemble (S F) (init_state cfg c02 ill c64) = Ok 0 s' -> s_errs s' = 0 ->
  generate_list_file rd (rev (s_list s')) = Some ps ->
  sources ps = concat (map (fun n => FileProofs.number 1 (map nl (txt n))) (g_inputs cfg)).
Proof.
  intros rd txt c02 ill c64 cfg F pre ol o body s' ps F1 Fi OK Eo Po Sp Bb An Go Hd Gf Ht E Er Eg.
  rewrite (C56_listing_lines rd c02 ill c64 cfg F pre ol o body s' ps); auto; [|exact (texts_step rd c02 ill F cfg txt _ _ Gf Ht Fi OK)].
  f_equal. apply map_ext_in. intros n N. destruct (Ht n N) as [T1 T2]. exact (text_numbers rd n (txt n) T1 T2).
Qed.
Print Assumptions C56_text_lines.
Theorem C59_text_addresses : forall rd txt c02 ill c64 cfg F pre ol o body s' ps,
  (1 <= F)%nat -> all_lines cfg (g_inputs cfg) (pre ++ ol :: body) -> Forall (okl c02 ill F) (pre ++ ol :: body) ->
  org_of ol = Some o -> 1 <= o -> Forall (fun l => move_of l = None /\ silent (t_stmt l) = true) pre -> Forall (fun l => move_of l = None) body ->
  (exists l n, In l (pre ++ ol :: body) /\ t_label l = Some n) \/ (forall l n, In l (pre ++ ol :: body) -> ldef l = Some n -> False) ->
  g_out cfg = true ->
  (forall a b, stricmp a b = 0 -> rd a = rd b) -> (forall n, g_files cfg n = option_map parse_text (rd n)) ->
  (forall n, In n (g_inputs cfg) -> rd n = Some (text (txt n)) /\ text_ok (txt n)) ->
  assemble (S F) (init_state cfg c02 ill c64) = Ok 0 s' -> s_errs s' = 0 ->
  generate_list_file rd (rev (s_list s')) = Some ps -> (forall t, In t (columns ps) -> ~ within (cs " $00.db") t) ->
  exists bytes header, read_image (columns ps) = Some (from o bytes) /\ rev (s_out s') = header ++ bytes /\ header = (if c64 && negb (forallb (fun l => silent (t_stmt l)) body) then [o mod 256; o / 256 mod 256] else []).
Proof.
  intros rd txt c02 ill c64 cfg F pre ol o body s' ps F1 Fi OK Eo Po Sp Bb An Go Hrd Gf Ht.
  apply (C59_listing_addresses rd c02 ill c64 cfg F pre ol o body s' ps); auto. exact (texts_step rd c02 ill F cfg txt _ _ Gf Ht Fi OK).
Qed.
Print Assumptions C59_text_addresses.
Theorem C60_text_beside : forall rd txt c02 ill c64 cfg F pre ol o body s' ps,
  (1 <= F)%nat -> all_lines cfg (g_inputs cfg) (pre ++ ol :: body) -> Forall (okl c02 ill F) (pre ++ ol :: body) ->
  org_of ol = Some o -> 1 <= o -> Forall (fun l => move_of l = None /\ silent (t_stmt l) = true) pre -> Forall (fun l => move_of l = None) body ->
  (exists l n, In l (pre ++ ol :: body) /\ t_label l = Some n) \/ (forall l n, In l (pre ++ ol :: body) -> ldef l = Some n -> False) ->
  g_out cfg = true ->
  (forall a b, stricmp a b = 0 -> rd a = rd b) -> (forall n, g_files cfg n = option_map parse_text (rd n)) ->
  (forall n, In n (g_inputs cfg) -> rd n = Some (text (txt n)) /\ text_ok (txt n)) ->
  distinct (g_inputs cfg) ->
  assemble (S F) (init_state cfg c02 ill c64) = Ok 0 s' -> s_errs s' = 0 ->
  generate_list_file rd (rev (s_list s')) = Some ps -> (forall t, In t (columns ps) -> ~ within (cs " $00.db") t) ->
  exists en lb header, denotes en (pre ++ ol :: body) /\ layout c02 ill en o body (concat (map snd lb)) /\ lined c02 ill en o body lb /\
    rev (s_out s') = header ++ concat (map snd lb) /\ header = (if c64 && negb (forallb (fun l => silent (t_stmt l)) body) then [o mod 256; o / 256 mod 256] else []) /\
    grouped lb (beside 0 ps).
Proof.
  intros rd txt c02 ill c64 cfg F pre ol o body s' ps F1 Fi OK Eo Po Sp Bb An Go Hrd Gf Ht.
  apply (C60_listing_beside rd c02 ill c64 cfg F pre ol o body s' ps); auto. exact (texts_step rd c02 ill F cfg txt _ _ Gf Ht Fi OK).
Qed.
Print Assumptions C60_text_beside.

(** ** Cases that meet the hypotheses *)
Definition sheet : list string :=
  ["; a demo"; "v = end - start"; ""; " .org $1000"; "start lda #v   ; load"; " sta zp"; "loop dex"; " bne loop"; "tab .byte 1, v, <tab, ""hello"""; " .word end+1, tab"; "end rts"; "zp = $42"; "; the end"].
Definition sheet_lines : list tline := match src_lines (parse_text (lines sheet)) with Some p => p | None => [] end.
Definition sheet_rd : cstr -> option cstr := fun _ => Some (lines sheet).
Definition sheet_org : tline := nth 3 sheet_lines (mkLine 0 None SEmpty None).
(** what the list file shows: every line with the text left of it *)
Definition view (ps : list piece) : list (cstr * option (Z * cstr)) :=
  flat_map (fun p => match p with PRow o (Some (_, n, t)) => [(o, Some (n, t))] | PRow o None => [(o, None)] | _ => [] end) ps.
Lemma sheet_case a b : stricmp a b = 0 -> sheet_rd a = sheet_rd b.
Proof. reflexivity. Qed.
Lemma sheet_step : forall n ls, In n (g_inputs (one_file sheet)) -> g_files (one_file sheet) n = Some (map SrcLine ls) -> in_step sheet_rd n ls.
Proof.
  intros n ls [<-|[]] E. cbn [g_files one_file] in E. replace ls with sheet_lines.
  - unfold in_step. split; [vm_compute; repeat split; discriminate|]. split; [vm_compute; repeat constructor; discriminate|vm_compute; discriminate].
  - apply src_inj. injection E as E. rewrite <- E. vm_compute. reflexivity.
Qed.
(** the hypotheses of C55_listing_bytes and C56_listing_lines, and what the list file shows *)
Definition sheet_ps : list piece :=
  match assemble 100 (boot sheet) with
  | Ok _ s => match generate_list_file sheet_rd (rev (s_list s)) with Some ps => ps | None => [] end
  | _ => []
  end.
Example C55_example :
  all_lines (one_file sheet) (g_inputs (one_file sheet)) (firstn 3 sheet_lines ++ sheet_org :: skipn 4 sheet_lines) /\
  Forall (okl false false 99) (firstn 3 sheet_lines ++ sheet_org :: skipn 4 sheet_lines) /\
  org_of sheet_org = Some 4096 /\ Forall (fun l => move_of l = None /\ silent (t_stmt l) = true) (firstn 3 sheet_lines) /\
  Forall (fun l => move_of l = None) (skipn 4 sheet_lines) /\
  (exists l n, In l (firstn 3 sheet_lines ++ sheet_org :: skipn 4 sheet_lines) /\ t_label l = Some n) /\
  (forall a b, stricmp a b = 0 -> sheet_rd a = sheet_rd b) /\
  (forall n ls, In n (g_inputs (one_file sheet)) -> g_files (one_file sheet) n = Some (map SrcLine ls) -> in_step sheet_rd n ls) /\
  distinct (g_inputs (one_file sheet)) /\
  match assemble 100 (boot sheet) with
  | Ok 0 s' => s_errs s' = 0 /\ generate_list_file sheet_rd (rev (s_list s')) = Some sheet_ps /\
      read_rows (columns sheet_ps) = Some (rev (s_out s')) /\
      rev (s_out s') = [169; 19; 133; 66; 202; 208; 253; 1; 19; 7; 104; 101; 108; 108; 111; 20; 16; 7; 16; 96]
  | _ => False
  end /\
  (length (sources sheet_ps) = 13 /\ length (columns sheet_ps) = 18)%nat /\
  nth 7 (columns sheet_ps) [] = cs "$1005: $D0 $FD           bne $1004 " /\ nth 11 (columns sheet_ps) [] = cs "$100A: $68 $65 $6C       .db 'h', 'e', 'l'".
Proof.
  split; [apply (line_split _ _ _ sheet_lines); [vm_compute; reflexivity|vm_compute; reflexivity|reflexivity]|]. split; [apply oklsb_ok; vm_compute; reflexivity|].
  split; [vm_compute; reflexivity|]. split; [vm_compute; repeat constructor|]. split; [vm_compute; repeat constructor|].
  split; [exists (nth 6 sheet_lines sheet_org), (cs "loop"); split; [vm_compute; tauto|vm_compute; reflexivity]|]. split; [exact sheet_case|]. split; [exact sheet_step|].
  split; [repeat constructor|]. split; [vm_compute; repeat split|]. split; [vm_compute; auto|]. vm_compute. auto.
Qed.
(** the further hypotheses of C55_text_bytes and C56_text_lines, on the same text *)
Definition sheet_text : list cstr := map cs sheet.
Lemma closed_none s : forallb (fun c => negb (c =? 42)) s = true -> closed s.
Proof. intros H a b ->. rewrite forallb_app in H. apply andb_true_iff in H as [_ H]. discriminate H. Qed.
Example C56_text_example : (forall n, g_files (one_file sheet) n = option_map parse_text (sheet_rd n)) /\
  sheet_rd (cs "t.s") = Some (text sheet_text) /\ text_ok sheet_text /\ length (FileProofs.number 1 (map nl sheet_text)) = 13%nat /\ nth 3 (FileProofs.number 1 (map nl sheet_text)) (0, []) = (4, cs " .org $1000" ++ [10]).
Proof.
  split; [intros n; reflexivity|]. split; [vm_compute; reflexivity|]. split; [split|].
  - vm_compute. repeat constructor; discriminate.
  - apply closed_none. vm_compute. reflexivity.
  - split; vm_compute; reflexivity.
Qed.
(** of C55_listing_reads, C59 and C60: no row holds " $00.db"; the image and the rows of the lines *)
Lemma not_within u : forall t, (forall k, (k <= length t)%nat -> firstn (length u) (skipn k t) <> u) -> ~ within u t.
Proof.
  intros t H (a & b & ->). apply (H (length a)); [rewrite app_length; lia|]. rewrite skipn_app, skipn_all, Nat.sub_diag. cbn [skipn app]. rewrite firstn_app, firstn_all, Nat.sub_diag. cbn [firstn]. apply app_nil_r.
Qed.
Definition withinb (u t : cstr) : bool := existsb (fun k => if list_eq_dec Z.eq_dec (firstn (length u) (skipn k t)) u then true else false) (List.seq 0 (S (length t))).
Lemma withinb_not u t : withinb u t = false -> ~ within u t.
Proof.
  intros H. apply not_within. intros k K E. unfold withinb in H. apply Bool.not_true_iff_false in H. apply H. apply existsb_exists. exists k. split; [apply in_seq; lia|].
  destruct (list_eq_dec _ _ _); [reflexivity|contradiction].
Qed.
Example C59_example : (forall t, In t (columns sheet_ps) -> ~ within (cs " $00.db") t) /\
  match read_image (columns sheet_ps) with
  | Some im => length im = 20%nat /\ nth 5 im (0, 0) = (4101, 208) /\ im = from 4096 [169; 19; 133; 66; 202; 208; 253; 1; 19; 7; 104; 101; 108; 108; 111; 20; 16; 7; 16; 96] /\ nth 19 im (0, 0) = (4115, 96)
  | None => False
  end /\
  map (fun x => (fst x, read_row (snd x))) (beside 0 sheet_ps) =
    [(5, Some [169; 19]); (6, Some [133; 66]); (7, Some [202]); (8, Some [208; 253]); (9, Some [1]); (9, Some [19]); (9, Some [7]); (9, Some [104; 101; 108]); (9, Some [108; 111]);
     (10, Some [20; 16]); (10, Some [7; 16]); (11, Some [96])].
Proof.
  split; [|split; [vm_compute; auto 10|vm_compute; reflexivity]]. assert (X : forallb (fun t => negb (withinb (cs " $00.db") t)) (columns sheet_ps) = true) by (vm_compute; reflexivity).
  intros t T. apply withinb_not. rewrite forallb_forall in X. apply negb_true_iff. exact (X t T).
Qed.
(** of C56_listing_fits *)
Definition shortb (r : lrec) : bool := Z.of_nat (length (body_text (l_body r))) <=? 148.
Lemma shortb_ok rs : forallb shortb rs = true -> Forall (fun r => Z.of_nat (length (body_text (l_body r))) <= 148) rs.
Proof. intros H. apply Forall_forall. intros r R. apply (proj1 (forallb_forall _ _) H) in R. apply Z.leb_le. exact R. Qed.
Example C56_fits_example : exists s' r rs, assemble 100 (boot sheet) = Ok 0 s' /\ rev (s_list s') = r :: rs /\ l_line r = 0 /\
  Forall (fun r => Z.of_nat (length (body_text (l_body r))) <= 148) (r :: rs) /\ length rs = 14%nat.
Proof.
  assert (X : match assemble 100 (boot sheet) with
    | Ok 0 s' => match rev (s_list s') with r :: rs => (l_line r =? 0) && forallb shortb (r :: rs) && (length rs =? 14)%nat | [] => false end
    | _ => false
    end = true) by (vm_compute; reflexivity).
  destruct (assemble 100 (boot sheet)) as [[| |]  s'| | |]; try discriminate X. destruct (rev (s_list s')) as [|r rs] eqn:E; [discriminate X|].
  exists s', r, rs. rewrite !andb_true_iff, Z.eqb_eq, Nat.eqb_eq in X. destruct X as [[X1 X2] X3]. split; [reflexivity|]. split; [exact E|]. split; [exact X1|]. split; [apply shortb_ok; exact X2|exact X3].
Qed.

(** ** Outside *)
Definition showing (l : list string) : option (list (cstr * option (Z * cstr))) :=
  match assemble 100 (boot l) with
  | Ok 0 s => option_map view (generate_list_file (fun _ => Some (lines l)) (rev (s_list s)))
  | _ => None
  end.
Definition bytes_of (l : list string) : list Z := match assemble 100 (boot l) with Ok _ s => rev (s_out s) | _ => [] end.
Definition shows_bytes (l : list string) : option (list Z) := match showing l with Some v => read_rows (map fst v) | None => None end.
(** .WORD with an odd string whose length is a multiple of three: the row for the NUL that pads it repeats the row before *)
Theorem C55_word_string_refuted : exists l v, l = [" .org $1000"; " .word ""abc"", 5"] /\ bytes_of l = [97; 98; 99; 0; 5; 0] /\ showing l = Some v /\
  read_rows (map fst v) = None /\ In (cs "$1000: $61 $62 $63       .db 'a', 'b', 'c' $00.db $61", None) v.
Proof. eexists. eexists. split; [reflexivity|]. split; [vm_compute; reflexivity|]. split; [vm_compute; reflexivity|]. split; [vm_compute; reflexivity|]. vm_compute. auto. Qed.
Print Assumptions C55_word_string_refuted.
(** between .PRINT OFF and .PRINT ON nothing is listed, nor are these two lines *)
Theorem C55_print_off_refuted : exists l, l = [" .org $1000"; " nop"; " .print off"; " lda #1"; " .print on"; " rts"] /\
  bytes_of l = [234; 169; 1; 96] /\ shows_bytes l = Some [234; 96] /\
  exists v, showing l = Some v /\ map (fun x => option_map fst (snd x)) v = [Some 1; Some 2; Some 6].
Proof. eexists. split; [reflexivity|]. split; [vm_compute; reflexivity|]. split; [vm_compute; reflexivity|]. eexists. split; vm_compute; reflexivity. Qed.
Print Assumptions C55_print_off_refuted.
(** a line of 2003 characters does not fit into the buffer with the output column: no list file, the behaviour is undefined *)
Fixpoint dots (n : nat) : string := match n with O => EmptyString | S n => String (Ascii.ascii_of_nat 46) (dots n) end.
Definition long_line (n : nat) : list string := [" .org $1000"; String.append " lda #1;" (dots n); " rts"].
Theorem C56_long_line_refuted : bytes_of (long_line 1994) = [169; 1; 96] /\ bytes_of (long_line 1993) = [169; 1; 96] /\
  showing (long_line 1994) = None /\ exists v, showing (long_line 1993) = Some v /\ length v = 3%nat.
Proof. split; [vm_compute; reflexivity|]. split; [vm_compute; reflexivity|]. split; [vm_compute; reflexivity|]. eexists. split; [vm_compute; reflexivity|reflexivity]. Qed.
Print Assumptions C56_long_line_refuted.
