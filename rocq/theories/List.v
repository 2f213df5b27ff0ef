(** Model of the listing: the text of a list record (CMakePasm/source/node.cc:1517-1864) and the list file
    (CMakePasm/source/genlist.cc).  [s_list] holds the records in structured form; here they become text.
    Simplification: MALLOC does not fail; the error that get_file_line reports for a file that cannot be read is
    left out (it comes after the output is written and does not change the exit status). *)
From Coq Require Import String.
From Verif Require Import Base Opcodes State Machine File Eol.
Open Scope string_scope.
Open Scope list_scope.
Open Scope Z_scope.

(** opcodes.cc:22-142 *)
Definition instr_look_up : list string :=
  ["ora"; "and"; "eor"; "adc"; "sbc"; "cmp"; "cpx"; "cpy"; "dec"; "dex"; "dey"; "inc"; "inx"; "iny";
   "asl"; "rol"; "lsr"; "ror"; "lda"; "sta"; "ldx"; "stx"; "ldy"; "sty"; "rmb0"; "rmb1"; "rmb2"; "rmb3";
   "rmb4"; "rmb5"; "rmb6"; "rmb7"; "smb0"; "smb1"; "smb2"; "smb3"; "smb4"; "smb5"; "smb6"; "smb7"; "stz"; "tax";
   "txa"; "tay"; "tya"; "tsx"; "txs"; "pla"; "pha"; "plp"; "php"; "phx"; "phy"; "plx"; "ply"; "bra";
   "bpl"; "bmi"; "bvc"; "bvs"; "bcc"; "bcs"; "bne"; "beq"; "bbr0"; "bbr1"; "bbr2"; "bbr3"; "bbr4"; "bbr5";
   "bbr6"; "bbr7"; "bbs0"; "bbs1"; "bbs2"; "bbs3"; "bbs4"; "bbs5"; "bbs6"; "bbs7"; "stp"; "wai"; "brk"; "rti";
   "jsr"; "rts"; "jmp"; "bit"; "trb"; "tsb"; "clc"; "sec"; "cld"; "sed"; "cli"; "sei"; "clv"; "nop";
   "slo"; "rla"; "sre"; "rra"; "sax"; "lax"; "dcp"; "isc"; "anc"; "anc2"; "alr"; "arr"; "xaa"; "axs";
   "usbc"; "ahx"; "shy"; "shx"; "tas"; "las"].
(** opcodes.cc:474-479 *)
Definition instruction_to_string (i : Z) : cstr := cs (nth (Z.to_nat i) instr_look_up "Unknown").

(** %02X, %04X of an int *)
Definition hexi (w : nat) (v : Z) : cstr := hex_w w (u32 v).
(** genlist.h:32 SRC_LST_INDENT and the loops that fill up to that column *)
Definition src_lst_indent : nat := 25.
Definition fill_to (n : nat) (t : cstr) : cstr := t ++ repeat 32 (n - length t).

(** "$%02X%02X:" *)
Definition pc_text (pc : Z) : cstr := cs "$" ++ hexi 2 (pc / 256) ++ hexi 2 (Z.land pc 255) ++ cs ":".
(** " $%02X" for each byte *)
Definition bytes_text (l : list Z) : cstr := concat (map (fun b => cs " $" ++ hexi 2 b) l).
Fixpoint commas (l : list cstr) : cstr :=
  match l with [] => [] | [x] => x | x :: r => x ++ cs ", " ++ commas r end.
(** node.cc:1601-1608 and 1650-1657: a character of a full group and of the last one *)
Definition quote_char (c : Z) : cstr := 39 :: c :: [39].
Definition full_char (c : Z) : cstr := if isprint c then quote_char c else cs "$" ++ hexi 2 (c mod 256).

(** node.cc:1787-1850: the operand column *)
Definition operand_text (mode op : Z) : cstr :=
  if mode =? m_I then cs "#$" ++ hexi 2 op ++ cs " "
  else if mode =? m_zp then cs "$" ++ hexi 2 op ++ cs " "
  else if mode =? m_zpi then cs "($" ++ hexi 2 op ++ cs ") "
  else if mode =? m_zpx then cs "$" ++ hexi 2 op ++ cs ",x "
  else if mode =? m_zpy then cs "$" ++ hexi 2 op ++ cs ",y "
  else if mode =? m_izx then cs "($" ++ hexi 2 op ++ cs ",x) "
  else if mode =? m_izy then cs "($" ++ hexi 2 op ++ cs "),y "
  else if mode =? m_a then cs "$" ++ hexi 4 op ++ cs " "
  else if mode =? m_aix then cs "$" ++ hexi 4 op ++ cs ",x "
  else if mode =? m_ax then cs "$" ++ hexi 4 op ++ cs ",x "
  else if mode =? m_ay then cs "$" ++ hexi 4 op ++ cs ",y "
  else if mode =? m_ind then cs "($" ++ hexi 4 op ++ cs ") "
  else if mode =? m_r then cs "$" ++ hexi 4 op ++ cs " "
  else [].

(** node.cc:1580-1611: a full group *)
Definition group_text (pc : Z) (g : cstr) : cstr :=
  fill_to src_lst_indent (pc_text pc ++ bytes_text (map (fun c => c mod 256) g)) ++ cs ".db " ++ commas (map full_char g).

(** node.cc:1517-1864: the text of a record.  In the two places where a NUL is appended to the string it is read at the
    end of the string; LPad is the case where the buffer still holds the group before (1624-1631, 1652-1655:
    [string_start\[0\]] is a char, converted to int). *)
Definition body_text (b : lbody) : cstr :=
  match b with
  | LNone => []
  | LOp pc opc instr mode bytes op =>
      fill_to src_lst_indent (pc_text pc ++ bytes_text (opc :: bytes)) ++ instruction_to_string instr ++ cs " " ++
      (match bytes with [] => [] | _ => operand_text mode op end)
  | LData pc l =>
      fill_to src_lst_indent (pc_text pc ++ bytes_text l) ++ cs ".db " ++ commas (map (fun b => cs "$" ++ hexi 2 b) l)
  | LStr pc g => group_text pc g
  | LTail pc g pad =>
      fill_to src_lst_indent (pc_text pc ++ bytes_text (map (fun c => c mod 256) g ++ (if pad then [0] else []))) ++ cs ".db " ++
      commas (map quote_char g ++ (if pad then [cs "$" ++ hexi 2 0] else []))
  | LPad pc g => group_text pc g ++ cs " $00" ++ cs ".db " ++ cs "$" ++ hexi 2 (hd 0 g)
  end.

(** ** The list file *)
(** file.h: file_line_node; genlist.h: file_entry *)
Record fline := mkF { f_no : Z; f_text : cstr; f_shown : Z }.
Definition fentry : Type := cstr * list fline.

Section Files.
(** the texts of the files that can be read *)
Variable rd : cstr -> option cstr.

Definition load (file : cstr) : list fline :=
  match rd file with
  | None => []
  | Some t => map (fun x => mkF (fst x) (snd x) 0) (read_file_lines t)
  end.

(** genlist.cc:25-58 get_file_line: the entry of the file, which is read at its first use, and the line *)
Fixpoint find_entry (es : list fentry) (file : cstr) : nat :=
  match es with
  | [] => O
  | (n, _) :: es => if stricmp n file =? 0 then O else S (find_entry es file)
  end.
Fixpoint seek (l : list fline) (line : Z) : nat :=
  match l with
  | [] => O
  | f :: l => if f_no f <? line then S (seek l line) else O
  end.
Definition with_entry (es : list fentry) (file : cstr) : list fentry :=
  if (find_entry es file <? length es)%nat then es else es ++ [(file, load file)].
Definition lines_at (es : list fentry) (i : nat) : list fline := match nth_error es i with Some (_, l) => l | None => [] end.
Definition set_lines (es : list fentry) (i : nat) (l : list fline) : list fentry :=
  match nth_error es i with Some (n, _) => upd i (n, l) es | None => es end.

(** what is printed: the name of a file, or a row with the text of a record and a line of source; [None] is the line
    feed that stands for a line shown before *)
Inductive piece :=
| PBlank
| PHead (file : cstr)
| PRow (out : cstr) (src : option (nat * Z * cstr)).

Definition show (out : cstr) (i : nat) (f : fline) : piece * fline :=
  if f_shown f =? 0 then (PRow out (Some (i, f_no f, f_text f)), mkF (f_no f) (f_text f) (f_shown f + 1))
  else (PRow out None, f).
(** sprintf(internal_buffer, "%-45s%s", ...) stays within the 2048 bytes of internal_buffer (pass.cc:48) *)
Definition fits (out : cstr) (p : piece) : bool :=
  match p with
  | PRow _ src => Z.max 45 (Z.of_nat (length out)) + Z.of_nat (length (match src with Some (_, _, t) => t | None => [10] end)) <? max_line_len
  | _ => true
  end.
(** genlist.cc:167-188: the lines after the first, up to [last] *)
Fixpoint show_rest (i : nat) (last : Z) (l : list fline) : list piece * list fline :=
  match l with
  | [] => ([], [])
  | f :: l =>
      if f_no f <=? last then
        let '(p, f') := show [] i f in
        let '(ps, l') := show_rest i last l in (p :: ps, f' :: l')
      else ([], f :: l)
  end.

(** genlist.cc:88-106: the lines before that of the first record; an access through a null pointer is [None] *)
Fixpoint before (n : nat) (line : Z) (r : lrec) (es : list fentry) : option (list piece * list fentry) :=
  match n with
  | O => Some ([], es)
  | S n =>
      let es := with_entry es (l_file r) in
      let i := find_entry es (l_file r) in
      let j := seek (lines_at es i) line in
      if l_dir r then before n (line + 1) r es
      else match nth_error (lines_at es i) j with
           | None => None
           | Some f =>
               let '(p, f') := show [] i f in
               if f_shown f =? 0 then
                 if fits [] p then
                   match before n (line + 1) r (set_lines es i (upd j f' (lines_at es i))) with
                   | Some (ps, es) => Some (p :: ps, es)
                   | None => None
                   end
                 else None
               else before n (line + 1) r es
           end
  end.

(** genlist.cc:130-136 *)
Definition end_line (r : lrec) (rs : list lrec) : Z :=
  match rs with
  | n :: _ => if (stricmp (l_file r) (l_file n) =? 0) && (l_line r <? l_line n) then l_line n - 1 else l_line r
  | [] => l_line r
  end.

(** genlist.cc:109-189: [cur] is current_file_name; the result is [None] when the buffer overflows *)
Fixpoint records (rs : list lrec) (cur : cstr) (state : Z) (es : list fentry) : option (list piece) :=
  match rs with
  | [] => Some []
  | r :: rs =>
      let head := if stricmp cur (l_file r) =? 0 then [] else [PHead (l_file r)] in
      let cur := l_file r in
      option_map (app head)
        (if negb (l_pstate r =? state) then records rs cur (l_pstate r) es
         else if l_dir r then records rs cur state es
         else if l_pstate r =? 0 then records rs cur state es
         else
           let last := end_line r rs in
           if last =? 0 then records rs cur state es
           else
             let es := with_entry es (l_file r) in
             let i := find_entry es (l_file r) in
             let l := lines_at es i in
             let j := seek l (l_line r) in
             match skipn j l with
             | [] => records rs cur state es
             | f :: l' =>
                 let '(p, f') := show (body_text (l_body r)) i f in
                 if fits (body_text (l_body r)) p then
                   let '(ps, l') := show_rest i last l' in
                   option_map (app (p :: ps)) (records rs cur state (set_lines es i (firstn j l ++ f' :: l')))
                 else None
             end)
  end.

(** genlist.cc:79-190 generate_list_file; list_head is not NULL after a pass over at least one file *)
Definition generate_list_file (rs : list lrec) : option (list piece) :=
  match rs with
  | [] => None
  | r :: _ =>
      match before (Z.to_nat (l_line r - 1)) 1 r [] with
      | None => None
      | Some (ps, es) => option_map (app (PBlank :: PHead (l_file r) :: ps)) (records rs (l_file r) 1 es)
      end
  end.
End Files.

(** "%-45s%s" *)
Definition piece_text (p : piece) : cstr :=
  match p with
  | PBlank => [10]
  | PHead f => cs "; Processing " ++ f ++ [10]
  | PRow out src => fill_to 45 out ++ (match src with Some (_, _, t) => t | None => [10] end)
  end.
(** the list file of a run: assemble passes the records of the final pass (pass.cc:276-289) *)
Definition list_file (rd : cstr -> option cstr) (s : state) : option cstr :=
  option_map (fun ps => concat (map piece_text ps)) (generate_list_file rd (rev (s_list s))).
