(** What the utility modules do exactly, where the behaviour one expects holds only in part, see properties.jsonl. *)
From Coq Require Import String Lia.
From Verif Require Import Base BaseProofs Hash HashProofs Dict DictProofs DictMore Stack StackProofs
  Str StrProofs Eol EolProofs MemTrack MemTrackProofs Err ErrProofs File FileProofs Opcodes OpcodesProofs OpcodesMore IfDef IfDefProofs FrontMore UtilExact
  Cpu CpuStep State Sym Machine Build Pass Prog Sem ExprProofs OpProofs InstrProofs InstrMore FarTwice ZpiProofs StrNode.
Open Scope string_scope.
Open Scope list_scope.
Open Scope Z_scope.

(** ** C04 *)
(** [ostep] keeps, for every key, the values inserted and not deleted, the latest first, and turns all of these lists round whenever
    an insertion makes the table nine tenths full. *)
Theorem C04_exact : forall (V : Type) (ops : list (dop (V:=V))) k, Forall (fun o => valids (dop_key o)) ops -> valids k ->
  dlookup (drun ops) k = hd_error (o_vals (fold_left ostep ops (mkO 1024 0 (fun _ => []))) (map tolower k)).
Proof. exact @dict_exact. Qed.
Print Assumptions C04_exact.
(** two records under one key, and 1000 others: the table has grown, and the first is found; the next insertion under the key is found again *)
Example C04_exact_example : let ops := [DInsert (cs "k") 1; DInsert (cs "K") 2] ++ map (fun n => DInsert (key3 n) n) (upto 1000) in
  let q := fold_left ostep ops (mkO 1024 0 (fun _ => [])) in
  o_size q = 2048 /\ o_count q = 1002 /\ o_vals q (cs "k") = [1; 2] /\ dlookup (drun ops) (cs "k") = Some 1 /\
  dlookup (drun (ops ++ [DInsert (cs "k") 3])) (cs "k") = Some 3.
Proof. vm_compute. repeat split; reflexivity. Qed.

(** ** C06 *)
Theorem C06_item_at : forall (A : Type) (ops : list (sop (A:=A))) out l, lrun ops [] = Some (out, l) ->
  exists s, srun ops create_stack = Some (out, s) /\
    (forall i x, nth_error (rev l) i = Some x -> item_at s (Z.of_nat i) = Some (Some x)) /\
    (forall i, item_at s i = None <-> (i < 0 \/ ssize s <= i)) /\ Z.of_nat (List.length l) <= ssize s.
Proof. exact @item_at_exact. Qed.
Print Assumptions C06_item_at.
Example C06_item_at_example : lrun [SPush 5; SPush 6; SPush 7; SPop] [] = Some ([7], [6; 5]) /\
  match srun [SPush 5; SPush 6; SPush 7; SPop] create_stack with
  | Some (_, s) => map (item_at s) [-1; 0; 1; 2; 25] = [None; Some (Some 5); Some (Some 6); Some (Some 7); None]
  | None => False
  end.
Proof. vm_compute. repeat split; reflexivity. Qed.

(** ** C07 *)
(** What each text decodes to: a character that is no backslash is itself; a backslash with a letter of the table (either
    case) or with a quote or backslash is one byte; \x is followed by pairs of hexadecimal digits, as many as there are,
    that are one byte each; any other escape is a question mark, and one error.  Nothing else is ever decoded. *)
Theorem C07_decodes : forall s o e, sanitize_string s = SOk o e <-> decoded s o e.
Proof. exact sanitize_decoded. Qed.
Print Assumptions C07_decodes.
Example C07_decodes_example : decoded [65; 92; 113; 92; 78; 92; 120; 52; 65; 102; 70; 53; 71; 92; 92] [65; 63; 10; 74; -1; 53; 71; 92] 1.
Proof. apply C07_decodes. vm_compute. reflexivity. Qed.

(** A quoted string of the source is what its text between the quotes decodes to, up to the first NUL; every unknown
    escape in it is reported once. *)
Theorem C07_quoted : forall q t o e u s, q = 34 \/ q = 39 -> decoded t o e -> ~ In 0 u -> (o = u \/ exists r, o = u ++ 0 :: r) ->
  exists s', string_node (q :: t ++ [q]) s = Ok (length (s_nodes s)) s' /\ s_nodes s' = s_nodes s ++ [mkNode (KStr u) []] /\
    s_errs s' = s_errs s + Z.of_nat e /\ s_msgs s' = repeat error_unrecognized_escape_sequence e ++ s_msgs s.
Proof. intros q t o e u s Q D N H. exact (string_built q t o e u s Q D (conj N H)). Qed.
Print Assumptions C07_quoted.
(** 'A\qB\x00C' is the text A?B, with one error *)
Example C07_quoted_example : forall s, exists s', string_node [39; 65; 92; 113; 66; 92; 120; 48; 48; 67; 39] s = Ok (length (s_nodes s)) s' /\
  s_nodes s' = s_nodes s ++ [mkNode (KStr [65; 63; 66]) []] /\ s_errs s' = s_errs s + 1.
Proof.
  intros s. destruct (C07_quoted 39 [65; 92; 113; 66; 92; 120; 48; 48; 67] [65; 63; 66; 0; 67] 1 [65; 63; 66] s) as (s' & A & B & C & _).
  - right. reflexivity.
  - apply C07_decodes. vm_compute. reflexivity.
  - cbn. lia.
  - right. exists [67]. reflexivity.
  - exists s'. auto.
Qed.

(** ** C08 *)
(** The decoder steps over the end of its string exactly for the texts that end in an odd number of backslashes, or in
    an odd number of backslashes and an x. *)
Theorem C08_exact : forall s, sanitize_string s = SUB <->
  exists p n t, s = p ++ repeat 92 n ++ t /\ Nat.Odd n /\ (forall q, p <> q ++ [92]) /\ (t = [] \/ t = [120] \/ t = [88]).
Proof. exact sanitize_overread_exact. Qed.
Print Assumptions C08_exact.
Example C08_exact_example : sanitize_string [65; 92; 92; 92] = SUB /\ sanitize_string [65; 92; 92] = SOk [65; 92] 0 /\
  sanitize_string [92; 92; 120] = SOk [92; 120] 0 /\ sanitize_string [92; 88] = SUB.
Proof. vm_compute. repeat split; reflexivity. Qed.

(** ** C10 *)
(** On the 65C02 two entries share a byte only if one is a documented instruction (below 98), the other an undocumented one of the NMOS
    processor, and the byte is one of 36: the columns 7 and F, $9C, $9E, $CB and $DB.  Each of the 36 is shared. *)
Theorem C10_65C02_exact : forall ill,
  (forall i m i' m', get_op_code true ill i m = get_op_code true ill i' m' -> get_op_code true ill i m <> -1 ->
     (i = i' /\ canon true i m = canon true i' m') \/
     ((i < 98 <= i' \/ i' < 98 <= i) /\ let b := get_op_code true ill i m in b mod 8 = 7 \/ In b [156; 158; 203; 219])) /\
  (forall b, 0 <= b < 256 -> b mod 8 = 7 \/ In b [156; 158; 203; 219] ->
     exists i m i' m', i < 98 <= i' /\ get_op_code true ill i m = b /\ get_op_code true ill i' m' = b).
Proof.
  assert (S : forall b, shared b = true <-> (b mod 8 = 7 \/ In b [156; 158; 203; 219])).
  { intros b. unfold shared. cbn [In]. lia. }
  intros ill. split.
  - intros i m i' m' E N. destruct (coll_exact ill i m i' m' E N) as [H|[H H1]]; [left; exact H|right]. split; [exact H|]. apply S, H1.
  - intros b R H. apply share_exact; [exact R|]. apply S, H.
Qed.
Print Assumptions C10_65C02_exact.
Example C10_example : get_op_code true false i_lda m_I = 169 /\ get_op_code false true i_lda m_I = 169 /\
  get_op_code true false i_slo m_zp = 7.
Proof. vm_compute. repeat split; reflexivity. Qed.

(** ** C11 *)
(** On the 65C02 the instructions with the zero page indirect mode, written [lda (e)], become three bytes where the processor takes two: the
    address of the operand is written as a word. *)
Theorem C11_three_bytes : forall b instr e v F s, 0 <= b < 256 -> decode65c02 b = Some (instr, m_zpi) -> s_c02 s = true -> ready s -> operand_value s e v ->
  (height e <= F)%nat -> (s_final s = true -> no_hole s) ->
  operand_bytes instr m_zpi = 1 /\
  exists p s1 s2, build_op (expand F) instr (FInd e) s = Ok (Some p) s1 /\ expand (S F) p s1 = Ok 0 s2 /\
    emits [b; byte v; byte (v / 256)] s s2 /\ s_errs s2 = s_errs s.
Proof. exact zpi_three. Qed.
Print Assumptions C11_three_bytes.
Example C11_three_example : decode65c02 178 = Some (i_lda, m_zpi) /\ ready at_end_c02 /\ operand_value at_end_c02 (EInt 18) 18 /\ no_hole at_end_c02 /\ s_c02 at_end_c02 = true.
Proof. split; [reflexivity|]. split; [exact at_end_c02_ready|]. split; [exact at_end_c02_value|]. split; [vm_compute; discriminate|reflexivity]. Qed.
Example C11_program : option_map (fun u => (u_code u, u_bytes u, u_errs u)) (run_c02 [".org $1000"; "lda ($12)"; "rts"]) = Some (0, [178; 18; 0; 96], 0).
Proof. vm_compute. reflexivity. Qed.

(** ** C34 *)
(** For all nestings: what reaches the parser is [effect false i] (UtilExact.v), and at the end of the source nothing is skipped or open. *)
Theorem C34_exact : forall i, lex_run (mkLst false []) (source i) = Some (mkLst false [], fst (effect false i)).
Proof. exact lex_exact. Qed.
Print Assumptions C34_exact.
(** It is the selected text unless some conditional inside another one ends in a skipped part. *)
Theorem C34_effect_selected : forall i, safe false i -> effect false i = (selected i, false).
Proof. exact effect_safe. Qed.
Print Assumptions C34_effect_selected.
(** .IFDEF yes / 1 / .IFDEF no / 2 / .ENDIF / 3 / .ELSE / 4 / .ENDIF / 5: the 3 is lost, and the 4 of the other branch comes in *)
Example C34_exact_example : let i := ICond true (ITxt 1 (ICond false (ITxt 2 INil) false INil (ITxt 3 INil))) true (ITxt 4 INil) (ITxt 5 INil) in
  selected i = [OText 1; OText 3; OText 5] /\ fst (effect false i) = [OText 1; OText 4; OText 5].
Proof. vm_compute. repeat split; reflexivity. Qed.

(** ** C37 *)
(** Nonempty lines, each ended in its own way: every end becomes one LF, but two where a CR LF comes after a line ended by a single CR. *)
Theorem C37_mixed : forall ls tail, Forall (fun l => line_ok (fst l) /\ fst l <> []) ls -> line_ok tail ->
  replace_eol (mixed ls ++ tail) = unmixed false ls ++ tail.
Proof. exact eol_mixed. Qed.
Print Assumptions C37_mixed.
Example C37_mixed_example :
  replace_eol (mixed [([65], KCrLf); ([66], KLf); ([67], KCr); ([68], KLf); ([69], KCr); ([70], KCrLf)] ++ [71]) = [65;10;66;10;67;10;68;10;69;10;70;10;10;71].
Proof. vm_compute. reflexivity. Qed.

(** ** C38 *)
(** [cl_run] is the client's own book: which blocks are live, with what size, and which of them have been moved by a realloc.  Addresses are not
    used twice.  The total of the tracker is the sum of the live blocks and of those lost by it: moved blocks that were freed, or
    reallocated again.  The free of a moved block is reported as an error, and no other. *)
Theorem C38_exact : forall os c, cl_run cl0 os = Some c ->
  exists m, mem_run mem0 os = Some m /\ m_total m = bsum (cl_blocks c) + cl_lost c /\ m_errors m = cl_errs c.
Proof. exact mem_exact. Qed.
Print Assumptions C38_exact.
Example C38_exact_example :
  option_map (fun c => (cl_blocks c, cl_lost c, cl_errs c)) (cl_run cl0 [MMalloc 10 100; MMalloc 5 200; MRealloc 100 30 300; MFree 300; MFree 200; MMalloc 7 400]) =
    Some ([(400, (7, false))], 30, 1) /\
  option_map m_total (mem_run mem0 [MMalloc 10 100; MMalloc 5 200; MRealloc 100 30 300; MFree 300; MFree 200; MMalloc 7 400]) = Some 37.
Proof. vm_compute. repeat split; reflexivity. Qed.

(** A block that is freed a second time, after anything else that does not concern its address, is reported as an error and the total stays. *)
Theorem C38_free_twice : forall m p os m', mem_run m (MFree p :: os) = Some m' -> Forall (fun o => ~ touches p o) os ->
  exists m2, mem_step m' (MFree p) = Some m2 /\ m_total m2 = m_total m' /\ m_errors m2 = m_errors m' + 1.
Proof. exact free_twice. Qed.
Print Assumptions C38_free_twice.
Example C38_free_twice_example : let os := [MMalloc 10 100; MMalloc 5 200; MFree 100; MRealloc 200 8 200; MFree 200] in
  option_map (fun m => (m_total m, m_errors m)) (mem_run mem0 os) = Some (0, 0) /\
  option_map (fun m => (m_total m, m_errors m)) (mem_run mem0 (os ++ [MFree 100])) = Some (0, 1).
Proof. vm_compute. split; reflexivity. Qed.

(** ** C39 *)
(** Every error counts once, but an error2 whose message and parameter do not fit the buffer counts twice. *)
Theorem C39_exact : forall os e, Forall (fun o => 0 < opnum o < 49) os ->
  exists e', err_run e os = Some e' /\ err_count e' = err_count e + esum (map ecount os) /\
    warn_count e' = warn_count e + Z.of_nat (List.length (filter (fun o => negb (is_err o)) os)).
Proof. exact err_run_exact. Qed.
Print Assumptions C39_exact.
(** And what is printed, in the order of the reports: the message with its parameter behind it; only if these do not fit, the message alone and another text. *)
Theorem C39_prints : forall os e e', err_run e os = Some e' -> exists ls, e_out e' = e_out e ++ concat ls /\
  Forall2 (fun o l => let fits := l = [match o with EError n | EWarn n => msg n | EError2 n p => msg n ++ 32 :: p end] in
    match o with
    | EError2 n p => if Z.of_nat (List.length (msg n)) + Z.of_nat (List.length p) + 2 <? 2048 then fits else exists b, l = [msg n; b]
    | _ => fits
    end) os ls.
Proof.
  intros os e e' E. destruct (err_run_prints os e e' E) as (ls & F & O). exists ls. split; [exact O|].
  clear E O. induction F as [|o l os ls P F IH]; constructor; [|exact IH]. unfold printed in P. destruct o as [n|n|n p]; cbn [long report opnum] in *; try exact P.
  destruct (Z.ltb_spec (Z.of_nat (List.length (msg n)) + Z.of_nat (List.length p) + 2) 2048) as [H|H]; cbv zeta.
  - replace (2048 <=? _) with false in P by lia. exact P.
  - replace (2048 <=? _) with true in P by lia. exact P.
Qed.
Print Assumptions C39_prints.
Example C39_prints_example : exists e', err_run (mkErr 0 0 [] []) [EError error_divide_by_zero; EError2 error_cant_open_include_file (cs "x.a")] = Some e' /\
  e_out e' = [cs "Divide by zero."; cs "Can't open include file x.a"].
Proof. eexists. split; reflexivity. Qed.
Example C39_exact_example : map ecount [EError 3; EWarn 4; EError2 5 (cs "x"); EError2 5 (repeat 65 2048)] = [1; 0; 1; 2].
Proof. vm_compute. reflexivity. Qed.

(** ** C51 *)
(** If the insertion makes the table grow, every record found afterwards is a copy at an address not in use before. *)
Theorem C51_growth_moves : forall (V : Type) (s : @dict * heap (V:=V)) o k b, WF (fst s) (snd s) -> valids k -> valids (dop_key o) ->
  grows s o = true -> dict_search (fst (dstep s o)) k = Some b ->
  (List.length (snd s) < b)%nat /\ nth_error (snd (dstep s o)) b = hd None (records (dstep s o) k).
Proof. exact @handle_moves. Qed.
Print Assumptions C51_growth_moves.
Example C51_growth_example : let ops := map (fun n => DInsert (key3 n) n) (upto 920) in
  grows (drun ops) (DInsert (cs "zz") 5) = true /\ List.length (snd (drun ops)) = 920%nat /\
  dict_search (fst (drun ops)) (key3 7) = Some 7%nat /\
  match dict_search (fst (drun (ops ++ [DInsert (cs "zz") 5]))) (key3 7) with Some b => (920 <? b)%nat = true | None => False end.
Proof. vm_compute. repeat split; reflexivity. Qed.

(** ** C52 *)
(** Every line with its LF is cut in pieces of at most 2047 characters; the pieces are numbered 1, 2, 3, ... *)
Theorem C52_exact : forall ls, Forall (fun l => Forall (fun x => x <> 10) l) ls ->
  read_file_lines (concat (map nl ls)) = number 1 (concat (map (fun l => cut (nl l)) ls)).
Proof. exact read_file_exact. Qed.
Print Assumptions C52_exact.
Example C52_exact_example : let ls := [cs "a"; repeat 66 5000; cs "c"] in
  map (fun x => (fst x, List.length (snd x))) (read_file_lines (concat (map nl ls))) = [(1, 2%nat); (2, 2047%nat); (3, 2047%nat); (4, 907%nat); (5, 2%nat)].
Proof. vm_compute. reflexivity. Qed.
