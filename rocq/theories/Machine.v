(** Model of CMakePasm/source/expand.cc, genoutput.cc and of the parts of node.cc that run during expansion.

    Every function that calls expand_node takes it as the argument [ex]; [expand] at the end ties the knot with
    fuel.  C++ leaves the order of evaluation of the two operands of + etc. open; the model goes left to right.
    The dispatch tables (expand.cc:213-277, dictionaries with pointer keys) are a [match] here. *)
From Coq Require Import String.
From Verif Require Import Base Hash Dict Str Opcodes Err State Sym.
Open Scope string_scope.
Open Scope list_scope.
Open Scope Z_scope.
Open Scope m_scope.

(** nth operand; a missing one would be a read through a NULL op array *)
Definition opn (x : node) (i : nat) : M nat :=
  match nth_error (n_ops x) i with Some n => ret n | None => ub UbNull end.

(** ** genoutput.cc: writing *)

(** genoutput.cc:49-59; fwrite never fails.  total_bytes_written is updated by the callers in the code. *)
Definition emit (b : Z) : M unit :=
  modify (fun s => set_out (b mod 256 :: s_out s) (set_total (s_total s + 1) s)).
(** genoutput.cc:61-72 *)
Definition emit_word (w : Z) : M unit := emit w ;;; emit (w / 256).
Fixpoint emit_list (l : list Z) : M unit :=
  match l with [] => ret tt | b :: l => emit b ;;; emit_list l end.

(** genoutput.cc:87-108 write_header.  origin_specified holds here (generate_output tests it first). *)
Definition write_header : M unit :=
  modify (set_delta 0) ;;;
  os <- gets s_org_spec ;;
  when (negb os) (modify (fun s => set_origin (s_pc s) s)) ;;;
  c64 <- gets s_c64 ;;
  when c64 (o <- gets s_origin ;; emit_word o ;;; modify (set_delta 2)).

(** genoutput.cc:314-352 get_op_code_byte_count and expand.cc:757-792 get_op_byte_count *)
Definition mode_bytes (m : Z) : M Z :=
  if (m =? m_A) || (m =? m_i) then ret 0
  else if (m =? m_I) || (m =? m_r) || (m =? m_zp) || (m =? m_zpi) || (m =? m_zpx) || (m =? m_zpy)
          || (m =? m_izx) || (m =? m_izy) then ret 1
  else if (m =? m_a) || (m =? m_ax) || (m =? m_ay) || (m =? m_aix) || (m =? m_ind) then ret 2
  else err error_invalid_opcode_or_mode ;;; ret 0.

(** genoutput.cc:38-47 write_data with data_size 1 or 2 *)
Definition write_data (v : Z) : M unit :=
  d <- gets s_dsz ;;
  if d =? 1 then emit v else emit_word v.

Section Rec.
Variable ex : nat -> M Z.        (* expand_node on a non-NULL node *)

(** genoutput.cc:124-144 write_string_node *)
Definition write_string_node (str : cstr) : M unit :=
  emit_list str ;;;
  d <- gets s_dsz ;;
  when ((d =? 2) && (Z.of_nat (length str) mod 2 =? 1)) (emit 0).

(** genoutput.cc:146-200 write_data_node *)
Definition write_data_node (p : nat) : M unit :=
  op <- ex p ;;
  d <- gets s_dsz ;;
  if over op 65535 && (op <? 0) then
    if negb (d =? 1) then
      if 65534 <? - op then err error_value_out_of_range else emit_word op
    else
      if 254 <? - op then err error_value_out_of_range else emit op
  else if ((d =? 1) && over op 255) || over op 65535 then err error_value_out_of_range
  else if (d =? 1) || ((d =? 0) && negb (over op 255)) then emit op
  else emit_word op.

(** genoutput.cc:202-246 write_opcode_node *)
Definition write_opcode_node (x : node) (opcode mode npc : Z) : M unit :=
  bytes <- mode_bytes mode ;;
  emit opcode ;;;
  if 0 <? bytes then
    n0 <- opn x 0 ;;
    op <- ex n0 ;;
    if mode =? m_r then
      let op := op - (npc + 2) in
      if (128 <? op) || (op <? -127) then err error_value_out_of_range
      else modify (set_dsz bytes) ;;; write_data (Z.land op 255)
    else modify (set_dsz bytes) ;;; write_data op
  else ret tt.

(** genoutput.cc:258-307 generate_output on a node; the result is the number of bytes written *)
Definition generate_output (p : nat) : M Z :=
  o <- gets s_opened ;; os <- gets s_org_spec ;;
  if negb o || negb os then ret 0
  else
    start <- gets s_total ;;
    when (start =? 0) write_header ;;;
    d <- gets (fun s => s_pc s - (s_origin s + s_total s)) ;;
    if 0 <? d then err error_value_out_of_range ;;; exit_ (-1)
    else
      x <- node_get p ;;
      match n_kind x with
      | KStr v => write_string_node v
      | KOp _ opc mode npc => write_opcode_node x opc mode npc
      | _ => write_data_node p
      end ;;;
      t <- gets s_total ;; ret (t - start).

(** ** node.cc: listing *)
(** genlist.cc:213-260 add_list *)
Definition add_list (dir : bool) (b : lbody) : M unit :=
  modify (fun s => set_list (mkLrec (s_file s) (s_line s) (s_pstate s) dir b :: s_list s) s).

(** node.cc:1562-1667: a string is listed in groups of three.  The NUL that pads an odd .WORD string belongs to the
    last group; after a full group the buffer and [string_start] still are those of that group ([prev]). *)
Fixpoint list_groups (fuel : nat) (pc : Z) (v : cstr) (prev : option (Z * cstr)) (pad : bool) : M unit :=
  match fuel with
  | O => ret tt
  | S f =>
      match v with
      | a :: b :: c :: v' =>
          add_list false (LStr (Z.land pc 65535) [a; b; c]) ;;;
          list_groups f (pc + 3) v' (Some (Z.land pc 65535, [a; b; c])) pad
      | [] => if pad then match prev with Some (pc', g) => add_list false (LPad pc' g) | None => ret tt end else ret tt
      | _ => add_list false (LTail (Z.land pc 65535) v pad)
      end
  end.

(** node.cc:1517-1864 generate_list_node on a node other than NULL *)
Definition generate_list_node (p : nat) : M unit :=
  x <- node_get p ;;
  pc <- gets s_pc ;;
  match n_kind x with
  | KPrint st =>
      cur <- gets s_pstate ;;
      if st =? cur then ret tt
      else modify (set_pstate 0) ;;; add_list true LNone ;;; modify (set_pstate st)
  | KStr v =>
      d <- gets s_dsz ;;
      list_groups (S (length v)) pc v None ((d =? 2) && (Z.of_nat (length v) mod 2 =? 1))
  | KOp instr opc mode npc =>
      bytes <- mode_bytes mode ;;
      if 0 <? bytes then
        n0 <- opn x 0 ;;
        op <- ex n0 ;;
        let rel := op - (npc + 2) in
        if (mode =? m_r) && ((128 <? rel) || (rel <? -127)) then ret tt
        else
          let v := if mode =? m_r then Z.land rel 255 else op in
          op2 <- ex n0 ;;
          match n_ops x with _ :: n1 :: _ => _ <- ex n1 ;; ret tt | _ => ret tt end ;;;
          add_list false (LOp (Z.land npc 65535) opc instr mode
                              (if bytes =? 1 then [v mod 256] else [v mod 256; v / 256 mod 256]) op2)
      else add_list false (LOp (Z.land npc 65535) opc instr mode [] 0)
  | _ =>
      op <- ex p ;;
      d <- gets s_dsz ;;
      let lo := Z.land op 255 in
      let hi := if (op <? 0) && (d =? 1) then 0 else Z.land op 65280 / 256 in
      if negb (hi =? 0) && (d <? 2) then
        (* node.cc:1695-1700: the buffer is freed, then printed *)
        modify (fun s => set_soft (1 :: s_soft s) s)
      else add_list false (LData (Z.land pc 65535) (if 1 <? d then [lo; hi] else [lo]))
  end.
(** generate_list_node(NULL) *)
Definition list_null : M unit := add_list false LNone.

(** output and listing of a node in the final pass *)
Definition list_and_output (p : nat) : M unit := generate_list_node p ;;; _ <- generate_output p ;; ret tt.

(** ** Initialised symbols *)
(** expand.cc:1989-2002 is_uninitialized_symbol *)
Definition is_uninit (p : nat) : M bool :=
  x <- node_get p ;;
  match n_kind x with
  | KId _ i | KLabel _ i =>
      match i with
      | None => ret true
      | Some a => y <- sym_get a ;; ret (if y_mparam y || y_mname y then false else negb (y_init y))
      end
  | _ => ret false
  end.
(** expand.cc:2008-2017 has_uninitialized_symbol; the depth of a tree is at most the number of nodes *)
Fixpoint has_uninit (fuel : nat) (p : nat) : M bool :=
  match fuel with
  | O => nofuel
  | S f =>
      x <- node_get p ;;
      (fix go (l : list nat) : M bool :=
         match l with
         | [] => ret false
         | q :: l => b <- has_uninit f q ;; if b then ret true
                     else c <- is_uninit q ;; if c then ret true else go l
         end) (n_ops x)
  end.
Definition has_uninitialized (p : nat) : M bool := n <- gets (fun s => length (s_nodes s)) ;; has_uninit (S n) p.

(** ** node.cc: building nodes during expansion *)
(** node.cc:98-115 constant_node(value, false) *)
Definition constant_node (v : Z) : M nat := alloc (KCon v false) [].
(** constant_node(program_counter, true) *)
Definition pc_node : M nat := pc <- gets s_pc ;; alloc (KCon pc true) [].

(** node.cc:361-412: the zero page form of a mode *)
Definition short_mode (m : Z) : Z :=
  if m =? m_a then m_zp else if m =? m_aix then m_izx else if m =? m_ax then m_zpx
  else if m =? m_ay then m_zpy else if m =? m_ind then m_zpi else m.

Fixpoint expand_all (l : list nat) (last : Z) : M Z :=
  match l with [] => ret last | n :: l => v <- ex n ;; expand_all l v end.

Definition is_id_A (n : nat) : M bool :=
  x <- node_get n ;;
  match n_kind x with KId name _ => ret (stricmp name (cs "A") =? 0) | _ => ret false end.

(** node.cc:321-439 opcode_node *)
Definition opcode_node (op mode0 : Z) (ops : list nat) : M nat :=
  cr <- op_code op m_r ;;
  let mode := if cr =? -1 then mode0 else m_r in
  p <- alloc (KOp op 0 mode 0) ops ;;
  val <- expand_all ops 0 ;;
  hu <- has_uninitialized p ;;
  acc <- match ops with n :: _ => if mode =? m_a then is_id_A n else ret false | [] => ret false end ;;
  let mode1 := if acc then m_A else mode in
  let ops1 := if acc then removelast ops else ops in
  code <- op_code op mode1 ;;
  let short := if (negb (over val 255) && negb hu) || (code =? -1) then short_mode mode1 else mode1 in
  c2 <- op_code op short ;;
  let use := negb (short =? mode1) && negb (c2 =? -1) in
  let mode2 := if use then short else mode1 in
  let code2 := if use then c2 else code in
  node_set p (mkNode (KOp op code2 mode2 0) ops1) ;;;
  _ <- expand_all ops 0 ;;
  when (code2 <? 0) (err error_invalid_opcode_or_mode) ;;;
  ret p.

(** ** expand.cc, in source order *)

(** 325-335 *)
Definition x_constant (p : nat) (x : node) (v : Z) (ispc : bool) : M Z :=
  if ispc then pc <- gets s_pc ;; node_set p (mkNode (KCon pc true) (n_ops x)) ;;; ret pc else ret v.

(** file.cc:185-216 open_include_file.  The file is looked up by the name written (the search path is modelled
    in File.v); its statements go on top of the input. *)
Definition open_include_file (file : cstr) : M unit :=
  f <- gets s_final ;;
  when f list_null ;;;
  modify (fun s => set_fstack ((s_file s, s_line s) :: s_fstack s) s) ;;;
  modify (set_file file) ;;;
  modify (set_line 0) ;;;
  when f list_null ;;;
  c <- gets s_cfg ;;
  match g_files c file with
  | None => err error_cant_open_include_file ;;; exit_ (-1)
  | Some l => modify (fun s => set_input (l :: s_input s) s)
  end.

Definition str_of (n : nat) : M cstr :=
  x <- node_get n ;; match n_kind x with KStr v => ret v | _ => ub UbNull end.

(** 340-346 *)
Definition x_include (x : node) : M Z :=
  n <- opn x 0 ;; f <- str_of n ;; open_include_file f ;;; ret 1.

(** 351-411: [fill_loop] is the while loop; the two data nodes are created once *)
Fixpoint fill_loop (fuel : nat) (byt count : Z) (n1 n2 : option nat) : M unit :=
  match fuel with
  | O => nofuel
  | S f =>
      if count <=? 0 then ret tt
      else if 1 <? count then
        modify (set_dsz 2) ;;;
        n <- match n2 with Some n => ret n | None => c <- constant_node (byt * 256 + byt) ;; alloc (KData 2 c) [] end ;;
        b <- generate_output n ;;
        let b := if b =? 0 then 2 else b in
        generate_list_node n ;;;
        modify (fun s => set_pc (s_pc s + b) s) ;;;
        fill_loop f byt (count - b) n1 (Some n)
      else
        modify (set_dsz 1) ;;;
        n <- match n1 with Some n => ret n | None => c <- constant_node byt ;; alloc (KData 1 c) [] end ;;
        b <- generate_output n ;;
        let b := if b =? 0 then 1 else b in
        generate_list_node n ;;;
        modify (fun s => set_pc (s_pc s + b) s) ;;;
        fill_loop f byt (count - b) (Some n) n2
  end.
Definition x_fill (x : node) : M Z :=
  n0 <- opn x 0 ;; byt <- ex n0 ;;
  n1 <- opn x 1 ;; count <- ex n1 ;;
  if (byt <? 0) || (255 <? byt) then err error_value_out_of_range ;;; exit_ (-1)
  else if count <? 0 then err error_value_out_of_range ;;; exit_ (-1)
  else
    f <- gets s_final ;;
    (if f then modify (set_dsz 0) ;;; fill_loop (S (Z.to_nat count)) byt count None None
     else modify (fun s => set_pc (s_pc s + (if 0 <? count then count else 1)) s)) ;;;
    ret byt.

(** 416-458.  A missing file is reported and then passed to fseek. *)
Fixpoint load_loop (l : list Z) : M unit :=
  match l with
  | [] => ret tt
  | [a] =>
      modify (set_dsz 1) ;;;
      c <- constant_node a ;; e <- alloc (KOpr OExprList) [c] ;; d <- alloc (KData 1 e) [] ;;
      _ <- ex d ;; ret tt
  | a :: b :: l' =>
      modify (set_dsz 2) ;;;
      c <- constant_node (a + b * 256) ;; e <- alloc (KOpr OExprList) [c] ;; d <- alloc (KData 2 e) [] ;;
      _ <- ex d ;; load_loop l'
  end.
Definition x_load (x : node) : M Z :=
  n <- opn x 0 ;; file <- str_of n ;;
  c <- gets s_cfg ;;
  match g_bins c file with
  | None => err error_cant_open_include_file ;;; ub UbNull
  | Some l => load_loop l ;;; ret 1
  end.

(** 463-473 *)
Definition x_variable (x : node) : M Z :=
  n <- opn x 0 ;; modify (set_ety EtSymbol) ;;; ex n.

(** 312-322 is_plus_minus_symbol_name_valid *)
Definition pm_valid (name : cstr) : bool :=
  ((hd0 name =? 43) || (hd0 name =? 45)) && forallb (fun c => c =? hd0 name) name.

Definition is_pm_name (name : cstr) : bool := (hd0 name =? 45) || (hd0 name =? 43).

(** 475-501.  A plus index past the table reads memory realloc left uninitialised. *)
Definition x_plus_minus (p : nat) (x : node) (mk : option nat -> nkind) (name : cstr) (i : option nat) : M Z :=
  if negb (pm_valid name) then err error_adding_symbol ;;; ret 0
  else
    let minus := hd0 name =? 45 in
    t <- gets (pm_table minus) ;; file <- gets s_file ;; line <- gets s_line ;;
    let depth := Z.of_nat (length name) in
    let index := if minus then find_minus t depth file line else find_plus t depth file line in
    r <- match i with Some a => ret (Some a) | None => add_symbol name end ;;
    match r with
    | None => ub UbNull
    | Some a =>
        y <- sym_get a ;;
        (if 0 <=? index then
           match nth_error t (Z.to_nat index) with
           | None => ub UbIndex
           | Some e => sym_set a (y_times_inc (y_set_init true (y_set_value (pm_value e) (y_set_pm true y))))
           end
         else sym_set a (y_set_pm true y)) ;;;
        node_set p (mkNode (mk (Some a)) (n_ops x)) ;;;
        y <- sym_get a ;; ret (y_value y)
    end.

(** 506-528; also called on type_macro_id nodes *)
Definition x_id (p : nat) (x : node) (mk : option nat -> nkind) (name : cstr) (i : option nat) : M Z :=
  if is_pm_name name then x_plus_minus p x mk name i
  else
    i1 <- (if hd0 name =? 64 then a <- add_symbol name ;; node_set p (mkNode (mk a) (n_ops x)) ;;; ret a else ret i) ;;
    i2 <- match i1 with
          | Some a => ret (Some a)
          | None => a <- add_symbol name ;; node_set p (mkNode (mk a) (n_ops x)) ;;; ret a
          end ;;
    match i2 with
    | None => ret 0
    | Some a => y <- sym_get a ;; ret (if y_init y then y_value y else 0)
    end.

(** 533-553; label nodes have no operands *)
Definition x_label (p : nat) (x : node) (name : cstr) (i : option nat) : M Z :=
  if is_pm_name name then x_plus_minus p x (KLabel name) name i
  else
    r <- match i with
         | Some a => ret (Some a)
         | None => a <- add_symbol name ;; node_set p (mkNode (KLabel name a) (n_ops x)) ;;; ret a
         end ;;
    match r with
    | None => err error_out_of_memory ;;; exit_ (-1)
    | Some a => y <- sym_get a ;; ret (if y_init y then y_value y else 0)
    end.

(** 558-678 *)
Definition x_for_reg (x : node) (isx : bool) : M Z :=
  cnt <- gets (if isx then s_forx else s_fory) ;;
  let setc := if isx then set_forx else set_fory in
  let getc := if isx then s_forx else s_fory in
  if 0 <? cnt then err error_for_reg_cant_be_nested ;;; ret 0
  else
    n0 <- opn x 0 ;; start <- ex n0 ;;
    if (start <? 0) || (255 <? start) then err error_value_out_of_range ;;; ret 0
    else
      n1 <- opn x 1 ;; end_ <- ex n1 ;;
      if (end_ <? 0) || (255 <? end_) then err error_value_out_of_range ;;; ret 0
      else
        n3 <- opn x 3 ;; flag <- ex n3 ;;
        if ((0 <? flag) && (end_ <? start)) || ((flag <? 0) && (start <? end_)) then ret 0
        else
          modify (fun s => setc (getc s + 1) s) ;;;
          c1 <- gets getc ;;
          when (negb (c1 =? 1)) (err error_value_out_of_range) ;;;
          k0 <- constant_node start ;;
          init <- opcode_node (if isx then i_ldx else i_ldy) m_I [k0] ;;
          _ <- ex init ;;
          loop_pc <- gets s_pc ;;
          n2 <- opn x 2 ;; _ <- ex n2 ;;
          let finish :=
            modify (fun s => setc (getc s - 1) s) ;;;
            c2 <- gets getc ;;
            when (negb (c2 =? 0)) (err error_value_out_of_range) ;;;
            ret 0 in
          if start =? end_ then finish
          else
            nx <- opcode_node (if 0 <? flag then (if isx then i_inx else i_iny) else (if isx then i_dex else i_dey)) m_i [] ;;
            _ <- ex nx ;;
            (if end_ =? 0 then ret tt
             else
               k <- constant_node (if (0 <? flag) && (end_ <? 255) then end_ + 1 else end_) ;;
               c <- opcode_node (if isx then i_cpx else i_cpy) m_I [k] ;;
               _ <- ex c ;; ret tt) ;;;
            (if 0 <? flag then
               k <- constant_node loop_pc ;;
               b <- opcode_node (if end_ <? 255 then i_bcc else i_bne) m_r [k] ;;
               _ <- ex b ;; ret tt
             else if flag <? 0 then
               k <- constant_node loop_pc ;;
               b <- opcode_node i_bcs m_r [k] ;;
               _ <- ex b ;; ret tt
             else ret tt) ;;;
            finish.

(** 683-696 *)
Definition x_data (size : Z) (data : nat) : M Z :=
  modify (set_org_spec true) ;;;
  modify (set_ety (if size =? 0 then EtStrings else EtBytes)) ;;;
  modify (set_dsz size) ;;;
  ex data.

Definition name_of (n : nat) : M cstr :=
  x <- node_get n ;;
  match n_kind x with KId name _ | KLabel name _ | KMacId name _ => ret name | _ => ub UbNull end.

(** 701-730 *)
Definition x_section (x : node) : M Z :=
  n <- opn x 0 ;; name <- name_of n ;;
  modify (fun s => set_scope (Some (under (s_scope s) name)) s) ;;; ret 0.

(** 736-755: cut the scope at its last '.' *)
Definition x_end_section : M Z :=
  sc <- gets s_scope ;;
  match sc with
  | None => err error_end_section_without_section ;;; ret 0
  | Some c => modify (set_scope (match split_last c with Some (a, _) => Some a | None => None end)) ;;; ret 0
  end.

(** 800-1017 expand_op_code_node.
    812-858: number of operand bytes assumed, and the mode tried instead *)
Definition op_bytes_of (m : Z) : Z :=
  if (m =? m_A) || (m =? m_i) then 0
  else if (m =? m_I) || (m =? m_zp) || (m =? m_zpi) || (m =? m_zpx) || (m =? m_zpy) || (m =? m_izx) || (m =? m_izy) then 1
  else if (m =? m_r) || (m =? m_a) || (m =? m_aix) || (m =? m_ax) || (m =? m_ay) || (m =? m_ind) then 2
  else 0.
(** 893-913 *)
Definition long_mode (m : Z) : option Z :=
  if m =? m_zp then Some m_a else if m =? m_zpi then Some m_ind else if m =? m_zpx then Some m_ax
  else if m =? m_zpy then Some m_ay else None.
(** 936-961 *)
Definition invert (i : Z) : Z :=
  if i =? i_bcs then i_bcc else if i =? i_bcc then i_bcs else if i =? i_bne then i_beq else if i =? i_beq then i_bne
  else if i =? i_bmi then i_bpl else if i =? i_bpl then i_bmi else i.

(** result of looking at the operands: the node as changed so far, or the far branch was done *)
Inductive opres := OpDone | OpGo (mode_check : Z) (large : bool).

Definition set_op (p : nat) (f : Z -> Z -> Z -> Z -> nkind) : M unit :=
  x <- node_get p ;;
  match n_kind x with
  | KOp i o m c => node_set p (mkNode (f i o m c) (n_ops x))
  | _ => ub UbNull
  end.
Definition op_info (p : nat) : M (Z * Z * Z * Z * list nat) :=
  x <- node_get p ;;
  match n_kind x with
  | KOp i o m c => ret (i, o, m, c, n_ops x)
  | _ => ub UbNull
  end.

(** 932-999: the branch is out of range: inverted branch over a jmp.  Returns false when the inverted
    instruction has no relative mode. *)
Definition far_branch (p : nat) (index : nat) (save_mode save_opcode : Z) : M bool :=
  set_op p (fun i o m c => KOp (invert i) o m c) ;;;
  inf <- op_info p ;;
  let '(i, _, _, _, ops) := inf in
  code2 <- op_code i m_r ;;
  if code2 =? -1 then ret false
  else
    target <- match nth_error ops index with Some t => ret t | None => ub UbNull end ;;
    jmp <- opcode_node i_jmp m_a [target] ;;
    set_op p (fun i _ m c => KOp i code2 m c) ;;;
    f <- gets s_final ;;
    when f (pc <- gets s_pc ;;
            k <- constant_node (pc + 5) ;;
            x <- node_get p ;;
            node_set p (mkNode (n_kind x) (upd index k (n_ops x))) ;;;
            list_and_output p) ;;;
    inf <- op_info p ;; let '(_, _, m, _, _) := inf in
    b <- mode_bytes m ;;
    modify (fun s => set_pc (s_pc s + b + 1) s) ;;;
    when f (pc <- gets s_pc ;;
            set_op jmp (fun i o m _ => KOp i o m pc) ;;;
            list_and_output jmp ;;;
            warn_ error_branch_out_of_range) ;;;
    inf <- op_info jmp ;; let '(_, _, mj, _, _) := inf in
    b <- mode_bytes mj ;;
    modify (fun s => set_pc (s_pc s + b + 1) s) ;;;
    set_op p (fun i _ _ c => KOp i save_opcode save_mode c) ;;;
    ret true.

(** 861-1001: the loop over the operands *)
Fixpoint op_loop (k : nat) (p : nat) (index : nat) (op_bytes : Z) (mode_check : Z) (large oor : bool)
    (save_mode save_opcode : Z) : M opres :=
  match k with
  | O => ret (OpGo mode_check large)
  | S k =>
      inf <- op_info p ;;
      let '(instr, opc, mode, npc, ops) := inf in
      pp <- match nth_error ops index with Some t => ret t | None => ub UbNull end ;;
      v0 <- ex pp ;;
      xp <- node_get pp ;;
      pc <- gets s_pc ;;
      let ch := match n_kind xp with KId name _ => hd0 name | _ => 0 end in
      let v := if (v0 =? 0) && (mode =? m_r) && Nat.eqb (length ops) 1 &&
                  ((ch =? 64) || (ch =? 45) || (ch =? 43)) then pc else v0 in
      let large := large || over v 255 in
      let oor := oor || (over v 65535 || ((op_bytes <? 2) && large)) in
      if oor && (op_bytes <? 2) && negb (over v 65535) then
        mc <- match long_mode mode with
              | Some m => ret m
              | None => err error_value_out_of_range ;;; ret mode_check
              end ;;
        code2 <- op_code instr mc ;;
        (if code2 =? -1 then err error_value_out_of_range
         else set_op p (fun i _ _ c => KOp i code2 mc c)) ;;;
        ret (OpGo mc large)
      else if (mode =? m_r) && Nat.eqb (length ops) 1 then
        let d := v - (npc + 2) in
        if (128 <? d) || (d <? -127) then
          done <- far_branch p index save_mode save_opcode ;;
          if done then ret OpDone
          else op_loop k p (S index) op_bytes mode_check large oor save_mode save_opcode
        else op_loop k p (S index) op_bytes mode_check large oor save_mode save_opcode
      else op_loop k p (S index) op_bytes mode_check large oor save_mode save_opcode
  end.

Definition x_op_code (p : nat) : M Z :=
  inf <- op_info p ;;
  let '(_, save_opcode, save_mode, _, ops) := inf in
  pa <- gets s_pc_assigned ;;
  when (0 <? pa) (modify (set_org_spec true)) ;;;
  pc <- gets s_pc ;;
  set_op p (fun i o m _ => KOp i o m pc) ;;;
  let op_bytes := op_bytes_of save_mode in
  let mode_check := if save_mode =? m_r then m_r else short_mode save_mode in
  hu <- (if 0 <? op_bytes then has_uninitialized p else ret true) ;;
  r <- (if hu then ret (OpGo (-1) true)
        else op_loop (length ops) p 0 op_bytes mode_check false false save_mode save_opcode) ;;
  match r with
  | OpDone => ret 0
  | OpGo mc large =>
      inf <- op_info p ;;
      let '(instr, _, mode, _, _) := inf in
      (if negb hu && negb large && negb (mode =? mc) then
         code2 <- op_code instr mc ;;
         if code2 =? -1 then ret tt else set_op p (fun i _ _ c => KOp i code2 mc c)
       else ret tt) ;;;
      f <- gets s_final ;;
      when f (list_and_output p) ;;;
      inf <- op_info p ;;
      let '(_, _, mode, _, _) := inf in
      b <- mode_bytes mode ;;
      modify (fun s => set_pc (s_pc s + b + 1) s) ;;;
      b <- mode_bytes mode ;;
      modify (fun s => set_code_gen (s_code_gen s + b + 1) s) ;;;
      set_op p (fun i _ _ c => KOp i save_opcode save_mode c) ;;;
      ret 0
  end.

(** 1019-1029 *)
Definition x_print_state (p : nat) (st : Z) : M Z :=
  f <- gets s_final ;;
  when f (generate_list_node p ;;; when (negb (st =? 0)) list_null) ;;;
  ret 1.

(** 1034-1073, 1756-1928: operators on values *)
Definition b2z (b : bool) : Z := if b then 1 else 0.
(** shifts: a count outside 0..31 is undefined; a left shift wraps (as compilers do; C++17 leaves it open) *)
Definition un_op (o : opr) (v : Z) : M Z :=
  match o with
  | ONot => ret (b2z (v =? 0))
  | OLo => ret (Z.land (Z.land v 65535) 255)
  | OHi => ret (Z.land (Z.land v 65535) 65280 / 256)
  | OUminus => ck (- v)
  | OCompl => ret (Z.land (Z.lnot v) (if over v 255 then 65535 else 255))
  | _ => err error_unknown_operator_type ;;; ret 0
  end.
Definition bin_op (o : opr) (a b : Z) : M Z :=
  match o with
  | OShl => if (0 <=? b) && (b <? 32) then ret (i32 (a * 2 ^ b)) else ub UbArith
  | OShr => if (0 <=? b) && (b <? 32) then ret (a / 2 ^ b) else ub UbArith
  | OPlus => ck (a + b) | OMinus => ck (a - b) | OMul => ck (a * b)
  | OBitOr => ret (Z.lor a b) | OBitAnd => ret (Z.land a b) | OXor => ret (Z.lxor a b)
  | OLt => ret (b2z (a <? b)) | OGt => ret (b2z (b <? a))
  | OEq => ret (b2z (a =? b)) | ONe => ret (b2z (negb (a =? b)))
  | OGe => ret (b2z (b <=? a)) | OLe => ret (b2z (a <=? b))
  | _ => err error_unknown_operator_type ;;; ret 0
  end.
Definition x_unary (x : node) (o : opr) : M Z := n0 <- opn x 0 ;; v <- ex n0 ;; un_op o v.
Definition x_binary (x : node) (o : opr) : M Z :=
  n0 <- opn x 0 ;; a <- ex n0 ;; n1 <- opn x 1 ;; b <- ex n1 ;; bin_op o a b.
(** 1816-1824: the divisor is expanded twice *)
Definition x_divide (x : node) : M Z :=
  n1 <- opn x 1 ;; b0 <- ex n1 ;;
  if b0 =? 0 then err error_divide_by_zero ;;; ret 0
  else n0 <- opn x 0 ;; a <- ex n0 ;; b <- ex n1 ;;
       if b =? 0 then ub UbArith else ck (Z.quot a b).
(** 1876-1892: || and && do not expand the second operand when the first decides *)
Definition x_or (x : node) : M Z :=
  n0 <- opn x 0 ;; a <- ex n0 ;;
  if a =? 0 then n1 <- opn x 1 ;; b <- ex n1 ;; ret (b2z (negb (b =? 0))) else ret 1.
Definition x_and (x : node) : M Z :=
  n0 <- opn x 0 ;; a <- ex n0 ;;
  if a =? 0 then ret 0 else n1 <- opn x 1 ;; b <- ex n1 ;; ret (b2z (negb (b =? 0))).

(** 1080-1089 *)
Definition x_pc_assign (x : node) : M Z :=
  modify (fun s => set_pc_assigned (s_pc_assigned s + 1) s) ;;;
  n0 <- opn x 0 ;; op <- ex n0 ;;
  modify (set_org_spec true) ;;; modify (set_pc op) ;;; modify (set_origin op) ;;; ret 0.
(** 1096-1111 *)
Definition x_org (x : node) : M Z :=
  modify (fun s => set_pc_assigned (s_pc_assigned s + 1) s) ;;;
  once <- gets s_org_once ;;
  if once then err error_org_specified_more_than_once ;;; ret 0
  else
    n0 <- opn x 0 ;; op <- ex n0 ;;
    modify (set_pc op) ;;; modify (set_origin op) ;;; modify (set_org_spec true) ;;; modify (set_org_once true) ;;; ret 0.

(** " $%02X" *)
Definition hexdig (d : Z) : Z := if d <? 10 then 48 + d else 55 + d.
Definition hex02 (v : Z) : list Z := [32; 36; hexdig (v / 16); hexdig (v mod 16)].
Definition say (l : list Z) : M unit :=
  modify (fun s => set_console (rev (map (fun x => x mod 256) l) ++ s_console s) s).

(** 1118-1302 expression list.  [elem_step] is the body of the loop for one operand that is not itself an
    expression list; the result says whether to return from the function.  [y] is the local symbol_ptr. *)
Definition is_kind_con_id_lab_opr (k : nkind) : bool :=
  match k with KCon _ _ | KId _ _ | KLabel _ _ | KOpr _ => true | _ => false end.
Definition is_str (k : nkind) : bool := match k with KStr _ => true | _ => false end.

(** 1140-1173 *)
Definition elem_symbol (pp : nat) (xp : node) (sp : option nat) : M (bool * option nat) :=
  let declare (name : cstr) (i : option nat) (mk : option nat -> nkind) (v : Z) : M (bool * option nat) :=
    r <- match i with
         | Some a => ret (Some a)
         | None =>
             a <- add_symbol name ;;
             node_set pp (mkNode (mk a) (n_ops xp)) ;;;
             match a with
             | None => err error_adding_symbol ;;; ret None
             | Some a => y <- sym_get a ;; sym_set a (y_set_var true y) ;;; ret (Some a)
             end
         end ;;
    match r with
    | None => ret (true, None)
    | Some a => y <- sym_get a ;; sym_set a (y_set_init true (y_set_value v y)) ;;; ret (true, Some a)
    end in
  match n_kind xp with
  | KId name i => declare name i (KId name) 0
  | KLabel name i => pc <- gets s_pc ;; declare name i (KLabel name) pc
  | _ =>
      match sp with
      | Some a => v <- ex pp ;; set_symbol_value a v ;;; ret (true, None)
      | None => err error_initializing_variable ;;; ret (false, None)
      end
  end.

(** 1175-1206 *)
Definition elem_macro (pp : nat) (xp : node) : M (bool * option nat) :=
  if is_kind_con_id_lab_opr (n_kind xp) then
    modify (fun s => set_mpi (s_mpi s + 1) s) ;;;
    i <- gets s_mpi ;; mx <- gets s_maxmp ;;
    when (mx <? i) (modify (set_maxmp i)) ;;;
    r <- add_symbol (param_name i) ;;
    match r with
    | None => err error_out_of_memory ;;; exit_ (-1)
    | Some a =>
        v <- ex pp ;; set_symbol_value a v ;;;
        y <- sym_get a ;; sym_set a (y_set_init true y) ;;;
        ret (true, Some a)
    end
  else err error_value_out_of_range ;;; ret (false, None).

(** 1208-1243 *)
Definition elem_bytes (pp : nat) (xp : node) : M bool :=
  hu <- has_uninitialized pp ;; f <- gets s_final ;;
  let okkind := is_kind_con_id_lab_opr (n_kind xp) || is_str (n_kind xp) in
  if negb hu && f && negb okkind then err error_value_out_of_range ;;; ret false
  else
    when (negb hu && f) (list_and_output pp) ;;;
    d <- gets s_dsz ;;
    match n_kind xp with
    | KStr v =>
        let len := Z.of_nat (length v) in
        modify (fun s => set_pc (s_pc s + (if (len mod 2 =? 1) && (d =? 2) then len + 1 else len)) s)
    | _ => modify (fun s => set_pc (s_pc s + d) s)
    end ;;;
    ret true.

(** 1245-1271 *)
Definition elem_strings (pp : nat) (xp : node) : M bool :=
  if negb (is_kind_con_id_lab_opr (n_kind xp) || is_str (n_kind xp)) then err error_value_out_of_range ;;; ret false
  else
    f <- gets s_final ;;
    when f (list_and_output pp) ;;;
    match n_kind xp with
    | KStr v => modify (fun s => set_pc (s_pc s + Z.of_nat (length v)) s)
    | _ => op <- ex pp ;;
           modify (fun s => set_pc (s_pc s + (if Z.land op 65280 / 256 =? 0 then 1 else 2)) s)
    end ;;;
    ret true.

(** 1273-1299 *)
Definition elem_print (pp : nat) (xp : node) (all : bool) : M bool :=
  f <- gets s_final ;;
  match n_kind xp with
  | KStr v => when (f || all) (say (32 :: v))
  | _ => op <- ex pp ;;
         let hi := Z.land op 65280 / 256 in
         when (f || all) (say ((if hi =? 0 then [] else hex02 hi) ++ hex02 (Z.land op 255)))
  end ;;;
  ret true.

Fixpoint expr_list (l : list nat) (sp : option nat) : M Z :=
  match l with
  | [] => ret 0
  | pp :: l =>
      xp <- node_get pp ;;
      match n_kind xp with
      | KOpr OExprList => _ <- ex pp ;; expr_list l sp
      | _ =>
          _ <- expand_all (n_ops xp) 0 ;;
          et <- gets s_ety ;;
          xp <- node_get pp ;;
          r <- match et with
               | EtSymbol => elem_symbol pp xp sp
               | EtMacro => elem_macro pp xp
               | EtBytes => b <- elem_bytes pp xp ;; ret (b, sp)
               | EtStrings => b <- elem_strings pp xp ;; ret (b, sp)
               | EtPrint => b <- elem_print pp xp false ;; ret (b, sp)
               | EtPrintAll => b <- elem_print pp xp true ;; ret (b, sp)
               end ;;
          let '(go, sp') := r in
          if go then expr_list l sp' else ret 0
      end
  end.

(** 1315-1334 create_macro_entry.  The entry returned on creation is the caller's block, not the copy in the
    dictionary. *)
Definition create_macro_entry (name : cstr) : M nat :=
  r <- gets (fun s => dict_search (s_mdict s) name) ;;
  match r with
  | Some a => ret a
  | None =>
      a <- gets (fun s => length (s_mvals s)) ;;
      modify (fun s => set_mvals (s_mvals s ++ [0]) s) ;;;
      r <- gets (fun s => dict_insert (s_mdict s) (s_mvals s) name 0) ;;
      let '(d, h, _) := r in
      modify (fun s => set_mdict d (set_mvals h s)) ;;;
      ret a
  end.
Definition mval_get (a : nat) : M Z :=
  l <- gets s_mvals ;; match nth_error l a with Some v => ret v | None => ub UbIndex end.

(** %.4X and %8.8X (times_executed is not negative) *)
Fixpoint hex_n (k : nat) (v : Z) (acc : cstr) : cstr :=
  match k with O => acc | S k => hex_n k (v / 16) (hexdig (v mod 16) :: acc) end.
(** enough digits for the value, at least [w] *)
Definition hex_w (w : nat) (v : Z) : cstr := hex_n (Nat.max w (S (Z.to_nat (Z.log2 v / 4)))) v [].
Definition macro_label (name : cstr) (w : nat) (v : Z) : cstr := name ++ 58 :: 58 :: hex_w w v.

(** 1362-1384.  A macro_node of an earlier parse tree has been freed. *)
Definition x_macro_id (p : nat) (x : node) (name : cstr) (i : option nat) : M Z :=
  e <- create_macro_entry name ;;
  temp <- gets s_label ;;
  n <- mval_get e ;;
  modify (set_label (Some (macro_label name 8 n))) ;;;
  _ <- x_id p x (KMacId name) name i ;;
  x' <- node_get p ;;
  match n_kind x' with
  | KMacId _ (Some a) =>
      y <- sym_get a ;;
      match y_macro y with
      | None => modify (set_label temp) ;;; ret 0
      | Some (g, body) =>
          g' <- gets s_gen ;;
          if Nat.eqb g g' then
            _ <- ex body ;; modify (set_label temp) ;;; y <- sym_get a ;; ret (y_value y)
          else ub UbFreed
      end
  | _ => modify (set_label temp) ;;; ret 0
  end.

(** 1390-1414 *)
Definition x_macro_ex (name : cstr) (macro : nat) (params : option nat) : M Z :=
  e <- create_macro_entry name ;;
  push_macro_params ;;;
  modify (set_ety EtMacro) ;;;
  modify (set_mpi 0) ;;;
  match params with Some n => _ <- ex n ;; ret tt | None => ret tt end ;;;
  temp <- gets s_label ;;
  n <- mval_get e ;;
  modify (set_label (Some (macro_label name 4 n))) ;;;
  _ <- ex macro ;;
  n <- mval_get e ;;
  modify (fun s => set_mvals (upd e (n + 1) (s_mvals s)) s) ;;;
  modify (set_label temp) ;;;
  pop_macro_params ;;;
  ret 0.

(** 1421-1441 *)
Definition x_macro_def (x : node) : M Z :=
  n0 <- opn x 0 ;; name <- name_of n0 ;;
  _ <- create_macro_entry name ;;
  r <- add_symbol name ;;
  match r with
  | None => err error_out_of_memory ;;; exit_ (-1)
  | Some a =>
      body <- opn x 1 ;; g <- gets s_gen ;; pc <- gets s_pc ;;
      y <- sym_get a ;;
      sym_set a (y_set_value pc (y_set_macro (g, body) (y_set_init true y))) ;;;
      ret 0
  end.

(** max_address expand.cc:46 *)
Definition max_address : Z := 65535.

(** 1447-1461 *)
Fixpoint while_loop (fuel : nat) (c b : nat) : M Z :=
  match fuel with
  | O => nofuel
  | S f =>
      v <- ex c ;;
      if v =? 0 then ret 0
      else
        _ <- ex b ;; pc <- gets s_pc ;;
        if max_address <? pc then err error_infinite_loop_detected ;;; ret 0 else while_loop f c b
  end.
(** 1467-1500: [until] = REPEAT (stop when the condition is not 0), otherwise DO (stop when it is 0) *)
Fixpoint do_loop (fuel : nat) (until : bool) (b c : nat) : M Z :=
  match fuel with
  | O => nofuel
  | S f =>
      _ <- ex b ;; pc <- gets s_pc ;;
      if max_address <? pc then err error_infinite_loop_detected ;;; ret 0
      else v <- ex c ;; if Bool.eqb (v =? 0) until then do_loop f until b c else ret 0
  end.

(** 1506-1569 *)
Fixpoint for_loop (fuel : nat) (a : nat) (end_ step : Z) (b : nat) : M Z :=
  match fuel with
  | O => nofuel
  | S f =>
      y <- sym_get a ;;
      if (0 <? step) && (end_ <? y_value y) then ret 0
      else if (step <? 0) && (y_value y <? end_) then ret 0
      else
        _ <- ex b ;; pc <- gets s_pc ;;
        if max_address <? pc then err error_infinite_loop_detected ;;; ret 0
        else
          y <- sym_get a ;;
          set_symbol_value a (y_value y + step) ;;;
          for_loop f a end_ step b
  end.
(** the symbol cached in an id node, created when missing (1516-1517, 1527-1528) *)
Definition cached_symbol (n : nat) : M nat :=
  x <- node_get n ;;
  match n_kind x with
  | KId name (Some a) => ret a
  | KId name None =>
      r <- add_symbol name ;;
      node_set n (mkNode (KId name r) (n_ops x)) ;;;
      match r with Some a => ret a | None => err error_out_of_memory ;;; exit_ (-1) end
  | _ => ub UbNull
  end.
Definition x_for (fuel : nat) (x : node) : M Z :=
  step <- match nth_error (n_ops x) 4 with Some n => ex n | None => ret 1 end ;;
  n0 <- opn x 0 ;;
  x0 <- node_get n0 ;;
  id0 <- opn x0 0 ;;
  start <- cached_symbol id0 ;;
  _ <- ex n0 ;;
  n3 <- opn x 3 ;;
  sym <- cached_symbol n3 ;;
  n1 <- opn x 1 ;;
  end_ <- ex n1 ;;
  if negb (Nat.eqb start sym) then err error_expected_next ;;; ret 0
  else n2 <- opn x 2 ;; for_loop fuel sym end_ step n2.

(** 1576-1587 *)
Definition x_if (x : node) : M Z :=
  n0 <- opn x 0 ;; v <- ex n0 ;;
  if v =? 0 then
    match nth_error (n_ops x) 2 with Some n => _ <- ex n ;; ret 0 | None => ret 0 end
  else n1 <- opn x 1 ;; _ <- ex n1 ;; ret 0.

(** 1594-1620 *)
Definition x_print (x : node) (all : bool) : M Z :=
  modify (set_ety (if all then EtPrintAll else EtPrint)) ;;;
  _ <- expand_all (n_ops x) 0 ;;
  f <- gets s_final ;;
  when (f || all) (say [10]) ;;;
  ret 0.

(** 1627-1643 *)
Definition x_ds (x : node) : M Z :=
  n0 <- opn x 0 ;; op <- ex n0 ;;
  if op <? 0 then err error_value_out_of_range ;;; exit_ (-1)
  else modify (fun s => set_pc (s_pc s + (if 0 <? op then op else 1)) s) ;;; ret op.

(** 1650-1661 *)
Definition x_statement (x : node) : M Z := _ <- expand_all (n_ops x) 0 ;; ret 0.
(** 1667-1671 *)
Definition x_end : M Z := modify (set_stop true) ;;; ret 0.

(** 1682-1716: a '-' or '+' label *)
Definition equ_pm (minus : bool) (name : cstr) (op : Z) : M Z :=
  file <- gets s_file ;; line <- gets s_line ;;
  t <- gets (pm_table minus) ;;
  match find_def t file line 0 with
  | None => add_pm minus file line op
  | Some _ => ret tt
  end ;;;
  t <- gets (pm_table minus) ;;
  let depth := Z.of_nat (length name) in
  let index := if minus then find_minus t depth file line else find_plus t depth file (line - 1) in
  (if 0 <=? index then
     match nth_error t (Z.to_nat index) with
     | None => ub UbIndex
     | Some e =>
         when (negb (pm_value e =? op))
           (modify (set_pm_table minus (upd (Z.to_nat index) (mkPm (pm_file e) (pm_line e) op) t)) ;;;
            modify (fun s => set_changed (s_changed s + 1) s))
     end
   else ret tt) ;;;
  ret op.

(** 1678-1749 *)
Definition x_equ (x : node) : M Z :=
  n1 <- opn x 1 ;; op <- ex n1 ;;
  n0 <- opn x 0 ;; x0 <- node_get n0 ;;
  let normal (name : cstr) (i : option nat) (mk : option nat -> nkind) (lab : bool) : M Z :=
    r <- match i with
         | Some a => if hd0 name =? 64 then a <- add_symbol name ;; node_set n0 (mkNode (mk a) (n_ops x0)) ;;; ret a
                     else ret (Some a)
         | None => a <- add_symbol name ;; node_set n0 (mkNode (mk a) (n_ops x0)) ;;; ret a
         end ;;
    match r with
    | None => err error_out_of_memory ;;; exit_ (-1)
    | Some a =>
        y <- sym_get a ;;
        if negb (y_init y) || negb (y_value y =? op) then
          sc <- gets s_scope ;;
          r <- match y_scope y, sc with
               | None, Some c => add_symbol (dotted c (y_name y))
               | _, _ => ret (Some a)
               end ;;
          match r with
          | None => ub UbNull
          | Some a =>
              set_symbol_value a op ;;;
              y <- sym_get a ;;
              sym_set a (y_set_init true (if lab then y_set_label true y else y)) ;;;
              ret op
          end
        else ret op
    end in
  let go (name : cstr) (i : option nat) (mk : option nat -> nkind) (lab : bool) : M Z :=
    if stricmp name (cs "-") =? 0 then equ_pm true name op
    else if stricmp name (cs "+") =? 0 then equ_pm false name op
    else normal name i mk lab in
  match n_kind x0 with
  | KId name i => go name i (KId name) false
  | KLabel name i => go name i (KLabel name) true
  | _ => ub UbNull
  end.

(** 1935-1945 expand_operator_node, 1951-1983 expand_node *)
Definition x_opr (fuel : nat) (p : nat) (x : node) (o : opr) : M Z :=
  match o with
  | OLo | OHi | OUminus | OCompl | ONot => x_unary x o
  | OPlus | OMinus | OMul | OBitOr | OBitAnd | OXor | OLt | OGt | OEq | ONe | OGe | OLe | OShl | OShr => x_binary x o
  | ODiv => x_divide x
  | OOr => x_or x
  | OAnd => x_and x
  | OPcAssign => x_pc_assign x
  | OOrg => x_org x
  | OExprList => expr_list (n_ops x) None
  | OMacro => x_macro_def x
  | OWhile => c <- opn x 0 ;; b <- opn x 1 ;; while_loop fuel c b
  | ORepeat => b <- opn x 0 ;; c <- opn x 1 ;; do_loop fuel true b c
  | ODo => b <- opn x 0 ;; c <- opn x 1 ;; do_loop fuel false b c
  | OSection => x_section x
  | OEndSection => x_end_section
  | OFor => x_for fuel x
  | ORegX => x_for_reg x true
  | ORegY => x_for_reg x false
  | OIf => x_if x
  | OPrint => x_print x false
  | OPrintAll => x_print x true
  | ODs => x_ds x
  | OStatement => x_statement x
  | OEnd => x_end
  | OEqu => x_equ x
  | OVar => x_variable x
  | OInc => x_include x
  | OLoad => x_load x
  | OFill => x_fill x
  end.

Definition x_node (fuel : nat) (p : nat) (x : node) : M Z :=
  match n_kind x with
  | KCon v ispc => x_constant p x v ispc
  | KId name i => x_id p x (KId name) name i
  | KLabel name i => x_label p x name i
  | KMacId name i => x_macro_id p x name i
  | KMacEx name macro params => x_macro_ex name macro params
  | KData size data => x_data size data
  | KOp _ _ _ _ => x_op_code p
  | KPrint st => x_print_state p st
  | KOpr o => x_opr fuel p x o
  | KStr _ => err error_unknown_node_type ;;; ret 0
  end.
End Rec.

(** expand.cc:1951-1983.  The depth of the recursion is bounded by the fuel. *)
Fixpoint expand (fuel : nat) (p : nat) : M Z :=
  match fuel with
  | O => nofuel
  | S f =>
      stop <- gets s_stop ;;
      if stop then ret 0
      else x <- node_get p ;; x_node (expand f) f p x
  end.
