(** Model of the parser's actions: CMakePasm/source/pasm.y:69-245 and the lexer actions of pasm.l:306-418 that
    look at or change the assembler's state.

    The source is given as parsed lines (State.v).  The tables generated by bison are LALR(1); all actions of a
    statement run after its tokens have been read and before the next statement is read, because the states after
    [EOL] and after [program stmt] have default reductions.  A statement whose tokens the lexer classifies
    differently from the way the statement is written (a macro name used as a symbol, a label inside a loop body)
    is a syntax error; the builders then return [None]. *)
From Coq Require Import String.
From Verif Require Import Base Hash Dict Str Opcodes Err State Sym Machine.
Open Scope string_scope.
Open Scope list_scope.
Open Scope Z_scope.
Open Scope m_scope.

(** sequencing of actions that may meet a syntax error *)
Definition bindo {A B} (m : M (option A)) (k : A -> M (option B)) : M (option B) :=
  r <- m ;; match r with Some a => k a | None => ret None end.
Notation "x <-o m ;; k" := (bindo m (fun x => k)) (at level 61, m at next level, right associativity) : m_scope.
Definition some {A} (m : M A) : M (option A) := a <- m ;; ret (Some a).

(** ** Tokens *)
Inductive ftok := TMac | TSym | TLab.

(** pasm.l:376-418, 330-360: an identifier that is not the first token of its line.  '+' and '-' names are not
    looked up; \n is rejected outside a macro definition. *)
Definition tok_sym (name : cstr) : M ftok :=
  if is_pm_name name then ret TSym
  else if hd0 name =? 92 then d <- gets s_macdef ;; ret (if d =? 0 then TMac else TSym)
  else
    r <- look_up_symbol name ;;
    match r with
    | Some a => y <- sym_get a ;; ret (if y_mname y then TMac else TSym)
    | None => ret TSym
    end.
(** a SYMBOL is required *)
Definition need_sym (name : cstr) : M (option unit) :=
  t <- tok_sym name ;; ret (match t with TSym => Some tt | _ => None end).

(** the first identifier of a line *)
Definition tok_first (name : cstr) : M ftok :=
  if is_pm_name name then ret TLab
  else if hd0 name =? 92 then tok_sym name
  else
    r <- look_up_symbol name ;;
    d <- gets s_macdef ;;
    let t := if 0 <? d then TSym else TLab in
    match r with
    | Some a =>
        y <- sym_get a ;;
        if y_mname y then ret TMac else sym_set a (y_set_label true y) ;;; ret t
    | None => ret t
    end.

(** the name after .MACRO: always MACSYMBOL, and marks an existing symbol as a macro name *)
Definition y_set_mname (y : symbol) : symbol :=
  mkSym (y_value y) (y_times y) (y_init y) true (y_mparam y) (y_label y) (y_local y) (y_pm y) (y_var y)
        (y_scope y) (y_name y) (y_full y) (y_macro y).
Definition tok_macro_name (name : cstr) : M unit :=
  r <- look_up_symbol name ;;
  match r with
  | Some a => y <- sym_get a ;; sym_set a (y_set_mname y)
  | None => ret tt
  end.

(** ** Nodes *)
Definition id_node (name : cstr) : M nat := alloc (KId name None) [].

(** strlen stops at a NUL *)
Fixpoint until_nul (s : cstr) : cstr :=
  match s with [] => [] | c :: s' => if c =? 0 then [] else c :: until_nul s' end.

(** node.cc:120-154 string_node *)
Definition string_node (raw : cstr) : M nat :=
  let inner := match raw with
               | c :: r => if (c =? 39) || (c =? 34) then removelast r else raw
               | [] => raw
               end in
  match sanitize_string inner with
  | SOk out e =>
      (fix rep (n : nat) : M unit :=
         match n with O => ret tt | S n => err error_unrecognized_escape_sequence ;;; rep n end) e ;;;
      alloc (KStr (until_nul out)) []
  | SUB => ub UbString
  | SFuel => nofuel
  end.

(** node.cc:194-203 label_node *)
Definition label_node (name : cstr) : M nat :=
  let c := hd0 name in
  if negb (c =? 64) && negb (c =? 45) && negb (c =? 43) then
    modify (set_label (Some name)) ;;; alloc (KLabel name None) []
  else
    l <- gets s_label ;;
    match l with
    | Some lab => if c =? 64 then alloc (KLabel (local_name lab name) None) [] else alloc (KLabel name None) []
    | None => alloc (KLabel name None) []
    end.

(** operator_node('=', 2, label_node(..), constant_node(program_counter, true)) *)
Definition label_def (name : cstr) : M nat :=
  l <- label_node name ;; c <- pc_node ;; alloc (KOpr OEqu) [l; c].

(** node.cc:230-252 macro_expand_node *)
Definition macro_call (name : cstr) (params : option nat) : M nat :=
  m <- alloc (KMacId name None) [] ;; alloc (KMacEx name m params) [].

Fixpoint build_expr (e : expr) : M (option nat) :=
  match e with
  | EInt v => some (constant_node v)
  | ESym name => _ <-o need_sym name ;; some (id_node name)
  | EPc => some pc_node
  | EUn o e => n <-o build_expr e ;; some (alloc (KOpr o) [n])
  | EBin o e1 e2 => n1 <-o build_expr e1 ;; n2 <-o build_expr e2 ;; some (alloc (KOpr o) [n1; n2])
  end.

Definition build_item (i : item) : M (option nat) :=
  match i with IExpr e => build_expr e | IStr raw => some (string_node raw) end.

(** pasm.y:122-127 expr_list; the list is not empty *)
Fixpoint more_items (acc : nat) (l : list item) : M (option nat) :=
  match l with
  | [] => ret (Some acc)
  | i :: l => n <-o build_item i ;; a <- alloc (KOpr OExprList) [acc; n] ;; more_items a l
  end.
Definition build_items (l : list item) : M (option nat) :=
  match l with
  | [] => ret None
  | i :: l => n <-o build_item i ;; a <- alloc (KOpr OExprList) [n] ;; more_items a l
  end.

(** pasm.y:143-148 symbol_list *)
Fixpoint more_vars (acc : option nat) (l : list (cstr * option expr)) : M (option nat) :=
  match l with
  | [] => ret acc
  | (name, e) :: l =>
      _ <-o need_sym name ;;
      ev <-o match e with None => ret (Some []) | Some e => n <-o build_expr e ;; ret (Some [n]) end ;;
      i <- id_node name ;;
      a <- alloc (KOpr OExprList) ((match acc with Some p => [p] | None => [] end) ++ i :: ev) ;;
      more_vars (Some a) l
  end.

Section Build.
Variable ex : nat -> M Z.

(** pasm.y:178-187 *)
Definition build_op (instr : Z) (f : opform) : M (option nat) :=
  let one mode e := n <-o build_expr e ;; some (opcode_node ex instr mode [n]) in
  match f with
  | FImp => some (opcode_node ex instr m_i [])
  | FImm e => one m_I e
  | FAbs e => one m_a e
  | FAbsX e => one m_ax e
  | FAbsY e => one m_ay e
  | FInd e => one m_ind e
  | FIndX e => one m_aix e
  | FIndY e => one m_izy e
  end.

Definition build_call (name : cstr) (args : list item) : M (option nat) :=
  match args with
  | [] => some (macro_call name None)
  | _ => n <-o build_items args ;; some (macro_call name (Some n))
  end.

(** pasm.y:167-179 symbol_value *)
Definition symbol_value (name : cstr) : M (option nat) :=
  r <- look_up_symbol name ;;
  match r with
  | Some a => y <- sym_get a ;; if y_mname y then some (macro_call name None) else some (label_def name)
  | None => some (label_def name)
  end.

Definition opr1 (o : opr) (e : expr) : M (option nat) := n <-o build_expr e ;; some (alloc (KOpr o) [n]).

(** pasm.y:80-217 stmt.  [first]: the statement is the first thing on its line. *)
Fixpoint build_stmt (first : bool) (st : stmt) {struct st} : M (option nat) :=
  let body := fix body (acc : option nat) (l : list (Z * stmt)) {struct l} : M (option nat) :=
    match l with
    | [] => ret acc
    | (ln, st) :: l =>
        modify (set_line ln) ;;;
        n <-o build_stmt true st ;;
        match acc with
        | None => body (Some n) l
        | Some p => a <- alloc (KOpr OStatement) [p; n] ;; body (Some a) l
        end
    end in
  match st with
  | SEmpty => some (alloc (KOpr OStatement) [])
  | SOp instr f => build_op instr f
  | SOrg e => opr1 OOrg e
  | SDs e => opr1 ODs e
  | SFill e1 e2 => n1 <-o build_expr e1 ;; n2 <-o build_expr e2 ;; some (alloc (KOpr OFill) [n1; n2])
  | SData size l => n <-o build_items l ;; some (alloc (KData size n) [])
  | SPrint all l =>
      let o := if all then OPrintAll else OPrint in
      match l with
      | [] => some (alloc (KOpr o) [])
      | _ => n <-o build_items l ;; some (alloc (KOpr o) [n])
      end
  | SPrintState v => some (alloc (KPrint v) [])
  | SSection name => _ <-o need_sym name ;; some (i <- id_node name ;; alloc (KOpr OSection) [i])
  | SEndSection => some (alloc (KOpr OEndSection) [])
  | SEnd => some (alloc (KOpr OEnd) [])
  | SInc raw => some (n <- string_node raw ;; alloc (KOpr OInc) [n])
  | SLoad raw => some (n <- string_node raw ;; alloc (KOpr OLoad) [n])
  | SAssign name e =>
      t <- (if first then tok_first name else tok_sym name) ;;
      match t with
      | TMac => ret None
      | _ => n <-o build_expr e ;; some (i <- id_node name ;; alloc (KOpr OEqu) [i; n])
      end
  | SPcAssign e => opr1 OPcAssign e
  | SIf e b els =>
      c <-o build_expr e ;;
      n <-o body None b ;;
      match els with
      | None => some (alloc (KOpr OIf) [c; n])
      | Some l => m <-o body None l ;; some (alloc (KOpr OIf) [c; n; m])
      end
  | SRepeat b e => n <-o body None b ;; c <-o build_expr e ;; some (alloc (KOpr ORepeat) [n; c])
  | SDo b e => n <-o body None b ;; c <-o build_expr e ;; some (alloc (KOpr ODo) [n; c])
  | SWhile e b => c <-o build_expr e ;; n <-o body None b ;; some (alloc (KOpr OWhile) [c; n])
  | SFor name e0 e1 step b next =>
      _ <-o need_sym name ;;
      n0 <-o build_expr e0 ;;
      i <- id_node name ;;
      asg <- alloc (KOpr OEqu) [i; n0] ;;
      n1 <-o build_expr e1 ;;
      sv <-o match step with None => ret (Some []) | Some e => n <-o build_expr e ;; ret (Some [n]) end ;;
      n <-o body None b ;;
      _ <-o need_sym next ;;
      j <- id_node next ;;
      some (alloc (KOpr OFor) ([asg; n1; n; j] ++ sv))
  | SForReg x e0 e1 up b =>
      n0 <-o build_expr e0 ;;
      n1 <-o build_expr e1 ;;
      n <-o body None b ;;
      k <- constant_node (if up then 1 else -1) ;;
      some (alloc (KOpr (if x then ORegX else ORegY)) [n0; n1; n; k])
  | SMacro name b =>
      modify (fun s => set_macdef (s_macdef s + 1) s) ;;;
      tok_macro_name name ;;;
      n <-o body None b ;;
      modify (fun s => set_macdef (s_macdef s - 1) s) ;;;
      some (i <- alloc (KMacId name None) [] ;; alloc (KOpr OMacro) [i; n])
  | SName name args =>
      t <- (if first then tok_first name else tok_sym name) ;;
      match t with
      | TMac => build_call name args
      | TLab => ret None
      | TSym => match args with [] => symbol_value name | _ => ret None end
      end
  | SVar l =>
      match l with
      | [] => ret None
      | _ => n <-o more_vars None l ;; some (alloc (KOpr OVar) [n])
      end
  | SCpu c02 => modify (set_c02 c02) ;;; some (alloc (KOpr OStatement) [])
  | SIllegal on => modify (set_ill on) ;;; some (alloc (KOpr OStatement) [])
  | SC64 => modify (set_c64 true) ;;; some (alloc (KOpr OStatement) [])
  | SBad => ret None
  end.

(** pasm.y:71-77: one statement of the file; [None] is a syntax error *)
Definition with_label (name : cstr) (n : nat) : M unit :=
  d <- label_def name ;; _ <- ex d ;; _ <- ex n ;; ret tt.

Definition run_line (l : tline) : M (option unit) :=
  modify (set_line (t_line l)) ;;;
  let done n := modify (set_line (t_line l)) ;;; _ <- ex n ;; ret (Some tt) in
  match t_label l with
  | None => n <-o build_stmt true (t_stmt l) ;; done n
  | Some name =>
      t <- tok_first name ;;
      match t with
      | TMac => match t_args l with
                | Some args => n <-o build_call name args ;; done n
                | None => ret None
                end
      | TSym => match t_args l with
                | Some [] => n <-o symbol_value name ;; done n
                | _ => ret None
                end
      | TLab => n <-o build_stmt false (t_stmt l) ;;
                modify (set_line (t_line l)) ;;; with_label name n ;;; ret (Some tt)
      end
  end.
End Build.
