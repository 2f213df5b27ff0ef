(** Model of the grammar CMakePasm/source/pasm.y:69-245: tokens to the syntax of State.v.

    bison's LALR(1) tables are replaced by recursive descent; binary operators are resolved by precedence climbing
    with the declared precedences (pasm.y:58-64), under which the prefix operators ~ < > NOT (%prec UMINUS, the
    lowest) take everything to their right.  A statement that does not parse becomes [SBad].
    Simplification: directives without a token (.C64, .6502 ON, ...) stand alone on their line. *)
From Coq Require Import String.
From Verif Require Import Base Opcodes State Lexer.
Open Scope string_scope.
Open Scope list_scope.
Open Scope Z_scope.

Definition toks := list ltok.
Definition pres (A : Type) := option (A * toks).

Definition tk (l : toks) : option (tok * toks) := match l with LTok t _ :: r => Some (t, r) | [] => None end.

(** ** Expressions *)
(** binary operators and their precedence level, pasm.y:60-64 *)
Definition binop (t : tok) : option (opr * Z) :=
  match t with
  | TkKw WShl => Some (OShl, 1) | TkKw WShr => Some (OShr, 1)
  | TkKw WOr => Some (OOr, 2) | TkKw WAnd => Some (OAnd, 2) | TkKw WGe => Some (OGe, 2) | TkKw WLe => Some (OLe, 2)
  | TkKw WEq => Some (OEq, 2) | TkKw WNe => Some (ONe, 2)
  | TkKw WBitor => Some (OBitOr, 3) | TkKw WBitand => Some (OBitAnd, 3)
  | TkCh c => if c =? 62 then Some (OGt, 2) else if c =? 60 then Some (OLt, 2)
              else if c =? 94 then Some (OXor, 3)
              else if c =? 43 then Some (OPlus, 4) else if c =? 45 then Some (OMinus, 4)
              else if c =? 42 then Some (OMul, 5) else if c =? 47 then Some (ODiv, 5) else None
  | _ => None
  end.

(** prefix operators that take a subexpr *)
Definition prefix (t : tok) : option opr :=
  match t with
  | TkCh c => if c =? 126 then Some OCompl else if c =? 60 then Some OLo else if c =? 62 then Some OHi else None
  | TkKw WNot => Some ONot
  | _ => None
  end.

Definition is_ch (c : Z) (t : tok) : bool := match t with TkCh d => d =? c | _ => false end.

(** subexpr.  [p_expr f lev] reads an operand and then operators of level [lev] and above. *)
Fixpoint p_expr (fuel : nat) (lev : Z) (l : toks) : pres expr :=
  match fuel with
  | O => None
  | S f =>
      match p_prim f l with
      | Some (e, r) => p_more f lev e r
      | None => None
      end
  end
with p_more (fuel : nat) (lev : Z) (e : expr) (l : toks) : pres expr :=
  match fuel with
  | O => None
  | S f =>
      match l with
      | LTok t _ :: r =>
          match binop t with
          | Some (o, p) =>
              if lev <=? p then
                match p_expr f (p + 1) r with
                | Some (e2, r2) => p_more f lev (EBin o e e2) r2
                | None => None
                end
              else Some (e, l)
          | None => Some (e, l)
          end
      | [] => Some (e, l)
      end
  end
with p_prim (fuel : nat) (l : toks) : pres expr :=
  match fuel with
  | O => None
  | S f =>
      match l with
      | LTok t _ :: r =>
          match prefix t with
          | Some o => match p_expr f 0 r with Some (e, r2) => Some (EUn o e, r2) | None => None end
          | None =>
              match t with
              | TkInt v => Some (EInt v, r)
              | TkName s _ => Some (ESym s, r)
              | TkPar s => Some (ESym s, r)
              | TkPm s false => Some (ESym s, r)
              | TkCh c =>
                  if c =? 45 then
                    match r with
                    | LTok (TkInt v) _ :: r2 => Some (EUn OUminus (EInt v), r2)
                    | LTok (TkCh d) _ :: r2 =>
                        if d =? 40 then
                          match p_expr f 0 r2 with
                          | Some (e, LTok (TkCh x) _ :: r3) => if x =? 41 then Some (EUn OUminus e, r3) else None
                          | _ => None
                          end
                        else Some (ESym [45], r)
                    | _ => Some (ESym [45], r)
                    end
                  else if c =? 43 then Some (ESym [43], r)
                  else if c =? 42 then Some (EPc, r)
                  else if c =? 40 then
                    match p_expr f 0 r with
                    | Some (e, LTok (TkCh x) _ :: r2) => if x =? 41 then Some (e, r2) else None
                    | _ => None
                    end
                  else None
              | _ => None
              end
          end
      | [] => None
      end
  end.

Definition p_sub (l : toks) : pres expr := p_expr (3 * S (List.length l)) 0 l.

(** expr_list *)
Definition p_item (l : toks) : pres item :=
  match l with
  | LTok (TkStr s) _ :: r => Some (IStr s, r)
  | _ => match p_sub l with Some (e, r) => Some (IExpr e, r) | None => None end
  end.
Fixpoint p_items (fuel : nat) (l : toks) : pres (list item) :=
  match fuel with
  | O => None
  | S f =>
      match p_item l with
      | None => None
      | Some (i, LTok (TkCh c) n :: r) =>
          if c =? 44 then
            match p_items f r with Some (is_, r2) => Some (i :: is_, r2) | None => None end
          else Some ([i], LTok (TkCh c) n :: r)
      | Some (i, r) => Some ([i], r)
      end
  end.
Definition p_list (l : toks) : pres (list item) := p_items (S (List.length l)) l.

Definition p_ch (c : Z) (l : toks) : option toks :=
  match l with LTok (TkCh d) _ :: r => if d =? c then Some r else None | _ => None end.
(** EOL; the line number it carries *)
Definition p_eol (l : toks) : option (Z * toks) :=
  match l with LTok (TkKw WEol) n :: r => Some (n, r) | _ => None end.
Definition at_eol (l : toks) : bool := match p_eol l with Some _ => true | None => false end.

(** ** Statements *)
(** pasm.y:178-187.  [OPCODE expr]: an expr is not a lone '*' and not a lone parenthesised subexpr. *)
Definition p_indexed (e : expr) (r : toks) : pres opform :=
  match r with
  | LTok (TkCh c) _ :: LTok (TkKw k) _ :: r2 =>
      if c =? 44 then
        match k with WX => Some (FAbsX e, r2) | WY => Some (FAbsY e, r2) | _ => None end
      else None
  | _ => Some (FAbs e, r)
  end.
Definition p_abs (l : toks) : pres opform :=
  match p_sub l with
  | Some (EPc, _) => None
  | Some (e, r) => p_indexed e r
  | None => None
  end.
Definition p_operand (l : toks) : pres opform :=
  match l with
  | LTok (TkKw WEol) _ :: _ => Some (FImp, l)
  | LTok (TkCh c) _ :: r =>
      if c =? 35 then match p_sub r with Some (e, r2) => Some (FImm e, r2) | None => None end
      else if c =? 40 then
        match p_sub r with
        | Some (e, LTok (TkCh d) _ :: r2) =>
            if d =? 44 then
              match r2 with
              | LTok (TkKw WX) _ :: r3 => match p_ch 41 r3 with Some r4 => Some (FIndX e, r4) | None => None end
              | _ => None
              end
            else if d =? 41 then
              match r2 with
              | LTok (TkKw WEol) _ :: _ => Some (FInd e, r2)
              | LTok (TkCh x) _ :: r3 =>
                  if x =? 44 then match r3 with LTok (TkKw WY) _ :: r4 => Some (FIndY e, r4) | _ => None end
                  else p_abs l
              | _ => p_abs l
              end
            else None
        | _ => None
        end
      else p_abs l
  | _ => p_abs l
  end.

Definition p_asg (l : toks) : option toks :=
  match l with
  | LTok (TkCh c) _ :: r => if c =? 61 then Some r else None
  | LTok (TkKw WEqu) _ :: r => Some r
  | _ => None
  end.
Definition p_name (l : toks) : pres cstr :=
  match l with
  | LTok (TkName s _) _ :: r => Some (s, r)
  | LTok (TkPar s) _ :: r => Some (s, r)
  | LTok (TkPm s false) _ :: r => Some (s, r)
  | _ => None
  end.

Fixpoint p_vars (fuel : nat) (l : toks) : pres (list (cstr * option expr)) :=
  match fuel with
  | O => None
  | S f =>
      match p_name l with
      | None => None
      | Some (s, r) =>
          match (match p_ch 61 r with
                 | Some r2 => match p_sub r2 with Some (e, r3) => Some (Some e, r3) | None => None end
                 | None => Some (None, r)
                 end) with
          | None => None
          | Some (v, r2) =>
              match p_ch 44 r2 with
              | Some r3 => match p_vars f r3 with Some (vs, r4) => Some ((s, v) :: vs, r4) | None => None end
              | None => Some ([(s, v)], r2)
              end
          end
      end
  end.

Definition ends_body (l : toks) : bool :=
  match l with
  | LTok (TkKw k) _ :: _ =>
      match k with WElse | WEndif | WUntil | WEnddo | WWend | WNext | WEndMacro => true | _ => false end
  | _ => false
  end.

Definition bindp {A B} (m : pres A) (k : A -> toks -> pres B) : pres B :=
  match m with Some (a, r) => k a r | None => None end.
Definition p_kw (same : kw -> bool) (l : toks) : pres unit :=
  match l with LTok (TkKw k) _ :: r => if same k then Some (tt, r) else None | _ => None end.
Definition k_eol (k : kw) := match k with WEol => true | _ => false end.

(** one statement without its EOL *)
Fixpoint p_stmt (fuel : nat) (l : toks) : pres stmt :=
  match fuel with
  | O => None
  | S f =>
      let body := p_body f in
      match l with
      | LTok t n :: r =>
          match t with
          | TkOp i => bindp (p_operand r) (fun o r => Some (SOp i o, r))
          | TkName s _ | TkPar s | TkPm s _ =>
              match p_asg r with
              | Some r2 => bindp (p_sub r2) (fun e r => Some (SAssign s e, r))
              | None =>
                  if at_eol r then Some (SName s [], r)
                  else match t with
                       | TkName _ _ => bindp (p_list r) (fun a r => Some (SName s a, r))
                       | _ => None
                       end
              end
          | TkKw k =>
              match k with
              | WEol => Some (SEmpty, l)
              | WOrg => bindp (p_sub r) (fun e r => Some (SOrg e, r))
              | WDs => bindp (p_sub r) (fun e r => Some (SDs e, r))
              | WByte => bindp (p_list r) (fun a r => Some (SData 1 a, r))
              | WWord => bindp (p_list r) (fun a r => Some (SData 2 a, r))
              | WStr => bindp (p_list r) (fun a r => Some (SData 0 a, r))
              | WFill => bindp (p_sub r) (fun e1 r =>
                         match p_ch 44 r with
                         | Some r => bindp (p_sub r) (fun e2 r => Some (SFill e1 e2, r))
                         | None => None
                         end)
              | WPrint => if at_eol r then Some (SPrint false [], r)
                          else bindp (p_list r) (fun a r => Some (SPrint false a, r))
              | WPrintAll => if at_eol r then Some (SPrint true [], r)
                             else bindp (p_list r) (fun a r => Some (SPrint true a, r))
              | WPrintOn => Some (SPrintState 1, r)
              | WPrintOff => Some (SPrintState 0, r)
              | WSection => bindp (p_name r) (fun s r => Some (SSection s, r))
              | WEndSection => Some (SEndSection, r)
              | WEnd => Some (SEnd, r)
              | WInc => match r with LTok (TkStr s) _ :: r2 => Some (SInc s, r2) | _ => None end
              | WLoad => match r with LTok (TkStr s) _ :: r2 => Some (SLoad s, r2) | _ => None end
              | WPcAssign => match p_asg r with
                             | Some r => bindp (p_sub r) (fun e r => Some (SPcAssign e, r))
                             | None => None
                             end
              | WVar => bindp (p_vars (S (List.length r)) r) (fun v r => Some (SVar v, r))
              | WCpu b => Some (SCpu b, r)
              | WIllegal b => Some (SIllegal b, r)
              | WC64 => Some (SC64, r)
              | WWarn => Some (SEmpty, r)
              | WIf =>
                  bindp (p_sub r) (fun e r =>
                  bindp (body r) (fun b r =>
                  match r with
                  | LTok (TkKw WElse) _ :: r =>
                      bindp (body r) (fun b2 r =>
                      match r with LTok (TkKw WEndif) _ :: r => Some (SIf e b (Some b2), r) | _ => None end)
                  | LTok (TkKw WEndif) _ :: r => Some (SIf e b None, r)
                  | _ => None
                  end))
              | WRepeat =>
                  bindp (p_kw k_eol r) (fun _ r =>
                  bindp (body r) (fun b r =>
                  match r with
                  | LTok (TkKw WUntil) _ :: r => bindp (p_sub r) (fun e r => Some (SRepeat b e, r))
                  | _ => None
                  end))
              | WDo =>
                  bindp (body r) (fun b r =>
                  match r with
                  | LTok (TkKw WEnddo) _ :: r => bindp (p_sub r) (fun e r => Some (SDo b e, r))
                  | _ => None
                  end)
              | WWhile =>
                  bindp (p_sub r) (fun e r =>
                  bindp (p_kw k_eol r) (fun _ r =>
                  bindp (body r) (fun b r =>
                  match r with LTok (TkKw WWend) _ :: r => Some (SWhile e b, r) | _ => None end)))
              | WFor =>
                  match r with
                  | LTok (TkKw kk) _ :: r =>
                      match (match kk with WRegx => Some true | WRegy => Some false | _ => None end), p_ch 61 r with
                      | Some x, Some r =>
                          bindp (p_sub r) (fun e0 r =>
                          match r with
                          | LTok (TkKw dir) _ :: r =>
                              match (match dir with WTo => Some true | WDownto => Some false | _ => None end) with
                              | Some up =>
                                  bindp (p_sub r) (fun e1 r =>
                                  bindp (p_kw k_eol r) (fun _ r =>
                                  bindp (body r) (fun b r =>
                                  match r with
                                  | LTok (TkKw WNext) _ :: LTok (TkKw reg) _ :: r =>
                                      match x, reg with
                                      | true, WX | false, WY => Some (SForReg x e0 e1 up b, r)
                                      | _, _ => None
                                      end
                                  | _ => None
                                  end)))
                              | None => None
                              end
                          | _ => None
                          end)
                      | _, _ => None
                      end
                  | _ =>
                      bindp (p_name r) (fun s r =>
                      match p_asg r with
                      | None => None
                      | Some r =>
                          bindp (p_sub r) (fun e0 r =>
                          match r with
                          | LTok (TkKw WTo) _ :: r =>
                              bindp (p_sub r) (fun e1 r =>
                              bindp (match r with
                                     | LTok (TkKw WStep) _ :: r => bindp (p_sub r) (fun e r => Some (Some e, r))
                                     | _ => Some (None, r)
                                     end) (fun st r =>
                              bindp (p_kw k_eol r) (fun _ r =>
                              bindp (body r) (fun b r =>
                              match r with
                              | LTok (TkKw WNext) _ :: r =>
                                  bindp (p_name r) (fun nx r => Some (SFor s e0 e1 st b nx, r))
                              | _ => None
                              end))))
                          | _ => None
                          end)
                      end)
                  end
              | WMacro =>
                  match r with
                  | LTok (TkName s _) _ :: r =>
                      bindp (body r) (fun b r =>
                      match r with LTok (TkKw WEndMacro) _ :: r => Some (SMacro s b, r) | _ => None end)
                  | _ => None
                  end
              | _ => None
              end
          | _ => None
          end
      | [] => None
      end
  end
(** stmt_list: statements with their EOLs, up to a closing keyword *)
with p_body (fuel : nat) (l : toks) : pres (list (Z * stmt)) :=
  match fuel with
  | O => None
  | S f =>
      match p_stmt f l with
      | Some (st, r) =>
          match p_eol r with
          | None => None
          | Some (n, r2) =>
              if ends_body r2 then Some ([(n, st)], r2)
              else match p_body f r2 with Some (b, r3) => Some ((n, st) :: b, r3) | None => None end
          end
      | None => None
      end
  end.

(** drop everything up to and including the next EOL *)
Fixpoint skip_line (l : toks) : Z * toks :=
  match l with
  | [] => (0, [])
  | LTok (TkKw WEol) n :: r => (n, r)
  | _ :: r => skip_line r
  end.

Definition stmt_eol (l : toks) : option (stmt * Z * toks) :=
  match p_stmt (2 * S (List.length l)) l with
  | Some (st, r) => match p_eol r with Some (n, r2) => Some (st, n, r2) | None => None end
  | None => None
  end.
Definition args_eol (l : toks) : option (list item * Z * toks) :=
  match p_eol l with
  | Some (n, r) => Some ([], n, r)
  | None => match p_list l with
            | Some (a, r) => match p_eol r with Some (n, r2) => Some (a, n, r2) | None => None end
            | None => None
            end
  end.

(** one statement at the top level *)
Definition p_top (l : toks) : sline * toks :=
  let bad := let '(n, r) := skip_line l in (SrcLine (mkLine n None SBad None), r) in
  let plain := match stmt_eol l with
               | Some (st, n, r) => (SrcLine (mkLine n None st None), r)
               | None => bad
               end in
  let labelled s (r : toks) :=
    match p_asg r with
    | Some _ => plain
    | None =>
        match stmt_eol r, args_eol r with
        | Some (st, n, r2), a => (SrcLine (mkLine n (Some s) st (option_map (fun x => fst (fst x)) a)), r2)
        | None, Some (a, n, r2) => (SrcLine (mkLine n (Some s) SBad (Some a)), r2)
        | None, None => let '(n, r2) := skip_line r in (SrcLine (mkLine n (Some s) SBad None), r2)
        end
    end in
  match l with
  | LTok (TkName s _) _ :: r => labelled s r
  | LTok (TkPm s true) _ :: r => labelled s r
  | LTok (TkKw (WIfdef neg s)) _ :: r => (SrcIf neg s, snd (skip_line r))
  | LTok (TkKw WElse) n :: r => (SrcElse n, snd (skip_line r))
  | LTok (TkKw WEndif) n :: r => (SrcEndif n, snd (skip_line r))
  | _ => plain
  end.

Fixpoint p_file (fuel : nat) (l : toks) : list sline :=
  match fuel with
  | O => []
  | S f => match l with [] => [] | _ => let '(s, r) := p_top l in s :: p_file f r end
  end.

(** a source text.  Text without a final newline ends in an incomplete statement, a syntax error. *)
Definition parse_text (s : cstr) : list sline := let l := tokens s in p_file (S (List.length l)) l.
