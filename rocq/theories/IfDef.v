(** Model of the conditional-assembly part of the lexer, pasm.l:158-249.
    The source is a list of lexemes; everything that is not a conditional
    directive is a [LText].  [LIfdef b] is ".IFDEF sym" / ".IFNDEF sym" with b
    the outcome of its test (look_up_symbol(p) != NULL, resp. == NULL) at the time
    the directive is met in state INITIAL; in state IF_DEF flex matches only
    its prefix ".IF".  Simplifications: the listing call generate_list_node(NULL)
    is left out; in state IF_DEF a ".IF" also matches inside longer words such
    as ".IFX" (not representable here). *)
From Verif Require Import Base.

Inductive lexeme := LText (t : Z) | LIfdef (b : bool) | LIf | LElse | LEndif.

(** token returned to the parser *)
Inductive otok := OText (t : Z) | OIf | OElse | OEndif.

(** lexer state: [skip] = start condition IF_DEF; [stk] = ifdef_stack (top first) *)
Record lst := mkLst { skip : bool; stk : list Z }.

(** outcome: next state and tokens; [None] = stack top/pop on an empty stack
    (assertion failure in stacks.cc) *)
Definition lex_step (s : lst) (l : lexeme) : option (lst * list otok) :=
  if skip s then
    match l with
    | LText _ => Some (s, [])
    | LIfdef _ | LIf => Some (mkLst true (1 :: stk s), [])
    | LElse => match stk s with
               | [] => None
               | t :: _ => Some (mkLst (negb (t =? 0)) (stk s), [])
               end
    | LEndif => match stk s with
                | [] => None
                | _ :: r => Some (mkLst (match r with [] => false | _ => true end) r, [])
                end
    end
  else
    match l with
    | LText t => Some (s, [OText t])
    | LIfdef b => Some (mkLst (negb b) (0 :: stk s), [])
    | LIf => Some (mkLst false (1 :: stk s), [OIf])
    | LElse => match stk s with
               | [] => None
               | t :: _ => if t =? 0 then Some (mkLst true (stk s), []) else Some (s, [OElse])
               end
    | LEndif => match stk s with
                | [] => Some (s, [OEndif])
                | t :: r => Some (mkLst false r, if t =? 0 then [] else [OEndif])
                end
    end.

Fixpoint lex_run (s : lst) (ls : list lexeme) : option (lst * list otok) :=
  match ls with
  | [] => Some (s, [])
  | l :: ls' =>
      match lex_step s l with
      | None => None
      | Some (s1, o1) =>
          match lex_run s1 ls' with
          | None => None
          | Some (s2, o2) => Some (s2, o1 ++ o2)
          end
      end
  end.
