(** Specification of the expression syntax: how an infix text is to be grouped, without regard to how it is parsed.
    Levels and associativity are those declared in CMakePasm/source/pasm.y:56-64 (%left for every binary operator). *)
From Verif Require Import Base State Lexer.
Open Scope list_scope.
Open Scope Z_scope.

(** the binary operators: their level (a higher level binds tighter) and their token *)
Definition level (o : opr) : option Z :=
  match o with
  | OShl | OShr => Some 1
  | OOr | OAnd | OGe | OLe | OEq | ONe | OGt | OLt => Some 2
  | OBitOr | OBitAnd | OXor => Some 3
  | OPlus | OMinus => Some 4
  | OMul | ODiv => Some 5
  | _ => None
  end.
Definition spell (o : opr) : tok :=
  match o with
  | OShl => TkKw WShl | OShr => TkKw WShr | OOr => TkKw WOr | OAnd => TkKw WAnd | OGe => TkKw WGe | OLe => TkKw WLe
  | OEq => TkKw WEq | ONe => TkKw WNe | OGt => TkCh 62 | OLt => TkCh 60 | OBitOr => TkKw WBitor
  | OBitAnd => TkKw WBitand | OXor => TkCh 94 | OPlus => TkCh 43 | OMinus => TkCh 45 | OMul => TkCh 42
  | ODiv => TkCh 47
  | OCompl => TkCh 126 | OLo => TkCh 60 | OHi => TkCh 62 | ONot => TkKw WNot      (* prefix operators *)
  | _ => TkBad
  end.
Definition is_prefix (o : opr) : Prop := In o [OCompl; OLo; OHi; ONot].

(** a text with its grouping *)
Inductive tree :=
| TInt (v : Z) | TNeg (v : Z)                     (* 5   -5 *)
| TName (s : cstr) (first : bool) | TPar (s : cstr) | TPm (s : cstr)     (* name   \1   ++ *)
| TMinus | TPlus | TPc                            (* the labels - and +, the program counter * *)
| TParen (t : tree) | TNegParen (t : tree)        (* (t)   -(t) *)
| TPre (o : opr) (t : tree)                       (* ~t <t >t NOT t *)
| TBin (o : opr) (l r : tree).

(** the tokens of the text *)
Fixpoint flat (t : tree) : list tok :=
  match t with
  | TInt v => [TkInt v] | TNeg v => [TkCh 45; TkInt v]
  | TName s b => [TkName s b] | TPar s => [TkPar s] | TPm s => [TkPm s false]
  | TMinus => [TkCh 45] | TPlus => [TkCh 43] | TPc => [TkCh 42]
  | TParen t => TkCh 40 :: flat t ++ [TkCh 41]
  | TNegParen t => TkCh 45 :: TkCh 40 :: flat t ++ [TkCh 41]
  | TPre o t => spell o :: flat t
  | TBin o l r => flat l ++ spell o :: flat r
  end.

(** the expression meant by the grouping *)
Fixpoint meant (t : tree) : expr :=
  match t with
  | TInt v => EInt v | TNeg v => EUn OUminus (EInt v)
  | TName s _ | TPar s | TPm s => ESym s
  | TMinus => ESym [45] | TPlus => ESym [43] | TPc => EPc
  | TParen t => meant t
  | TNegParen t => EUn OUminus (meant t)
  | TPre o t => EUn o (meant t)
  | TBin o l r => EBin o (meant l) (meant r)
  end.

(** [at_least p t]: no operator of [t] outside parentheses and prefix operands binds weaker than [p] at its top *)
Definition at_least (p : Z) (t : tree) : Prop :=
  match t with TBin o _ _ => exists q, level o = Some q /\ p <= q | _ => True end.
(** the text of [t] does not end in the operand of a prefix operator, which would take in what follows *)
Fixpoint ended (t : tree) : Prop :=
  match t with TPre _ _ => False | TBin _ _ r => ended r | _ => True end.

(** the grouping follows the declarations: the left operand binds at least as tight, the right operand tighter
    (left associativity), and a prefix operator takes everything to its right up to the closing parenthesis *)
Fixpoint grouped (t : tree) : Prop :=
  match t with
  | TParen t | TNegParen t => grouped t
  | TPre o t => is_prefix o /\ grouped t
  | TBin o l r => grouped l /\ grouped r /\ ended l /\
                  exists p, level o = Some p /\ at_least p l /\ at_least (p + 1) r
  | _ => True
  end.

(** what may follow an expression: not a binary operator, and neither a number nor "(" (which would join a
    final "-") *)
Definition may_follow (t : tok) : Prop :=
  (forall o p, level o = Some p -> t <> spell o) /\ (forall v, t <> TkInt v) /\ t <> TkCh 40.

Definition text (l : list ltok) : list tok := map (fun x => match x with LTok t _ => t end) l.
