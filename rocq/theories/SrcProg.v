(** How operands, statements, blocks and lines are written as tokens, without regard to how they are parsed.
    The forms are those of CMakePasm/source/pasm.y:69-245. *)
From Coq Require Import String.
From Verif Require Import Base State Lexer ExprShape SrcText.
Open Scope list_scope.
Open Scope Z_scope.

(** the tokens of an expression, a list of expressions and strings *)
Definition written (t : tree) (l : list ltok) : Prop := grouped t /\ text l = flat t.
Inductive item_of : item -> list ltok -> Prop :=
| ItStr s n : item_of (IStr s) [LTok (TkStr s) n]
| ItExpr t l : written t l -> item_of (IExpr (meant t)) l.
Inductive items_of : list item -> list ltok -> Prop :=
| ItLast i l : item_of i l -> items_of [i] l
| ItMore i is_ l n r : item_of i l -> items_of is_ r -> items_of (i :: is_) (l ++ LTok (TkCh 44) n :: r).

Definition kwt (k : kw) (n : Z) : ltok := LTok (TkKw k) n.
Definition cht (c : Z) (n : Z) : ltok := LTok (TkCh c) n.
(** = or .EQU *)
Definition sets (x : ltok) : Prop := exists n, x = cht 61 n \/ x = kwt WEqu n.
(** a name, a macro parameter, a run of + or - *)
Inductive named : cstr -> ltok -> Prop :=
| NmName s f n : named s (LTok (TkName s f) n)
| NmPar s n : named s (LTok (TkPar s) n)
| NmPm s n : named s (LTok (TkPm s false) n).

(** ** Operands *)
Inductive operand_of : opform -> list ltok -> Prop :=
| OpImp : operand_of FImp []
| OpImm t l n : written t l -> operand_of (FImm (meant t)) (cht 35 n :: l)
| OpAbs t l : written t l -> meant t <> EPc -> (forall u, t <> TParen u) -> operand_of (FAbs (meant t)) l
| OpAbsX t l n m : written t l -> meant t <> EPc -> (forall u, t <> TParen u) -> operand_of (FAbsX (meant t)) (l ++ [cht 44 n; kwt WX m])
| OpAbsY t l n m : written t l -> meant t <> EPc -> (forall u, t <> TParen u) -> operand_of (FAbsY (meant t)) (l ++ [cht 44 n; kwt WY m])
| OpInd t l n m : written t l -> operand_of (FInd (meant t)) (cht 40 n :: l ++ [cht 41 m])
| OpIndX t l n m p q : written t l -> operand_of (FIndX (meant t)) (cht 40 n :: l ++ [cht 44 m; kwt WX p; cht 41 q])
| OpIndY t l n m p q : written t l -> operand_of (FIndY (meant t)) (cht 40 n :: l ++ [cht 41 m; cht 44 p; kwt WY q]).

(** the variables of .VAR *)
Inductive var_of : cstr * option expr -> list ltok -> Prop :=
| VaName s x : named s x -> var_of (s, None) [x]
| VaSet s x n t l : named s x -> written t l -> var_of (s, Some (meant t)) (x :: cht 61 n :: l).
Inductive vars_of : list (cstr * option expr) -> list ltok -> Prop :=
| VaLast v l : var_of v l -> vars_of [v] l
| VaMore v vs l n r : var_of v l -> vars_of vs r -> vars_of (v :: vs) (l ++ cht 44 n :: r).

Inductive step_of : option expr -> list ltok -> Prop :=
| StNone : step_of None []
| StSome n t l : written t l -> step_of (Some (meant t)) (kwt WStep n :: l).

(** ** Statements, without the end of their last line, and bodies of blocks: statements with the ends of their lines *)
Inductive stmt_of : stmt -> list ltok -> Prop :=
| StEmpty : stmt_of SEmpty []
| StOp i n o l : operand_of o l -> stmt_of (SOp i o) (LTok (TkOp i) n :: l)
| StAssign s x y t l : named s x -> sets y -> written t l -> stmt_of (SAssign s (meant t)) (x :: y :: l)
| StName s x : named s x -> stmt_of (SName s []) [x]
| StCall s f n a l : items_of a l -> stmt_of (SName s a) (LTok (TkName s f) n :: l)
| StOrg n t l : written t l -> stmt_of (SOrg (meant t)) (kwt WOrg n :: l)
| StDs n t l : written t l -> stmt_of (SDs (meant t)) (kwt WDs n :: l)
| StFill n t l m u r : written t l -> written u r -> stmt_of (SFill (meant t) (meant u)) (kwt WFill n :: l ++ cht 44 m :: r)
| StByte n a l : items_of a l -> stmt_of (SData 1 a) (kwt WByte n :: l)
| StWord n a l : items_of a l -> stmt_of (SData 2 a) (kwt WWord n :: l)
| StStr n a l : items_of a l -> stmt_of (SData 0 a) (kwt WStr n :: l)
| StPrint n : stmt_of (SPrint false []) [kwt WPrint n]
| StPrints n a l : items_of a l -> stmt_of (SPrint false a) (kwt WPrint n :: l)
| StPrintAll n : stmt_of (SPrint true []) [kwt WPrintAll n]
| StPrintAlls n a l : items_of a l -> stmt_of (SPrint true a) (kwt WPrintAll n :: l)
| StPrintOn n : stmt_of (SPrintState 1) [kwt WPrintOn n]
| StPrintOff n : stmt_of (SPrintState 0) [kwt WPrintOff n]
| StSection n s x : named s x -> stmt_of (SSection s) [kwt WSection n; x]
| StEndSection n : stmt_of SEndSection [kwt WEndSection n]
| StEnd n : stmt_of SEnd [kwt WEnd n]
| StInc n s m : stmt_of (SInc s) [kwt WInc n; LTok (TkStr s) m]
| StLoad n s m : stmt_of (SLoad s) [kwt WLoad n; LTok (TkStr s) m]
| StPc n y t l : sets y -> written t l -> stmt_of (SPcAssign (meant t)) (kwt WPcAssign n :: y :: l)
| StVar n v l : vars_of v l -> stmt_of (SVar v) (kwt WVar n :: l)
| StCpu b n : stmt_of (SCpu b) [kwt (WCpu b) n]
| StIllegal b n : stmt_of (SIllegal b) [kwt (WIllegal b) n]
| StC64 n : stmt_of SC64 [kwt WC64 n]
| StIf n t l b r m : written t l -> body_of b r -> stmt_of (SIf (meant t) b None) (kwt WIf n :: l ++ r ++ [kwt WEndif m])
| StIfElse n t l b r m c q k : written t l -> body_of b r -> body_of c q ->
    stmt_of (SIf (meant t) b (Some c)) (kwt WIf n :: l ++ r ++ kwt WElse m :: q ++ [kwt WEndif k])
| StRepeat n m b r k t l : body_of b r -> written t l -> stmt_of (SRepeat b (meant t)) (kwt WRepeat n :: kwt WEol m :: r ++ kwt WUntil k :: l)
| StDo n b r k t l : body_of b r -> written t l -> stmt_of (SDo b (meant t)) (kwt WDo n :: r ++ kwt WEnddo k :: l)
| StWhile n t l m b r k : written t l -> body_of b r -> stmt_of (SWhile (meant t) b) (kwt WWhile n :: l ++ kwt WEol m :: r ++ [kwt WWend k])
| StFor n s x y t l m u p st sl k b r j nx z : named s x -> sets y -> written t l -> written u p -> step_of st sl -> body_of b r -> named nx z ->
    stmt_of (SFor s (meant t) (meant u) st b nx) (kwt WFor n :: x :: y :: l ++ kwt WTo m :: p ++ sl ++ kwt WEol k :: r ++ [kwt WNext j; z])
| StForReg (x up : bool) n m e t l p u q k b r j i : written t l -> written u q -> body_of b r ->
    stmt_of (SForReg x (meant t) (meant u) up b)
      (kwt WFor n :: kwt (if x then WRegx else WRegy) m :: cht 61 e :: l ++ kwt (if up then WTo else WDownto) p :: q ++ kwt WEol k :: r ++ [kwt WNext j; kwt (if x then WX else WY) i])
| StMacro n s f m b r k : body_of b r -> stmt_of (SMacro s b) (kwt WMacro n :: LTok (TkName s f) m :: r ++ [kwt WEndMacro k])
with body_of : list (Z * stmt) -> list ltok -> Prop :=
| BoLast st l n : stmt_of st l -> body_of [(n, st)] (l ++ [kwt WEol n])
| BoMore st l n b r : stmt_of st l -> body_of b r -> body_of ((n, st) :: b) (l ++ kwt WEol n :: r).

(** ** Lines of a file, with their ends *)
(** what can only begin a statement: a mnemonic or a directive *)
Definition begins_stmt (l : list ltok) : Prop := exists t n r, l = LTok t n :: r /\ ((exists i, t = TkOp i) \/ exists k, t = TkKw k).
(** what can only begin an expression or a string *)
Definition begins_arg (l : list ltok) : Prop := exists t n r, l = LTok t n :: r /\ ((exists v, t = TkInt v) \/ (exists c, t = TkCh c) \/ (exists s, t = TkStr s)).
Inductive line_of : sline -> list ltok -> Prop :=
| LnEmpty n : line_of (SrcLine (mkLine n None SEmpty None)) [kwt WEol n]
| LnStmt st l n : stmt_of st l -> begins_stmt l -> line_of (SrcLine (mkLine n None st None)) (l ++ [kwt WEol n])
| LnAssign s x y t l n : named s x -> sets y -> written t l -> line_of (SrcLine (mkLine n None (SAssign s (meant t)) None)) (x :: y :: l ++ [kwt WEol n])
(** a name on its own is a label or a call *)
| LnName s f m n : line_of (SrcLine (mkLine n (Some s) SEmpty (Some []))) [LTok (TkName s f) m; kwt WEol n]
(** a name with a statement behind it is a label *)
| LnLabel s f m st l n : stmt_of st l -> begins_stmt l -> line_of (SrcLine (mkLine n (Some s) st None)) (LTok (TkName s f) m :: l ++ [kwt WEol n])
(** a name with arguments behind it is a call *)
| LnCall s f m a l n : items_of a l -> begins_arg l -> line_of (SrcLine (mkLine n (Some s) SBad (Some a))) (LTok (TkName s f) m :: l ++ [kwt WEol n])
(** a name with a name behind it is a call with that argument, or a label with the call of the second name *)
| LnTwo s f m v g k n : line_of (SrcLine (mkLine n (Some s) (SName v []) (Some [IExpr (ESym v)]))) [LTok (TkName s f) m; LTok (TkName v g) k; kwt WEol n]
(** a call with a name as the first of several arguments *)
| LnCalls s f m v g k j a l n : items_of a l -> line_of (SrcLine (mkLine n (Some s) SBad (Some (IExpr (ESym v) :: a)))) (LTok (TkName s f) m :: LTok (TkName v g) k :: cht 44 j :: l ++ [kwt WEol n])
(** a label of + or - *)
| LnPm s m st l n : stmt_of st l -> begins_stmt l -> line_of (SrcLine (mkLine n (Some s) st None)) (LTok (TkPm s true) m :: l ++ [kwt WEol n])
| LnPmAlone s m n : line_of (SrcLine (mkLine n (Some s) SEmpty (Some []))) [LTok (TkPm s true) m; kwt WEol n]
(** conditional assembly *)
| LnIfdef neg s m n : line_of (SrcIf neg s) [kwt (WIfdef neg s) m; kwt WEol n]
| LnElse m n : line_of (SrcElse m) [kwt WElse m; kwt WEol n]
| LnEndif m n : line_of (SrcEndif m) [kwt WEndif m; kwt WEol n].
Inductive file_of : list sline -> list ltok -> Prop :=
| FiEnd : file_of [] []
| FiLine x l xs r : line_of x l -> file_of xs r -> file_of (x :: xs) (l ++ r).

(** the lines written in a source text *)
Definition reads_as (ls : list sline) (s : cstr) : Prop := exists ts, lexed true 0 0 ts s /\ file_of ls ts.

Scheme stmt_of_mind := Minimality for stmt_of Sort Prop with body_of_mind := Minimality for body_of Sort Prop.
Combined Scheme stmt_body_ind from stmt_of_mind, body_of_mind.
