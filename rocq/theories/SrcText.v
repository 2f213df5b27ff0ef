(** How tokens, expressions, statements and lines are written in a source text, without regard to how the text is read.
    The spellings are those of CMakePasm/source/pasm.l:57-428 and CMakePasm/source/pasm.y:69-245. *)
From Coq Require Import String.
From Verif Require Import Base Str CNum Opcodes State Lexer LexProofs ExprShape.
Open Scope string_scope.
Open Scope list_scope.
Open Scope Z_scope.

(** ** Characters and names *)
Definition letter (c : Z) : Prop := 65 <= c <= 90 \/ 97 <= c <= 122.
Definition digit (c : Z) : Prop := 48 <= c <= 57.
Definition blank_ch (c : Z) : Prop := c = 32 \/ c = 9.
(** characters inside a name *)
Definition name_char (c : Z) : Prop := letter c \/ digit c \/ c = 95 \/ c = 46.
(** ... or right behind one, where a colon belongs to the name *)
Definition word_char (c : Z) : Prop := name_char c \/ c = 58.
(** alike but for case *)
Definition same_text (a b : cstr) : Prop := map tolower a = map tolower b.
(** a name: a letter or _, then letters, digits, _ and dots; a local name has @ in front *)
Definition is_name (w : cstr) : Prop :=
  exists a c r, w = a ++ c :: r /\ (a = [] \/ a = [64]) /\ (letter c \/ c = 95) /\ Forall name_char r.
(** words that are no names: the mnemonics, NOT, X and Y *)
Definition reserved (w : cstr) : Prop :=
  (exists v i, In (v, i) op_table /\ same_text w (cs v)) \/ same_text w (cs "NOT") \/ same_text w (cs "X") \/ same_text w (cs "Y").

(** ** Tokens *)
Definition words : list (string * kw) :=
  [("NOT", WNot); ("X", WX); ("Y", WY); (".BYTE", WByte); (".DB", WByte); (".WORD", WWord); (".DW", WWord); (".DCW", WWord);
   (".STR", WStr); (".TEXT", WStr); (".STRING", WStr); (".DS", WDs); (".FILL", WFill); (".ORG", WOrg); (".EQU", WEqu); (".VAR", WVar);
   (".IF", WIf); (".ELSE", WElse); (".ENDIF", WEndif); (".REPEAT", WRepeat); (".UNTIL", WUntil); (".WEND", WWend);
   (".FOR", WFor); (".TO", WTo); (".DOWNTO", WDownto); (".STEP", WStep); (".NEXT", WNext); (".REGX", WRegx); (".REGY", WRegy);
   (".MACRO", WMacro); (".MAC", WMacro); (".ENDMACRO", WEndMacro); (".ENDM", WEndMacro);
   (".SECTION", WSection); (".SECT", WSection); (".ENDSECTION", WEndSection); (".ENDS", WEndSection);
   (".INC", WInc); (".LOAD", WLoad); (".END", WEnd); (".C64", WC64)].
(** operators and punctuation: the text, the token, the characters that would belong to a longer one *)
Definition marks : list (string * tok * string) :=
  [("#", TkCh 35, ""); (",", TkCh 44, ""); ("(", TkCh 40, ""); (")", TkCh 41, ""); ("~", TkCh 126, ""); ("^", TkCh 94, "");
   ("/", TkCh 47, "/*"); ("<", TkCh 60, "<=>"); (">", TkCh 62, ">="); ("=", TkCh 61, "="); ("|", TkKw WBitor, "|+-");
   ("||", TkKw WOr, "|+-"); ("&", TkKw WBitand, "&"); ("&&", TkKw WAnd, ""); ("<<", TkKw WShl, ""); (">>", TkKw WShr, "");
   (">=", TkKw WGe, ""); ("<=", TkKw WLe, ""); ("==", TkKw WEq, ""); ("!=", TkKw WNe, ""); ("<>", TkKw WNe, "");
   ("?", TkKw WPrint, "?"); ("??", TkKw WPrintAll, "")].

(** [lexeme first rest w t]: [w], with [rest] behind it, is the token [t]; [first]: nothing stands before it on its line *)
Inductive lexeme (first : bool) (rest : cstr) : cstr -> tok -> Prop :=
| LxHex cs ds : writes 16 cs ds -> positional 16 ds < 2 ^ 31 -> next_not (fun c => exists d, digit_is c d) rest ->
    lexeme first rest (36 :: cs) (TkInt (positional 16 ds))
| LxBin cs ds : writes 2 cs ds -> positional 2 ds < 2 ^ 31 -> next_not (fun c => c = 48 \/ c = 49) rest ->
    lexeme first rest (37 :: cs) (TkInt (positional 2 ds))
| LxDec cs ds : writes 10 cs ds -> cs <> [] -> positional 10 ds < 2 ^ 31 -> next_not (fun c => digit c \/ c = 98 \/ c = 66) rest ->
    lexeme first rest cs (TkInt (positional 10 ds))
| LxChar c : c <> 10 -> c <> 92 -> 0 <= c < 256 -> lexeme first rest [39; c; 39] (TkInt c)
| LxQuote c : c <> 10 -> c <> 92 -> c <> 34 -> 0 <= c < 256 -> next_not (fun c => c = 34) rest -> lexeme first rest [34; c; 34] (TkInt c)
| LxOp w v i : In (v, i) op_table -> same_text w (cs v) -> next_not word_char rest -> lexeme first rest w (TkOp i)
| LxName w : is_name w -> ~ reserved w -> next_not word_char rest -> lexeme first rest w (TkName w first)
| LxColon w : is_name w -> lexeme first rest (w ++ [58]) (TkName (w ++ [58]) first)
| LxWord w v k : In (v, k) words -> same_text w (cs v) -> next_not word_char rest -> lexeme first rest w (TkKw k)
| LxMark v t no : In (v, t, no) marks -> next_not (fun c => In c (cs no)) rest -> lexeme first rest (cs v) t
| LxSign c : first = false -> c = 43 \/ c = 45 -> next_not (fun c => In c (cs "|+-")) rest -> lexeme first rest [c] (TkCh c)
| LxRun w : first = false -> (2 <= List.length w)%nat -> Forall (fun c => c = 43 \/ c = 45) w -> next_not (fun c => In c (cs "|+-")) rest ->
    lexeme first rest w (TkPm w false)
| LxIfdef w v neg b x : In (v, neg) [(".IFDEF", false); (".IFNDEF", true)] -> same_text w (cs v) -> b <> [] -> Forall blank_ch b -> is_name x -> next_not name_char rest ->
    lexeme first rest (w ++ b ++ x) (TkKw (WIfdef neg x))
| LxStar : (forall b r, rest = b ++ r -> Forall blank_ch b -> next_not (fun c => c = 61 \/ c = 46) r) -> lexeme first rest [42] (TkCh 42)
| LxPar d ds : 49 <= d <= 57 -> Forall digit ds -> next_not digit rest -> lexeme first rest (92 :: d :: ds) (TkPar (92 :: d :: ds))
| LxStr cs : Forall (fun c => c <> 34 /\ c <> 92 /\ c <> 10) cs -> List.length cs <> 1%nat -> next_not (fun c => c = 34) rest ->
    lexeme first rest (34 :: cs ++ [34]) (TkStr (34 :: cs ++ [34])).

(** [lexed first d n ts s]: the text [s], which begins on line [n] + 1, is the tokens [ts]; [first]: at the start of a line;
    [d] counts the .DO that wait for their .WHILE.  A token carries the number of lines before it, an end of line that of
    the lines up to it. *)
Inductive lexed : bool -> Z -> Z -> list ltok -> cstr -> Prop :=
| LexEnd f d n : lexed f d n [] []
| LexBlank f d n ts c rest : blank_ch c -> lexed f d n ts rest -> lexed f d n ts (c :: rest)
| LexComment f d n ts cs rest : Forall (fun c => c <> 10) cs -> next_not (fun c => c <> 10) rest -> lexed f d n ts rest ->
    lexed f d n ts (59 :: cs ++ rest)
| LexSlash f d n ts cs rest : Forall (fun c => c <> 10) cs -> next_not (fun c => c <> 10) rest -> lexed f d n ts rest ->
    lexed f d n ts (47 :: 47 :: cs ++ rest)
| LexRemark f d n ts cs rest : (forall a b, cs ++ [42; 47] = a ++ 42 :: 47 :: b -> b = []) -> lexed false d (n + lines_in cs) ts rest ->
    lexed f d n ts (47 :: 42 :: cs ++ 42 :: 47 :: rest)
| LexEol f d n ts rest : lexed true d (n + 1) ts rest -> lexed f d n (LTok (TkKw WEol) (n + 1) :: ts) (10 :: rest)
| LexTok f d n ts w t rest : lexeme f rest w t -> lexed false d n ts rest -> lexed f d n (LTok t n :: ts) (w ++ rest)
| LexLabel d n ts w rest : 0 < n -> w <> [] -> Forall (fun c => c = 43 \/ c = 45) w -> next_not (fun c => In c (cs "|+-")) rest -> lexed false d n ts rest ->
    lexed true d n (LTok (TkPm w true) n :: ts) (w ++ rest)
| LexPc f d n ts b rest : Forall blank_ch b -> lexed false d n ts rest ->
    lexed f d n (LTok (TkKw WPcAssign) n :: LTok (TkCh 61) n :: ts) (42 :: b ++ 61 :: rest)
| LexDo f d n ts w rest : same_text w (cs ".DO") -> next_not word_char rest -> lexed false (d + 1) n ts rest ->
    lexed f d n (LTok (TkKw WDo) n :: ts) (w ++ rest)
| LexWhile f d n ts w rest : same_text w (cs ".WHILE") -> next_not word_char rest -> d <= 0 -> lexed false d n ts rest ->
    lexed f d n (LTok (TkKw WWhile) n :: ts) (w ++ rest)
| LexEnddo f d n ts w rest : same_text w (cs ".WHILE") -> next_not word_char rest -> 0 < d -> lexed false (d - 1) n ts rest ->
    lexed f d n (LTok (TkKw WEnddo) n :: ts) (w ++ rest).
