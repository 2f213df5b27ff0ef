(** Properties of the scanner and of the expression grammar (C17, C45). *)
From Coq Require Import String.
From Verif Require Import Base Str Opcodes State Lexer Parser ExprShape ParseProofs LexProofs SourceEx.
Open Scope string_scope.
Open Scope list_scope.
Open Scope Z_scope.

(** * C17: operator precedence *)

(** a text is read with exactly the declared grouping, whatever follows that cannot continue it *)
Theorem C17_declared_grouping : forall t l rest,
  grouped t -> text l = flat t -> match rest with [] => True | LTok k _ :: _ => may_follow k end ->
  p_sub (l ++ rest) = Some (meant t, rest).
Proof. exact grouped_sub. Qed.
Print Assumptions C17_declared_grouping.

(** and every chain of operands and binary operators has such a grouping *)
Theorem C17_every_chain : forall a ops l rest,
  operand a -> grouped a ->
  Forall (fun x => level (fst x) <> None /\ operand (snd x) /\ grouped (snd x)) ops ->
  text l = flat a ++ flat_map (fun x => spell (fst x) :: flat (snd x)) ops ->
  match rest with [] => True | LTok k _ :: _ => may_follow k end ->
  exists t, grouped t /\ flat t = text l /\ p_sub (l ++ rest) = Some (meant t, rest).
Proof. exact chain_parses. Qed.
Print Assumptions C17_every_chain.

(** which is unique *)
Theorem C17_unique : forall t u, grouped t -> grouped u -> flat t = flat u -> meant t = meant u.
Proof. exact grouped_unique. Qed.
Print Assumptions C17_unique.

(** 1 + 2 * 3 - a << 4 | \1 is ((1 + (2 * 3)) - a) << (4 | \1) *)
Example C17_example :
  grouped ex_chain /\
  p_sub (tokens (cs "1 + 2 * 3 - a << 4 | \1 , 5")) =
  Some (EBin OShl (EBin OMinus (EBin OPlus (EInt 1) (EBin OMul (EInt 2) (EInt 3))) (ESym (cs "a")))
                  (EBin OBitOr (EInt 4) (ESym (cs "\1"))),
        [LTok (TkCh 44) 0; LTok (TkInt 5) 0]).
Proof. exact ex_chain_ok. Qed.
(** < a + 1 is <(a + 1), and 1 - 2 - 3 is (1 - 2) - 3 *)
Example C17_example_prefix :
  p_sub (tokens (cs "<a + 1")) = Some (EUn OLo (EBin OPlus (ESym (cs "a")) (EInt 1)), []) /\
  p_sub (tokens (cs "1 - 2 - 3")) = Some (EBin OMinus (EBin OMinus (EInt 1) (EInt 2)) (EInt 3), []).
Proof. exact ex_prefix_ok. Qed.

(** * C45: number literals.  [as_int v] is (int) of the long that strtol returns for the digits of [v]. *)

Theorem C45_hexadecimal : forall f cs ds rest last dc ln,
  writes 16 cs ds -> next_not (fun c => exists d, digit_is c d) rest ->
  scan (S f) ((36 :: cs) ++ rest) last dc ln =
  LTok (TkInt (as_int (positional 16 ds))) ln :: scan f rest (Some 36) dc ln.
Proof. exact scan_hex. Qed.
Print Assumptions C45_hexadecimal.

Theorem C45_binary : forall f cs ds rest last dc ln,
  writes 2 cs ds -> next_not (fun c => c = 48 \/ c = 49) rest ->
  scan (S f) ((37 :: cs) ++ rest) last dc ln =
  LTok (TkInt (as_int (positional 2 ds))) ln :: scan f rest (Some 37) dc ln.
Proof. exact scan_bin. Qed.
Print Assumptions C45_binary.

Theorem C45_binary_0b : forall f b cs ds rest last dc ln,
  is_b b -> writes 2 cs ds -> next_not (fun c => c = 48 \/ c = 49) rest ->
  scan (S f) ((48 :: b :: cs) ++ rest) last dc ln =
  LTok (TkInt (as_int (positional 2 ds))) ln :: scan f rest (Some 48) dc ln.
Proof. exact scan_0b. Qed.
Print Assumptions C45_binary_0b.

Theorem C45_decimal : forall f c cs d ds rest last dc ln,
  writes 10 (c :: cs) (d :: ds) -> next_not (fun x => 48 <= x <= 57 \/ is_b x) rest ->
  scan (S f) ((c :: cs) ++ rest) last dc ln =
  LTok (TkInt (as_int (positional 10 (d :: ds)))) ln :: scan f rest (Some c) dc ln.
Proof. exact scan_dec. Qed.
Print Assumptions C45_decimal.

Theorem C45_character : forall f c rest last dc ln,
  c <> 10 -> c <> 92 -> 0 <= c < 256 ->
  scan (S f) ([39; c; 39] ++ rest) last dc ln = LTok (TkInt c) ln :: scan f rest (Some 39) dc ln.
Proof. exact scan_char. Qed.
Print Assumptions C45_character.

Theorem C45_escape : forall f c v rest last dc ln,
  In (c, v) [(110, 10); (116, 9); (114, 13); (97, 7); (98, 8); (102, 12); (118, 11); (92, 92); (39, 39); (34, 34)] ->
  scan (S f) ([39; 92; c; 39] ++ rest) last dc ln = LTok (TkInt v) ln :: scan f rest (Some 39) dc ln.
Proof. exact scan_escape. Qed.
Print Assumptions C45_escape.

Theorem C45_hex_character : forall f x c cs d ds rest last dc ln,
  x = 120 \/ x = 88 -> writes 16 (c :: cs) (d :: ds) ->
  scan (S f) ((39 :: [92; x] ++ (c :: cs) ++ [39]) ++ rest) last dc ln =
  LTok (TkInt (as_int (positional 16 (d :: ds)))) ln :: scan f rest (Some 39) dc ln.
Proof. exact scan_hexchar. Qed.
Print Assumptions C45_hex_character.

(** the positional value itself when it fits a C int *)
Theorem C45_fits : forall v, 0 <= v < 2 ^ 31 -> as_int v = v.
Proof. exact as_int_fits. Qed.
Print Assumptions C45_fits.

(** a larger literal silently becomes another number *)
Theorem C45_overflow_refuted : exists cs ds,
  writes 10 cs ds /\ positional 10 ds = 4294967301 /\ tokens cs = [LTok (TkInt 5) 0].
Proof. exact ex_overflow. Qed.
Print Assumptions C45_overflow_refuted.

Example C45_example :
  writes 16 (cs "1aF") [1; 10; 15] /\ positional 16 [1; 10; 15] = 431 /\
  tokens (cs "$1aF,%101 0b11 250 'A' '\n' '\x41'") =
  [LTok (TkInt 431) 0; LTok (TkCh 44) 0; LTok (TkInt 5) 0; LTok (TkInt 3) 0; LTok (TkInt 250) 0; LTok (TkInt 65) 0;
   LTok (TkInt 10) 0; LTok (TkInt 65) 0].
Proof. exact ex_literals. Qed.
