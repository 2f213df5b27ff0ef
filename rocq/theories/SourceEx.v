(** Concrete texts for the theorems of Prop_Source.v. *)
From Coq Require Import String Lia.
From Verif Require Import Base Str Opcodes State Lexer Parser ExprShape LexProofs.
Open Scope string_scope.
Open Scope list_scope.
Open Scope Z_scope.

Definition ex_chain : tree :=
  TBin OShl (TBin OMinus (TBin OPlus (TInt 1) (TBin OMul (TInt 2) (TInt 3))) (TName (cs "a") false))
            (TBin OBitOr (TInt 4) (TPar (cs "\1"))).
Lemma ex_chain_ok :
  grouped ex_chain /\
  p_sub (tokens (cs "1 + 2 * 3 - a << 4 | \1 , 5")) =
  Some (EBin OShl (EBin OMinus (EBin OPlus (EInt 1) (EBin OMul (EInt 2) (EInt 3))) (ESym (cs "a")))
                  (EBin OBitOr (EInt 4) (ESym (cs "\1"))),
        [LTok (TkCh 44) 0; LTok (TkInt 5) 0]).
Proof.
  split; [|vm_compute; reflexivity].
  cbn. repeat split; auto; eexists; (split; [reflexivity|]); split; auto; eexists; (split; [reflexivity|]); lia.
Qed.
Lemma ex_prefix_ok :
  p_sub (tokens (cs "<a + 1")) = Some (EUn OLo (EBin OPlus (ESym (cs "a")) (EInt 1)), []) /\
  p_sub (tokens (cs "1 - 2 - 3")) = Some (EBin OMinus (EBin OMinus (EInt 1) (EInt 2)) (EInt 3), []).
Proof. split; vm_compute; reflexivity. Qed.
Lemma ex_overflow : exists cs ds,
  writes 10 cs ds /\ positional 10 ds = 4294967301 /\ tokens cs = [LTok (TkInt 5) 0].
Proof.
  exists (cs "4294967301"), [4; 2; 9; 4; 9; 6; 7; 3; 0; 1]. split; [|split; vm_compute; reflexivity].
  unfold writes. cbn. repeat (constructor; [split; [left; lia|lia]|]). constructor.
Qed.
Lemma ex_literals :
  writes 16 (cs "1aF") [1; 10; 15] /\ positional 16 [1; 10; 15] = 431 /\
  tokens (cs "$1aF,%101 0b11 250 'A' '\n' '\x41'") =
  [LTok (TkInt 431) 0; LTok (TkCh 44) 0; LTok (TkInt 5) 0; LTok (TkInt 3) 0; LTok (TkInt 250) 0; LTok (TkInt 65) 0;
   LTok (TkInt 10) 0; LTok (TkInt 65) 0].
Proof.
  split; [|split; vm_compute; reflexivity]. unfold writes. cbn.
  repeat (constructor; [split; [unfold digit_is; lia|lia]|]). constructor.
Qed.
