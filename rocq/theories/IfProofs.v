(** The .IF directive (proofs for C70). *)
From Coq Require Import String Lia.
From Verif Require Import Base Str Opcodes Err State Sym Machine Build Pass Prog LoopProofs.
Open Scope string_scope.
Open Scope list_scope.
Open Scope Z_scope.

Lemma node_if F n c t el s : s_stop s = false -> nth_error (s_nodes s) n = Some (mkNode (KOpr OIf) ([c; t] ++ el)) ->
  expand (S F) n s =
  match expand F c s with
  | Ok v s1 =>
      match (if v =? 0 then hd_error el else Some t) with
      | Some b => match expand F b s1 with Ok _ s2 => Ok 0 s2 | Exit k s2 => Exit k s2 | Ub u => Ub u | OutOfFuel => OutOfFuel end
      | None => Ok 0 s1
      end
  | Exit k s1 => Exit k s1 | Ub u => Ub u | OutOfFuel => OutOfFuel
  end.
Proof.
  intros St N. rewrite (expand_node _ _ _ _ St N). unfold x_node. cbn [n_kind]. unfold x_opr, x_if, opn. cbn [n_ops app nth_error].
  unfold bind at 1, ret at 1. unfold bind at 1. destruct (expand F c s) as [v s1| | |]; auto. destruct (v =? 0).
  - destruct el as [|b el]; cbn [nth_error hd_error]; [reflexivity|]. unfold bind, ret. destruct (expand F b s1); reflexivity.
  - unfold bind, ret. destruct (expand F t s1); reflexivity.
Qed.
