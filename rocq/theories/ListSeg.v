(** The list file of a program that sets the program counter more than once. *)
From Coq Require Import String Lia.
From Verif Require Import Base BaseProofs Opcodes State Machine File FileProofs Eol Layout List ListRel ListProofs ListFile ListLines ListBeside ListAddr Frag FragSeg.
Open Scope string_scope.
Open Scope list_scope.
Open Scope Z_scope.

(** the bytes of the lines, each with its address *)
Definition image (ch : list (Z * Z * list Z)) : list (Z * Z) := concat (map (fun c => let '(_, a, b) := c in from a b) ch).
Definition by_line (ch : list (Z * Z * list Z)) : list (Z * list Z) := map (fun c => let '(n, _, b) := c in (n, b)) ch.
Lemma image_app a : forall b x y, read_image a = Some x -> read_image b = Some y -> read_image (a ++ b) = Some (x ++ y).
Proof.
  induction a as [|t a IH]; intros b x y; cbn [app read_image]; [intros [= <-]; auto|]. destruct (read_cells t) as [c|]; [|discriminate].
  destruct (read_image a) as [d|]; [|discriminate]. intros [= <-] E. rewrite (IH b d y eq_refl E), app_assoc. reflexivity.
Qed.
Lemma image_none k : Forall (fun r => l_body r = LNone) k -> read_image (map (fun r => body_text (l_body r)) k) = Some [].
Proof. induction 1 as [|r k E _ IH]; [reflexivity|]. cbn [map read_image]. rewrite E, IH. reflexivity. Qed.
Lemma image_spreads ch k : spreads ch k -> Forall (fun r => shaped (l_body r) /\ unpadded (l_body r)) k ->
  read_image (map (fun r => body_text (l_body r)) k) = Some (image ch).
Proof.
  induction 1 as [k K|n a b ch k0 k1 k2 K0 K1 K2 K3 S IH]; intros U; [apply image_none, K|].
  apply Forall_app in U as [_ U]. apply Forall_app in U as [U1 U2]. rewrite !map_app. unfold image. cbn [map concat].
  apply (image_app _ _ []); [apply image_none, K0|]. apply image_app; [rewrite <- K2; apply image_records; auto|exact (IH U2)].
Qed.
Lemma spreads_spread ch k : spreads ch k -> spread (by_line ch) k.
Proof. induction 1 as [k K|n a b ch k0 k1 k2 K0 K1 K2 K3 S IH]; [constructor; exact K|]. cbn [by_line map]. constructor; auto. Qed.
Section Files.
Variable rd : cstr -> option cstr.
Hypothesis Hrd : forall a b, stricmp a b = 0 -> rd a = rd b.
Theorem list_image_segments rs ps ch : Forall (stated 1) rs -> Forall (placed rd) rs -> generate_list_file rd rs = Some ps ->
  (forall t, In t (columns ps) -> ~ within (cs " $00.db") t) -> spreads ch rs -> read_image (columns ps) = Some (image ch).
Proof.
  intros S P E N A. rewrite image_filled, (list_columns rd Hrd rs ps S P E), image_bears. apply image_spreads; [exact A|exact (rows_unpadded rd Hrd rs ps S P E N)].
Qed.
End Files.
