(** Labels written with a colon: add_symbol drops it (sym.cc, Sym.v). *)
From Coq Require Import String Lia.
From Verif Require Import Base BaseProofs Hash Dict DictProofs DictMore Str State Sym SymProofs.
Open Scope string_scope.
Open Scope list_scope.
Open Scope Z_scope.

(** the name of a label without the colon it may be written with *)
Definition uncolon (t : cstr) : cstr := match rev t with 58 :: r => rev r | _ => t end.
Lemma uncolon_cases t : uncolon t = t \/ t = uncolon t ++ [58].
Proof.
  unfold uncolon. destruct (rev t) as [|c r] eqn:E; [left; reflexivity|]. destruct (Z.eq_dec c 58) as [->|N].
  - right. rewrite <- (rev_involutive t), E. reflexivity.
  - left. destruct c as [|p|p]; try reflexivity. do 6 (destruct p as [p|p|]; try reflexivity). contradiction.
Qed.
Lemma uncolon_hd t : plain (uncolon t) -> hd0 t = hd0 (uncolon t).
Proof. intros (_ & _ & _ & N & _). destruct (uncolon_cases t) as [->|E]; [reflexivity|]. rewrite E at 1. destruct (uncolon t); [contradiction|reflexivity]. Qed.
Lemma uncolon_valids n : valids n -> valids (n ++ [58]).
Proof. intros V. apply Forall_app. split; [exact V|]. repeat constructor; cbn; lia. Qed.
Lemma has_char_app c a b : has_char c (a ++ b) = has_char c a || has_char c b.
Proof. unfold has_char. apply existsb_app. Qed.
Lemma add_uncolon t : plain (uncolon t) -> add_symbol t = add_symbol (uncolon t).
Proof.
  intros P. destruct (uncolon_cases t) as [E|E]; [rewrite E; reflexivity|]. pose proof (uncolon_hd t P) as H. set (n := uncolon t) in *. clearbody n. subst t.
  pose proof P as (_ & P46 & P58 & Pn & Ph & PA). unfold add_symbol. rewrite H.
  assert (A1 : (stricmp n (cs "A") =? 0) = false) by (apply Z.eqb_neq; exact PA).
  assert (A2 : (stricmp (n ++ [58]) (cs "A") =? 0) = false).
  { apply Z.eqb_neq. intros X. apply stricmp_0_iff in X; [|apply uncolon_valids, P|repeat constructor; cbn; lia]. apply (f_equal (@List.length Z)) in X. rewrite !map_length, app_length in X. cbn in X. destruct n; [contradiction|cbn in X; lia]. }
  rewrite A1, A2. destruct ((hd0 n =? 43) || (hd0 n =? 45)) eqn:B; [exfalso; apply orb_true_iff in B; rewrite !Z.eqb_eq in B; apply Ph; cbn; destruct B; auto|].
  assert (A3 : has_char 46 (n ++ [58]) = has_char 46 n) by (rewrite has_char_app; cbn; rewrite orb_false_r; reflexivity). rewrite A3.
  destruct n as [|c n]; [contradiction|]. cbn [app hd0] in *.
  assert (C : c <> 46) by (intros ->; apply P46; left; reflexivity).
  assert (Q : forall r, match c :: r with 46 :: x => x | _ => c :: r end = c :: r).
  { intros r. destruct c as [|p|p]; try reflexivity. do 6 (destruct p as [p|p|]; try reflexivity). contradiction. }
  rewrite !Q. cbn [hd0].
  destruct (c =? 64) eqn:L; [exfalso; apply Z.eqb_eq in L; apply Ph; subst; cbn; auto|].
  assert (S1 : strip_colon (c :: n ++ [58]) = c :: n) by (unfold strip_colon; rewrite app_comm_cons, rev_app_distr; cbn [rev app]; rewrite rev_app_distr, rev_involutive; reflexivity).
  rewrite S1, (strip_colon_plain (c :: n) P58). reflexivity.
Qed.
