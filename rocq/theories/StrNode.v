(** What a quoted string in the source becomes (proofs for C07). *)
From Coq Require Import Lia.
From Verif Require Import Err Base Str StrProofs UtilExact State Build.
Open Scope list_scope.
Open Scope Z_scope.

(** the text of a C string: everything before the first NUL *)
Definition c_text (o u : cstr) : Prop := ~ In 0 u /\ (o = u \/ exists r, o = u ++ 0 :: r).

Lemma until_nul_text o : c_text o (until_nul o).
Proof.
  induction o as [|c o [N H]]; cbn [until_nul]; [split; [intros []|left; reflexivity]|].
  destruct (c =? 0) eqn:E.
  - apply Z.eqb_eq in E. subst c. split; [intros []|right; exists o; reflexivity].
  - apply Z.eqb_neq in E. split; [intros [X|X]; [congruence|exact (N X)]|].
    destruct H as [H|[r H]]; [left; congruence|right; exists r; cbn [app]; congruence].
Qed.
Lemma c_text_fun o u v : c_text o u -> c_text o v -> u = v.
Proof.
  revert o v. induction u as [|a u IH]; intros o v [Nu Hu] [Nv Hv].
  - destruct v as [|b v]; [reflexivity|]. exfalso. destruct Hu as [->|[r ->]]; destruct Hv as [X|[r' X]]; try discriminate; injection X as X1 X2; apply Nv; left; congruence.
  - destruct v as [|b v].
    + exfalso. destruct Hu as [->|[r ->]]; destruct Hv as [X|[r' X]]; try discriminate; injection X as X1 X2; apply Nu; left; congruence.
    + assert (A : exists o', o = a :: o' /\ c_text o' u) by (destruct Hu as [->|[r ->]]; eexists; (split; [reflexivity|]); (split; [intros X; apply Nu; right; exact X|eauto])).
      destruct A as (o' & -> & Hu').
      assert (B : a = b /\ c_text o' v) by (destruct Hv as [X|[r X]]; injection X as -> ->; (split; [reflexivity|]); (split; [intros X; apply Nv; right; exact X|eauto])).
      destruct B as [-> Hv']. f_equal. exact (IH _ _ Hu' Hv').
Qed.

Lemma string_errs e (k : M nat) s :
  bind ((fix rep (n : nat) : M unit := match n with O => ret tt | S n => bind (err error_unrecognized_escape_sequence) (fun _ => rep n) end) e) (fun _ => k) s =
  k (set_errs (s_errs s + Z.of_nat e) (set_msgs (repeat error_unrecognized_escape_sequence e ++ s_msgs s) s)).
Proof.
  revert s. induction e as [|e IH]; intros s.
  - unfold bind, ret. cbn [repeat app Z.of_nat]. rewrite Z.add_0_r. destruct s; reflexivity.
  - transitivity (bind ((fix rep (n : nat) : M unit := match n with O => ret tt | S n => bind (err error_unrecognized_escape_sequence) (fun _ => rep n) end) e) (fun _ => k)
      (set_errs (s_errs s + 1) (set_msgs (error_unrecognized_escape_sequence :: s_msgs s) s))); [reflexivity|].
    rewrite IH. f_equal.
    change (set_errs (s_errs s + 1 + Z.of_nat e) (set_msgs (repeat error_unrecognized_escape_sequence e ++ [error_unrecognized_escape_sequence] ++ s_msgs s) s) =
      set_errs (s_errs s + Z.of_nat (S e)) (set_msgs (repeat error_unrecognized_escape_sequence (S e) ++ s_msgs s) s)).
    rewrite app_assoc, <- repeat_cons. replace (s_errs s + 1 + Z.of_nat e) with (s_errs s + Z.of_nat (S e)) by lia. reflexivity.
Qed.

Theorem string_built q t o e u s : q = 34 \/ q = 39 -> decoded t o e -> c_text o u ->
  exists s', string_node (q :: t ++ [q]) s = Ok (length (s_nodes s)) s' /\ s_nodes s' = s_nodes s ++ [mkNode (KStr u) []] /\
    s_errs s' = s_errs s + Z.of_nat e /\ s_msgs s' = repeat error_unrecognized_escape_sequence e ++ s_msgs s.
Proof.
  intros Q D U. apply sanitize_decoded in D. rewrite (c_text_fun _ _ _ U (until_nul_text o)).
  unfold string_node. replace ((q =? 39) || (q =? 34))%bool with true by (destruct Q as [->| ->]; reflexivity).
  rewrite removelast_last, D. rewrite string_errs. eexists. split; [reflexivity|]. repeat split.
Qed.
