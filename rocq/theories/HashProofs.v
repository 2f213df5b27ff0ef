From Verif Require Import Base BaseProofs Hash.
Ltac Zify.zify_post_hook ::= Z.div_mod_to_equations.

Lemma u32_range x : 0 <= u32 x < 2 ^ 32.
Proof. apply Z.mod_pos_bound. lia. Qed.

Lemma hash_function_range s : 0 <= hash_function s < 2 ^ 32.
Proof. apply u32_range. Qed.

Lemma hash_loop_fold h odd a b :
  map tolower a = map tolower b -> hash_loop h odd a = hash_loop h odd b.
Proof.
  revert h odd b; induction a as [|x a IH]; intros h odd [|y b] H; cbn [map] in H; try discriminate; auto.
  injection H as H1 H2. cbn [hash_loop].
  replace (hash_step h odd x) with (hash_step h odd y).
  - apply IH; assumption.
  - unfold hash_step. destruct odd; [now rewrite H1|].
    now rewrite (tolower_toupper _ _ H1).
Qed.

Lemma hash_function_fold a b :
  map tolower a = map tolower b -> hash_function a = hash_function b.
Proof. intros H. unfold hash_function. now rewrite (hash_loop_fold 0 false a b H). Qed.

Lemma hash_pointer_undefined k : hash_pointer_function k = None.
Proof. unfold hash_pointer_function. cbn [hash_ptr_loop]. reflexivity. Qed.
