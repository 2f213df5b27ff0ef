From Verif Require Import Base.
Ltac Zify.zify_post_hook ::= Z.div_mod_to_equations.

(** case analysis on every conditional, then arithmetic *)
Ltac if_lia :=
  repeat match goal with
  | |- context [if ?b then _ else _] => destruct b eqn:?
  | H : context [if ?b then _ else _] |- _ => destruct b eqn:?
  end; try lia.

Lemma tolower_toupper x y : tolower x = tolower y -> toupper x = toupper y.
Proof. unfold tolower, toupper; intros H; if_lia. Qed.

Lemma tolower_0 c : tolower c = 0 <-> c = 0.
Proof. unfold tolower; split; intros H; if_lia. Qed.

Lemma stricmp_0_iff a b :
  valids a -> valids b ->
  (stricmp a b = 0 <-> map tolower a = map tolower b).
Proof.
  revert b; induction a as [|x a IH]; intros [|y b] Ha Hb; cbn [stricmp map].
  - tauto.
  - inversion Hb as [|? ? [_ Hy] _]; subst. split; [|discriminate].
    intros H. exfalso. apply Hy. apply tolower_0. cbn in H. lia.
  - inversion Ha as [|? ? [_ Hx] _]; subst. split; [|discriminate].
    intros H. exfalso. apply Hx. apply tolower_0. exact H.
  - inversion Ha; inversion Hb; subst. cbv zeta.
    destruct (Z.eqb_spec (tolower x - tolower y) 0) as [E|E].
    + rewrite IH by assumption. split; [intros H; f_equal; [lia|exact H]|intros H; congruence].
    + split; [lia|]. intros HH. injection HH as HH1 HH2. lia.
Qed.

(** specification order: lexicographic comparison of NUL-terminated folded strings *)
Fixpoint lexcmp (a b : list Z) : comparison :=
  match a, b with
  | [], [] => Eq
  | [], y :: _ => 0 ?= y
  | x :: _, [] => x ?= 0
  | x :: a', y :: b' => match x ?= y with Eq => lexcmp a' b' | c => c end
  end.

Definition sgn_cmp (z : Z) : comparison := z ?= 0.

Lemma stricmp_lex a b : valids a -> valids b ->
  (stricmp a b ?= 0) = lexcmp (map tolower a) (map tolower b).
Proof.
  revert b; induction a as [|x a IH]; intros [|y b] Ha Hb; cbn [stricmp map lexcmp].
  - reflexivity.
  - change (tolower 0) with 0.
    destruct (Z.compare_spec (0 - tolower y) 0); destruct (Z.compare_spec 0 (tolower y)); try reflexivity; lia.
  - reflexivity.
  - inversion Ha; inversion Hb; subst. cbv zeta.
    destruct (Z.eqb_spec (tolower x - tolower y) 0) as [E|E].
    + rewrite IH by assumption. replace (tolower x) with (tolower y) by lia.
      now rewrite Z.compare_refl.
    + destruct (Z.compare_spec (tolower x - tolower y) 0); destruct (Z.compare_spec (tolower x) (tolower y)); try reflexivity; lia.
Qed.

Definition nz (s : list Z) := Forall (fun c => c <> 0) s.

Lemma nz_tolower s : valids s -> nz (map tolower s).
Proof.
  intros H. apply Forall_map. eapply Forall_impl; [|exact H].
  intros c [_ Hc] E. apply Hc. now apply tolower_0.
Qed.

Lemma lexcmp_antisym a b : lexcmp b a = CompOpp (lexcmp a b).
Proof.
  revert b; induction a as [|x a IH]; intros [|y b]; cbn [lexcmp]; try reflexivity.
  - apply Z.compare_antisym.
  - apply Z.compare_antisym.
  - rewrite (Z.compare_antisym x y). destruct (x ?= y) eqn:E; cbn [CompOpp]; try reflexivity. apply IH.
Qed.

Lemma lexcmp_eq a b : nz a -> nz b -> lexcmp a b = Eq -> a = b.
Proof.
  revert b; induction a as [|x a IH]; intros [|y b] Ha Hb; cbn [lexcmp]; intros H; try reflexivity.
  - apply Z.compare_eq in H. inversion Hb; subst; congruence.
  - apply Z.compare_eq in H. inversion Ha; subst; congruence.
  - inversion Ha; inversion Hb; subst. destruct (x ?= y) eqn:E; try discriminate.
    apply Z.compare_eq in E. subst. f_equal. auto.
Qed.

Lemma lexcmp_trans a b c : nz a -> nz b -> nz c ->
  lexcmp a b <> Gt -> lexcmp b c <> Gt -> lexcmp a c <> Gt.
Proof.
  revert b c; induction a as [|x a IH]; intros [|y b] [|z c] Ha Hb Hc; cbn [lexcmp]; intros P Q R;
  inversion Ha; inversion Hb; inversion Hc; subst.
  all: repeat match goal with
  | H : context [?p ?= ?q] |- _ => destruct (Z.compare_spec p q) in H
  end.
  all: try (now exfalso; auto); try lia; try discriminate; subst; try (exfalso; lia).
  all: try (exfalso; first [apply P; reflexivity | apply Q; reflexivity]).
  apply (IH b c); assumption.
Qed.

Lemma stricmp_antisym a b : valids a -> valids b ->
  Z.sgn (stricmp b a) = - Z.sgn (stricmp a b).
Proof.
  intros Ha Hb. pose proof (stricmp_lex a b Ha Hb) as H1. pose proof (stricmp_lex b a Hb Ha) as H2.
  rewrite lexcmp_antisym in H2.
  destruct (lexcmp (map tolower a) (map tolower b)); cbn [CompOpp] in H2;
  destruct (Z.compare_spec (stricmp a b) 0); destruct (Z.compare_spec (stricmp b a) 0); try discriminate; lia.
Qed.

Lemma stricmp_trans a b c : valids a -> valids b -> valids c ->
  stricmp a b <= 0 -> stricmp b c <= 0 -> stricmp a c <= 0.
Proof.
  intros Ha Hb Hc H1 H2.
  pose proof (stricmp_lex a b Ha Hb) as L1. pose proof (stricmp_lex b c Hb Hc) as L2.
  pose proof (stricmp_lex a c Ha Hc) as L3.
  assert (lexcmp (map tolower a) (map tolower c) <> Gt) as HG.
  { apply lexcmp_trans with (map tolower b); try (apply nz_tolower; assumption).
    - rewrite <- L1. destruct (Z.compare_spec (stricmp a b) 0); congruence || lia.
    - rewrite <- L2. destruct (Z.compare_spec (stricmp b c) 0); congruence || lia. }
  rewrite <- L3 in HG. destruct (Z.compare_spec (stricmp a c) 0); lia || congruence.
Qed.

Lemma stricmp_refl a : stricmp a a = 0.
Proof.
  induction a as [|x a IH]; cbn [stricmp]; [reflexivity|]. cbv zeta.
  rewrite Z.sub_diag. exact IH.
Qed.

Lemma streq_eq a b : streq a b = true <-> a = b.
Proof.
  revert b; induction a as [|x a IH]; intros [|y b]; cbn [streq]; split; intros H; try congruence.
  - apply andb_prop in H as [H1 H2]. apply Z.eqb_eq in H1. apply IH in H2. congruence.
  - injection H as -> ->. rewrite Z.eqb_refl. cbn. now apply IH.
Qed.

(** list update *)
Lemma upd_length {A} n (x : A) l : length (upd n x l) = length l.
Proof. revert n; induction l as [|h t IH]; intros [|n]; cbn; auto. Qed.
Lemma upd_nth_eq {A} n (x : A) l : (n < length l)%nat -> nth_error (upd n x l) n = Some x.
Proof. revert n; induction l as [|h t IH]; intros [|n] H; cbn in *; try lia; auto. apply IH; lia. Qed.
Lemma upd_nth_ne {A} n m (x : A) l : n <> m -> nth_error (upd n x l) m = nth_error l m.
Proof. revert n m; induction l as [|h t IH]; intros [|n] [|m] H; cbn in *; try lia; auto. Qed.
Lemma upd_nth {A} n m (x : A) l : nth_error (upd n x l) m =
  if Nat.eqb n m then (if Nat.ltb n (length l) then Some x else None) else nth_error l m.
Proof.
  destruct (Nat.eqb_spec n m) as [->|E].
  - destruct (Nat.ltb_spec m (length l)).
    + now apply upd_nth_eq.
    + apply nth_error_None. rewrite upd_length. lia.
  - now apply upd_nth_ne.
Qed.
Lemma upd_oob {A} n (x : A) l : (length l <= n)%nat -> upd n x l = l.
Proof. revert n; induction l as [|h t IH]; intros [|n] H; cbn in *; try lia; auto. f_equal. apply IH; lia. Qed.
