From Verif Require Import Base BaseProofs Stack.
Ltac Zify.zify_post_hook ::= Z.div_mod_to_equations.

Section P.
Context {A : Type}.
Implicit Types (s : stack A) (l : list A).

(** representation: [l] is the list of live elements, top first *)
Definition repr s l : Prop :=
  sidx s = Z.of_nat (length l) - 1 /\
  (length l <= length (sarr s))%nat /\
  (exists q, length (sarr s) = q * 25)%nat /\
  forall i x, nth_error (rev l) i = Some x -> nth_error (sarr s) i = Some (Some x).

Lemma create_repr : repr create_stack [].
Proof.
  split; [reflexivity|]. split; [cbn; lia|]. split; [now exists O|].
  intros i x H. destruct i; discriminate.
Qed.

Lemma push_repr s l x : repr s l -> exists s', push s x = Some s' /\ repr s' (x :: l).
Proof.
  intros (Hi & Hl & (q & Hq) & Hn). unfold push.
  destruct (Z.ltb_spec (sidx s + 1) 0); [lia|].
  eexists; split; [reflexivity|].
  set (arr := if ssize s <=? sidx s + 1 then sarr s ++ repeat None clump_size else sarr s).
  assert (Harr : (length l < length arr)%nat /\ (exists q, length arr = q * 25)%nat /\
                 forall i y, (i < length l)%nat -> nth_error (sarr s) i = Some y -> nth_error arr i = Some y).
  { unfold arr, ssize. destruct (Z.leb_spec (Z.of_nat (length (sarr s))) (sidx s + 1)).
    - rewrite app_length, repeat_length. unfold clump_size. split; [lia|]. split; [exists (q + 1)%nat; lia|].
      intros i y Hy E. rewrite nth_error_app1; [exact E|]. lia.
    - split; [lia|]. split; [now exists q|]. auto. }
  destruct Harr as (A1 & A2 & A3).
  replace (Z.to_nat (sidx s + 1)) with (length l) by lia.
  split; [cbn [sidx length]; lia|]. cbn [sarr]. rewrite upd_length. split; [cbn [length]; lia|].
  split; [exact A2|]. intros i y Hy. cbn [rev] in Hy.
  assert (Hil : (i < length (rev l ++ [x]))%nat) by (apply nth_error_Some; congruence).
  rewrite app_length, rev_length in Hil. cbn [length] in Hil.
  rewrite upd_nth. destruct (Nat.eqb_spec (length l) i) as [E|E].
  - rewrite nth_error_app2 in Hy by (rewrite rev_length; lia).
    rewrite rev_length, E, Nat.sub_diag in Hy. cbn in Hy.
    destruct (Nat.ltb_spec (length l) (length arr)); [congruence|lia].
  - rewrite nth_error_app1 in Hy by (rewrite rev_length; lia). apply A3; [lia|]. now apply Hn.
Qed.

Lemma top_repr s x l : repr s (x :: l) -> top s = Some (Some x).
Proof.
  intros (Hi & Hl & _ & Hn). unfold top, item_at, ssize. cbn [length] in *.
  destruct (Z.leb_spec 0 (sidx s)); [|lia]. destruct (Z.ltb_spec (sidx s) (Z.of_nat (length (sarr s)))); [|lia].
  cbn [andb]. replace (Z.to_nat (sidx s)) with (length l) by lia. apply Hn. cbn [rev].
  rewrite nth_error_app2; rewrite rev_length; [|lia]. now rewrite Nat.sub_diag.
Qed.

Lemma pop_repr s x l : repr s (x :: l) -> exists s', pop s = Some (Some x, s') /\ repr s' l.
Proof.
  intros R. pose proof (top_repr _ _ _ R) as T. destruct R as (Hi & Hl & Hq & Hn).
  unfold pop. cbn [length] in *.
  destruct (Z.leb_spec 0 (sidx s)); [|lia]. unfold ssize. destruct (Z.ltb_spec (sidx s) (Z.of_nat (length (sarr s)))); [|lia].
  cbn [andb]. unfold top in T. rewrite T. eexists; split; [reflexivity|].
  split; [cbn [sidx]; lia|]. split; [cbn [sarr]; lia|]. split; [exact Hq|].
  cbn [sarr]. intros i y Hy. apply Hn. cbn [rev]. rewrite nth_error_app1; [exact Hy|].
  apply nth_error_Some. congruence.
Qed.

Lemma empty_repr s : repr s [] -> pop s = None /\ top s = None.
Proof.
  intros (Hi & _). cbn [length] in Hi. unfold pop, top, item_at.
  destruct (Z.leb_spec 0 (sidx s)); [lia|]. cbn. auto.
Qed.

Lemma clear_repr s l : repr s l -> exists s', clear_stack s = Some s' /\ repr s' [].
Proof.
  intros R. unfold clear_stack. destruct R as (Hi & R).
  replace (Z.to_nat (sidx s + 1)) with (length l) by lia. assert (R' : repr s l) by (split; assumption).
  clear Hi R. revert s R'. induction l as [|x l IH]; intros s R; cbn [length clear_loop].
  - destruct R as (Hi & R). cbn [length] in Hi. destruct (Z.ltb_spec (sidx s) 0); [|lia]. exists s. split; [reflexivity|]. split; assumption.
  - pose proof R as (Hi & _). cbn [length] in Hi. destruct (Z.ltb_spec (sidx s) 0); [lia|].
    destruct (pop_repr _ _ _ R) as (s' & E & R'). rewrite E. now apply IH.
Qed.

(** item_at on live elements counts from the bottom *)
Lemma item_at_repr s l i x : repr s l -> nth_error (rev l) i = Some x -> item_at s (Z.of_nat i) = Some (Some x).
Proof.
  intros (Hi & Hl & _ & Hn) E. unfold item_at, ssize.
  assert (i < length (rev l))%nat by (apply nth_error_Some; congruence). rewrite rev_length in *.
  destruct (Z.leb_spec 0 (Z.of_nat i)); [|lia]. destruct (Z.ltb_spec (Z.of_nat i) (Z.of_nat (length (sarr s)))); [|lia].
  cbn [andb]. rewrite Nat2Z.id. now apply Hn.
Qed.

(** ** operation sequences against lists *)
Inductive sop := SPush (x : A) | SPop | STop | SClear.

(** concrete run; [None] = a failed assert somewhere.  Outputs of pop/top are collected. *)
Fixpoint srun (ops : list sop) s : option (list A * stack A) :=
  match ops with
  | [] => Some ([], s)
  | o :: ops' =>
      match o with
      | SPush x => match push s x with Some s' => srun ops' s' | None => None end
      | SPop => match pop s with
                | Some (Some x, s') => match srun ops' s' with Some (out, z) => Some (x :: out, z) | None => None end
                | _ => None end
      | STop => match top s with
                | Some (Some x) => match srun ops' s with Some (out, z) => Some (x :: out, z) | None => None end
                | _ => None end
      | SClear => match clear_stack s with Some s' => srun ops' s' | None => None end
      end
  end.

(** abstract run on lists *)
Fixpoint lrun (ops : list sop) l : option (list A * list A) :=
  match ops with
  | [] => Some ([], l)
  | o :: ops' =>
      match o with
      | SPush x => lrun ops' (x :: l)
      | SPop => match l with
                | x :: l' => match lrun ops' l' with Some (out, z) => Some (x :: out, z) | None => None end
                | [] => None end
      | STop => match l with
                | x :: _ => match lrun ops' l with Some (out, z) => Some (x :: out, z) | None => None end
                | [] => None end
      | SClear => lrun ops' []
      end
  end.

Lemma srun_lrun ops : forall s l, repr s l ->
  match lrun ops l with
  | Some (out, l') => exists s', srun ops s = Some (out, s') /\ repr s' l'
  | None => srun ops s = None
  end.
Proof.
  induction ops as [|o ops IH]; intros s l R; cbn [lrun srun]; [exists s; auto|].
  destruct o as [x| | |].
  - destruct (push_repr _ _ x R) as (s' & -> & R'). exact (IH _ _ R').
  - destruct l as [|x l].
    + now rewrite (proj1 (empty_repr _ R)).
    + destruct (pop_repr _ _ _ R) as (s' & -> & R'). specialize (IH _ _ R').
      destruct (lrun ops l) as [[out l']|]; [|now rewrite IH].
      destruct IH as (z & -> & Rz). eexists; split; [reflexivity|exact Rz].
  - destruct l as [|x l].
    + now rewrite (proj2 (empty_repr _ R)).
    + rewrite (top_repr _ _ _ R). specialize (IH _ _ R).
      destruct (lrun ops (x :: l)) as [[out l']|]; [|now rewrite IH].
      destruct IH as (z & -> & Rz). eexists; split; [reflexivity|exact Rz].
  - destruct (clear_repr _ _ R) as (s' & -> & R'). exact (IH _ _ R').
Qed.

Lemma stack_refines_list ops :
  match lrun ops [] with
  | Some (out, l') => exists s', srun ops create_stack = Some (out, s') /\
       sidx s' = Z.of_nat (length l') - 1 /\ Z.of_nat (length l') <= ssize s' /\ ssize s' mod 25 = 0
  | None => srun ops create_stack = None
  end.
Proof.
  pose proof (srun_lrun ops _ _ create_repr) as H.
  destruct (lrun ops []) as [[out l']|]; [|exact H].
  destruct H as (s' & E & (R1 & R2 & (q & R3) & _)). exists s'. split; [exact E|].
  unfold ssize. split; [exact R1|]. split; [lia|]. rewrite R3. lia.
Qed.

End P.
