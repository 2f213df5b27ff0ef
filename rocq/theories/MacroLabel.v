(** Local names of different macro calls are different (expand.cc 1362-1414, sym.cc 601-613). *)
From Coq Require Import String Lia.
From Verif Require Import Base BaseProofs Hash Dict DictProofs Str Opcodes Err State Sym Machine.
Open Scope list_scope.
Open Scope Z_scope.

Lemma split_first {A} (c : A) l1 : forall l2 r1 r2, ~ In c l1 -> ~ In c l2 -> l1 ++ c :: r1 = l2 ++ c :: r2 -> l1 = l2 /\ r1 = r2.
Proof.
  induction l1 as [|x l1 IH]; intros [|y l2] r1 r2 N1 N2 E; cbn [app] in E.
  - injection E as E. auto.
  - injection E as E1 E2. subst. exfalso. apply N2. left. reflexivity.
  - injection E as E1 E2. subst. exfalso. apply N1. left. reflexivity.
  - injection E as E1 E2. subst y. destruct (IH l2 r1 r2) as [-> ->]; auto; intros H; [apply N1|apply N2]; right; exact H.
Qed.
Lemma hex_n_acc k : forall v acc, hex_n k v acc = hex_n k v [] ++ acc.
Proof. induction k as [|k IH]; intros v acc; cbn [hex_n]; [reflexivity|]. rewrite IH, (IH _ [_]), <- app_assoc. reflexivity. Qed.
Lemma hex_n_length k : forall v, length (hex_n k v []) = k.
Proof. induction k as [|k IH]; intros v; cbn [hex_n]; [reflexivity|]. rewrite hex_n_acc, app_length, IH. cbn. lia. Qed.
Lemma dig16 d : 0 <= d < 16 -> In d [0; 1; 2; 3; 4; 5; 6; 7; 8; 9; 10; 11; 12; 13; 14; 15].
Proof. intros H. cbn [In]. lia. Qed.
Lemma hexdig_inj a b : 0 <= a < 16 -> 0 <= b < 16 -> tolower (hexdig a) = tolower (hexdig b) -> a = b.
Proof.
  intros Ha Hb. apply dig16 in Ha, Hb. cbn [In] in Ha, Hb.
  repeat (destruct Ha as [<-|Ha]; [repeat (destruct Hb as [<-|Hb]; [vm_compute; congruence|]); destruct Hb|]). destruct Ha.
Qed.
Lemma hexdig_no a : 0 <= a < 16 -> tolower (hexdig a) <> 95.
Proof. intros Ha. apply dig16 in Ha. cbn [In] in Ha. repeat (destruct Ha as [<-|Ha]; [vm_compute; congruence|]). destruct Ha. Qed.
Lemma hex_n_no k : forall v, ~ In 95 (fk (hex_n k v [])).
Proof.
  induction k as [|k IH]; intros v; cbn [hex_n]; [intros []|]. rewrite hex_n_acc. unfold fk. rewrite map_app, in_app_iff. intros [H|[H|[]]]; [exact (IH _ H)|].
  apply (hexdig_no (v mod 16)); [apply Z.mod_pos_bound; lia|exact H].
Qed.
Lemma hex_n_inj k : forall v w, fk (hex_n k v []) = fk (hex_n k w []) -> 0 <= v < 16 ^ Z.of_nat k -> 0 <= w < 16 ^ Z.of_nat k -> v = w.
Proof.
  induction k as [|k IH]; intros v w E Hv Hw; [change (16 ^ Z.of_nat 0) with 1 in *; lia|].
  cbn [hex_n] in E. rewrite hex_n_acc, (hex_n_acc k (w / 16)) in E. unfold fk in E. rewrite !map_app in E. cbn [map] in E. apply app_inj_tail in E. destruct E as [E1 E2].
  apply hexdig_inj in E2; [|apply Z.mod_pos_bound; lia|apply Z.mod_pos_bound; lia]. rewrite Nat2Z.inj_succ, Z.pow_succ_r in Hv, Hw by lia.
  assert (D : v / 16 = w / 16) by (apply IH; [exact E1| |]; split; try (apply Z.div_pos; lia); apply Z.div_lt_upper_bound; lia).
  rewrite (Z.div_mod v 16), (Z.div_mod w 16), D, E2 by lia. reflexivity.
Qed.
Lemma hex_w_bound w v : 0 <= v -> v < 16 ^ Z.of_nat (Nat.max w (S (Z.to_nat (Z.log2 v / 4)))).
Proof.
  intros H. destruct (Z.eq_dec v 0) as [->|N]; [apply Z.pow_pos_nonneg; lia|]. pose proof (Z.log2_spec v ltac:(lia)) as [_ L]. pose proof (Z.log2_nonneg v).
  eapply Z.lt_le_trans; [exact L|]. change 16 with (2 ^ 4). rewrite <- Z.pow_mul_r by lia. apply Z.pow_le_mono_r; [lia|].
  pose proof (Z.div_mod (Z.log2 v) 4 ltac:(lia)). pose proof (Z.mod_pos_bound (Z.log2 v) 4 ltac:(lia)). pose proof (Z.div_pos (Z.log2 v) 4 ltac:(lia) ltac:(lia)). lia.
Qed.
Lemma hex_w_inj w v1 v2 : 0 <= v1 -> 0 <= v2 -> fk (hex_w w v1) = fk (hex_w w v2) -> v1 = v2.
Proof.
  intros H1 H2 E. unfold hex_w in E. pose proof (hex_w_bound w v1 H1) as B1. pose proof (hex_w_bound w v2 H2) as B2.
  pose proof (f_equal (@length Z) E) as L. unfold fk in L. rewrite !map_length, !hex_n_length in L. rewrite <- L in E, B2.
  apply (hex_n_inj _ _ _ E); split; assumption.
Qed.
Lemma tolower_58 c : tolower c = 58 -> c = 58.
Proof. unfold tolower. destruct ((65 <=? c) && (c <=? 90)) eqn:E; [|auto]. apply andb_true_iff in E. lia. Qed.
Theorem locals_apart m1 m2 n1 n2 a b : ~ In 58 m1 -> ~ In 58 m2 -> 0 <= n1 -> 0 <= n2 ->
  fk (local_name (macro_label m1 8 n1) a) = fk (local_name (macro_label m2 8 n2) b) -> fk m1 = fk m2 /\ n1 = n2 /\ fk a = fk b.
Proof.
  intros N1 N2 P1 P2 E. unfold local_name, macro_label, fk in E. rewrite !map_app in E. cbn [map] in E. change (tolower 58) with 58 in E. rewrite <- !app_assoc in E. cbn [app] in E.
  assert (No : forall m, ~ In 58 m -> ~ In 58 (map tolower m)) by (intros m N H; apply in_map_iff in H; destruct H as (x & X & I); apply N; rewrite <- (tolower_58 _ X); exact I).
  apply split_first in E; [|apply No, N1|apply No, N2]. destruct E as [E1 E]. split; [exact E1|]. injection E as E.
  apply split_first in E; [|apply hex_n_no|apply hex_n_no]. destruct E as [E2 E]. split; [exact (hex_w_inj 8 _ _ P1 P2 E2)|]. injection E as E. exact E.
Qed.
