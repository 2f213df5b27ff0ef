(** Invariants of expansion obtained from Gen.v. *)
From Coq Require Import String Lia.
From Verif Require Import Base BaseProofs Hash Dict Str Opcodes Err State Sym Machine Build Pass GenX Gen.
Open Scope string_scope.
Open Scope list_scope.
Open Scope Z_scope.
Open Scope m_scope.

(** ** What inserting a symbol and setting its value do to the rest of the state *)
Lemma sym_insert_inv k y s a s' : sym_insert k y s = Ok a s' ->
  exists d h y', dict_insert (s_dict s) (s_syms s) k y = (d, h, Some a) /\ nth_error h a = Some y' /\
    s' = set_syms (upd a (sanitize_symbol y') h) (set_dict d (set_syms h s)).
Proof.
  unfold sym_insert, bind, gets, modify.
  destruct (dict_insert _ _ _ _) as [[d h] [b|]] eqn:E; [|discriminate].
  unfold sym_get, gets, bind, sym_set, modify, ret; cbn [s_syms set_dict set_syms].
  destruct (nth_error h b) as [y'|] eqn:E2; [|discriminate].
  intros H; inversion H; subst. exists d, h, y'. auto.
Qed.

Lemma set_symbol_value_inv a v s s' : set_symbol_value a v s = Ok tt s' ->
  exists y, nth_error (s_syms s) a = Some y /\
  ((y_value y = v /\ s' = s) \/
   (y_value y <> v /\ over v 65535 = true /\ y_var y = false /\
      s' = set_errs (s_errs s + 1) (set_msgs (error_value_out_of_range :: s_msgs s) s)) \/
   (y_value y <> v /\ (over v 65535 = false \/ y_var y = true) /\ (y_mparam y = true \/ y_var y = true) /\
      s' = set_syms (upd a (y_set_value v y) (s_syms s)) s) \/
   (y_value y <> v /\ over v 65535 = false /\ y_mparam y = false /\ y_var y = false /\
      s' = set_changed (s_changed s + 1) (set_syms (upd a (y_set_value v y) (s_syms s)) s))).
Proof.
  unfold set_symbol_value, sym_get, gets, bind, sym_set, modify, err, when, ret.
  destruct (nth_error _ _) as [y|] eqn:E; [|discriminate]. exists y; split; auto.
  destruct (y_value y =? v) eqn:E1; [apply Z.eqb_eq in E1; inversion H; auto|]. apply Z.eqb_neq in E1.
  destruct (over v 65535 && negb (y_var y)) eqn:E2.
  - apply andb_true_iff in E2; destruct E2 as [E2 E3]. apply negb_true_iff in E3. inversion H; subst. auto 10.
  - assert (E4 : over v 65535 = false \/ y_var y = true).
    { destruct (over v 65535); auto. destruct (y_var y); auto. }
    cbn [andb] in H. right; right.
    destruct (negb (y_mparam y) && negb (y_var y)) eqn:E3.
    + apply andb_true_iff in E3; destruct E3 as [E3 E5]. apply negb_true_iff in E3, E5. inversion H; subst.
      right. split; [auto|]. split; [destruct E4; congruence|]. auto.
    + left. inversion H; subst. repeat split; auto.
      apply andb_false_iff in E3. rewrite !negb_false_iff in E3. auto.
Qed.

Ltac svcases H := apply set_symbol_value_inv in H;
  destruct H as [?y [?Hy [[?Hv ->]|[(?Hv & ?Ho & ?Hvar & ->)|[(?Hv & ?Ho & ?Hvar & ->)|(?Hv & ?Ho & ?Hmp & ?Hvar & ->)]]]]].

(** ** Relations *)
(** the constant parts of the state during the expansion of a tree *)
Definition Rfix (s s' : state) : Prop :=
  s_cfg s' = s_cfg s /\ s_final s' = s_final s /\ s_pass s' = s_pass s /\ s_opened s' = s_opened s /\
  s_gen s' = s_gen s /\ (s_org_spec s = true -> s_org_spec s' = true) /\ (s_stop s = true -> s_stop s' = true).

Ltac clo0 := intros; repeat match goal with
  | H : sym_insert _ _ _ = Ok _ _ |- _ => apply sym_insert_inv in H; destruct H as (?d & ?h & ?y' & ? & ? & ->)
  | H : set_symbol_value _ _ _ = Ok _ _ |- _ => svcases H
  | |- context [set_pm_table ?m _ _] => destruct m; unfold set_pm_table
  end.

Lemma Rfix_closed : closed Rfix.
Proof.
  constructor; unfold Rfix; clo0; cbn; try tauto; intuition congruence.
Qed.
Lemma Rfix_build : closed_build Rfix.
Proof. constructor; unfold Rfix; clo0; cbn; tauto. Qed.
Lemma Rfix_pass : closed_pass Rfix.
Proof. constructor; unfold Rfix; clo0; cbn; tauto. Qed.

(** relations are combined with [Rfix] *)
Definition with_fix (R : state -> state -> Prop) (s s' : state) : Prop := Rfix s s' /\ R s s'.
(** conditions for a relation on top of Rfix *)
(** [close refl trans quiet]: the proof of [closed (with_fix R)]; [quiet] is tried on every elementary step *)
Ltac close trans quiet :=
  let K := fresh in pose proof Rfix_closed as K; destruct K;
  constructor; unfold with_fix;
  [ intros; split; [solve [auto 2] | quiet]
  | intros ? ? ? [? ?] [? ?]; split; [solve [eauto 2] | eapply trans; eassumption]
  | intros ? ? [? ?]; solve [eauto 2]
  | intros ? ? [? ?]; solve [eauto 2]
  | intros ? ? [? ?]; solve [eauto 2]
  | .. ];
  intros; (split; [solve [eauto 2]|]); clo0; try solve [quiet].
Ltac close_b quiet :=
  let K := fresh in pose proof Rfix_build as K; destruct K;
  constructor; unfold with_fix; intros; (split; [solve [eauto 2]|]); clo0; try solve [quiet].
Ltac close_p quiet :=
  let K := fresh in pose proof Rfix_pass as K; destruct K;
  constructor; unfold with_fix; intros; (split; [solve [eauto 2]|]); clo0; try solve [quiet].

(** error_count counts the diagnostics *)
Definition Rmsgs (s s' : state) : Prop :=
  exists l, s_msgs s' = l ++ s_msgs s /\ s_errs s' = s_errs s + Z.of_nat (length l).
Lemma Rmsgs_refl s s' : s_msgs s' = s_msgs s -> s_errs s' = s_errs s -> Rmsgs s s'.
Proof. intros H1 H2. exists []. rewrite H1, H2. cbn. split; auto; lia. Qed.
Lemma Rmsgs_one n s s' : s_msgs s' = n :: s_msgs s -> s_errs s' = s_errs s + 1 -> Rmsgs s s'.
Proof. intros H1 H2. exists [n]. rewrite H1, H2. cbn. split; auto; lia. Qed.
Lemma Rmsgs_trans a b c : Rmsgs a b -> Rmsgs b c -> Rmsgs a c.
Proof.
  intros [l1 [H1 H2]] [l2 [H3 H4]]. exists (l2 ++ l1). rewrite H3, H1, H4, H2, app_assoc, app_length, Nat2Z.inj_add.
  split; auto; lia.
Qed.
Lemma Rmsgs_closed : closed (with_fix Rmsgs).
Proof.
  close Rmsgs_trans ltac:(apply Rmsgs_refl; reflexivity); eapply Rmsgs_one; reflexivity.
Qed.
Lemma Rmsgs_build : closed_build (with_fix Rmsgs).
Proof. close_b ltac:(apply Rmsgs_refl; reflexivity). Qed.
Lemma Rmsgs_pass : closed_pass (with_fix Rmsgs).
Proof. close_p ltac:(apply Rmsgs_refl; reflexivity). Qed.

(** output, listing and warnings only grow, and only in the final pass; bytes go out only to an open file with a
    known origin *)
Definition is_byte (b : Z) : Prop := 0 <= b < 256.
Definition Rout (s s' : state) : Prop :=
  exists l k, s_out s' = l ++ s_out s /\ s_total s' = s_total s + Z.of_nat (length l) /\ Forall is_byte l /\
    s_list s' = k ++ s_list s /\ s_warns s <= s_warns s' /\
    (s_final s = false -> l = [] /\ k = [] /\ s_warns s' = s_warns s /\ s_pstate s' = s_pstate s) /\
    (s_opened s = false -> l = []) /\ (s_org_spec s' = false -> l = []).
Lemma Rout_quiet s s' : s_out s' = s_out s -> s_total s' = s_total s -> s_list s' = s_list s -> s_warns s' = s_warns s ->
  s_pstate s' = s_pstate s -> Rout s s'.
Proof. intros H1 H2 H3 H4 H5. exists [], []. rewrite H1, H2, H3, H4, H5. cbn. repeat split; auto; lia. Qed.
Lemma Rout_final s s' : s_final s = true -> s_out s' = s_out s -> s_total s' = s_total s ->
  (exists k, s_list s' = k ++ s_list s) -> s_warns s <= s_warns s' -> Rout s s'.
Proof. intros H0 H1 H2 [k H3] H4. exists [], k. rewrite H1, H2. cbn. repeat split; auto; try congruence; lia. Qed.
Lemma Rout_trans a b c : with_fix Rout a b -> with_fix Rout b c -> with_fix Rout a c.
Proof.
  intros [F1 (l1 & k1 & A1 & A2 & A3 & A4 & A5 & A6 & A7 & A8)] [F2 (l2 & k2 & B1 & B2 & B3 & B4 & B5 & B6 & B7 & B8)].
  split; [eapply (c_trans _ Rfix_closed); eauto|].
  destruct F1 as (_ & F1 & _ & O1 & _ & S1 & _), F2 as (_ & F2 & _ & O2 & _ & S2 & _).
  exists (l2 ++ l1), (k2 ++ k1). rewrite B1, A1, B2, A2, B4, A4, !app_assoc, app_length, Nat2Z.inj_add.
  rewrite F1 in B6. rewrite O1 in B7. rewrite <- !app_assoc.
  split; [reflexivity|]. split; [lia|]. split; [apply Forall_app; auto|]. split; [reflexivity|]. split; [lia|].
  split; [|split].
  - intros H. destruct (A6 H) as (-> & -> & W1 & P1), (B6 H) as (-> & -> & W2 & P2). rewrite W2, P2. auto.
  - intros H. rewrite (A7 H), (B7 H). reflexivity.
  - intros H. rewrite (B8 H). cbn. apply A8. destruct (s_org_spec b) eqn:E; auto. rewrite S2 in H; congruence.
Qed.
Lemma Rout_closed : closed (with_fix Rout).
Proof.
  pose proof Rfix_closed as K; destruct K; constructor; unfold with_fix;
  [ intros; split; [auto|apply Rout_quiet; reflexivity]
  | intros a b c H1 H2; apply (Rout_trans a b c); assumption
  | intros ? ? [? ?]; solve [eauto 2]
  | intros ? ? [? ?]; solve [eauto 2]
  | intros ? ? [? ?]; solve [eauto 2]
  | .. ];
  intros; (split; [solve [eauto 2]|]); clo0; try solve [apply Rout_quiet; reflexivity].
  - apply Rout_final; auto; cbn; [exists []; reflexivity | lia].
  - exists [b mod 256], []. cbn. repeat split; auto; try congruence; try lia.
    constructor; [|constructor]. apply Z.mod_pos_bound; lia.
  - apply Rout_final; auto; cbn; [exists [r]; reflexivity | lia].
  - apply Rout_final; auto; cbn; [exists []; reflexivity | lia].
Qed.
Lemma Rout_build : closed_build (with_fix Rout).
Proof. close_b ltac:(apply Rout_quiet; reflexivity). Qed.
Lemma Rout_pass : closed_pass (with_fix Rout).
Proof. close_p ltac:(apply Rout_quiet; reflexivity). Qed.

(** counters that never go down *)
Definition Rmono (s s' : state) : Prop :=
  s_changed s <= s_changed s' /\ s_pc_assigned s <= s_pc_assigned s' /\ s_maxmp s <= s_maxmp s' /\
  (exists l, s_soft s' = l ++ s_soft s) /\ (exists l, s_console s' = l ++ s_console s) /\
  (length (s_nodes s) <= length (s_nodes s'))%nat.
Lemma Rmono_trans a b c : Rmono a b -> Rmono b c -> Rmono a c.
Proof.
  intros (A1 & A2 & A3 & [l1 A4] & [k1 A5] & A6) (B1 & B2 & B3 & [l2 B4] & [k2 B5] & B6).
  repeat split; try lia; [exists (l2 ++ l1)|exists (k2 ++ k1)]; rewrite ?B4, ?A4, ?B5, ?A5, app_assoc; reflexivity.
Qed.
Lemma Rmono_quiet s s' : s_changed s' = s_changed s -> s_pc_assigned s' = s_pc_assigned s -> s_maxmp s' = s_maxmp s ->
  s_soft s' = s_soft s -> s_console s' = s_console s -> s_nodes s' = s_nodes s -> Rmono s s'.
Proof. unfold Rmono. intros -> -> -> -> -> ->. repeat split; try lia; exists []; reflexivity. Qed.
Lemma Rmono_closed : closed (with_fix Rmono).
Proof.
  close Rmono_trans ltac:(apply Rmono_quiet; reflexivity);
    unfold Rmono; cbn [s_changed s_pc_assigned s_maxmp s_soft s_console s_nodes set_changed set_pc_assigned set_maxmp
                       set_soft set_console set_nodes set_syms];
    rewrite ?upd_length, ?app_length; repeat split; try lia; try (exists []; reflexivity); try (eexists; reflexivity);
    try (eexists [_]; reflexivity).
Qed.
Lemma Rmono_build : closed_build (with_fix Rmono).
Proof. close_b ltac:(apply Rmono_quiet; reflexivity). Qed.
Lemma Rmono_pass : closed_pass (with_fix Rmono).
Proof. close_p ltac:(apply Rmono_quiet; reflexivity). Qed.
