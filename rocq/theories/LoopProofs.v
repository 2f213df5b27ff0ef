(** The loop directives (proofs for C42). *)
From Coq Require Import String Lia.
From Verif Require Import Base BaseProofs Hash Dict Str Opcodes Err State Sym Machine Inv SymProofs.
Ltac Zify.zify_post_hook ::= Z.div_mod_to_equations.
Open Scope string_scope.
Open Scope list_scope.
Open Scope Z_scope.
Open Scope m_scope.

(** [turns T n s s']: [n] steps of [T] lead from [s] to [s'] *)
Inductive turns (T : state -> state -> Prop) : nat -> state -> state -> Prop :=
| turns_0 s : turns T O s s
| turns_S n s s1 s' : T s s1 -> turns T n s1 s' -> turns T (S n) s s'.

(** the state after the report of an endless loop *)
Definition too_far (s s' : state) : Prop :=
  65535 < s_pc s /\ s' = set_errs (s_errs s + 1) (set_msgs (error_infinite_loop_detected :: s_msgs s) s).

Section Loops.
Variable ex : nat -> M Z.

(** one turn of a .WHILE: the condition holds, the body is expanded, the program counter is still in 64K *)
Definition while_turn (c b : nat) (s s' : state) : Prop :=
  exists v s1 u, ex c s = Ok v s1 /\ v <> 0 /\ ex b s1 = Ok u s' /\ s_pc s' <= 65535.
Lemma while_spec f c b : forall s v s', while_loop ex f c b s = Ok v s' <->
  v = 0 /\ exists n s1, (n < f)%nat /\ turns (while_turn c b) n s s1 /\
    (ex c s1 = Ok 0 s' \/
     exists v s2 u s3, ex c s1 = Ok v s2 /\ v <> 0 /\ ex b s2 = Ok u s3 /\ too_far s3 s').
Proof.
  induction f as [|f IH]; intros s v s'; cbn [while_loop].
  - unfold nofuel. split; [discriminate|]. intros (_ & n & s1 & H & _). lia.
  - unfold bind. destruct (ex c s) as [v1 s1|c1 s1|x1|] eqn:E1.
    2-4: (split; [discriminate|]; intros (-> & n & s2 & Hn & HT & HE); inversion HT; subst;
      [destruct HE as [HE|(? & ? & ? & ? & HE & _)]; congruence | destruct H as (? & ? & ? & H & _); congruence]).
    destruct (v1 =? 0) eqn:Ev.
    + apply Z.eqb_eq in Ev. subst v1. unfold ret. split.
      * intros H; inversion H; subst. split; auto. exists O, s. split; [lia|]. split; [constructor|auto].
      * intros (-> & n & s2 & Hn & HT & HE). inversion HT; subst.
        -- destruct HE as [HE|(v0 & s3 & u & s4 & HE & Hz & _)]; congruence.
        -- destruct H as (v0 & s4 & u & H & Hz & _). congruence.
    + apply Z.eqb_neq in Ev. destruct (ex b s1) as [u2 s2|c2 s2|x2|] eqn:E2.
      2-4: (split; [discriminate|]; intros (-> & n & sx & Hn & HT & HE); inversion HT; subst;
        [destruct HE as [HE|(v0 & s3 & u & s4 & HE & Hz & HB & _)]; congruence
        | destruct H as (v0 & s4 & u & H & Hz & HB & _); congruence]).
      unfold gets. destruct (max_address <? s_pc s2) eqn:Ep; unfold max_address in Ep.
      * unfold err, modify, ret. split.
        -- intros H; inversion H; subst. split; auto. exists O, s. split; [lia|]. split; [constructor|].
           right. exists v1, s1, u2, s2. repeat split; auto. lia.
        -- intros (-> & n & sx & Hn & HT & HE). inversion HT; subst.
           ++ destruct HE as [HE|(v0 & s3 & u & s4 & HE & Hz & HB & Hp & ->)]; [congruence|].
              rewrite E1 in HE. inversion HE; subst. rewrite E2 in HB. inversion HB; subst. reflexivity.
           ++ destruct H as (v0 & s4 & u & H & Hz & HB & Hp). rewrite E1 in H. inversion H; subst.
              rewrite E2 in HB. inversion HB; subst. lia.
      * rewrite IH. split.
        -- intros (-> & n & sx & Hn & HT & HE). split; auto. exists (S n), sx. split; [lia|]. split; auto.
           econstructor; [|exact HT]. exists v1, s1, u2. repeat split; auto. lia.
        -- intros (-> & n & sx & Hn & HT & HE). split; auto. inversion HT; subst.
           ++ destruct HE as [HE|(v0 & s3 & u & s4 & HE & Hz & HB & Hp & ->)]; [congruence|].
              rewrite E1 in HE. inversion HE; subst. rewrite E2 in HB. inversion HB; subst. lia.
           ++ destruct H as (v0 & s4 & u & H & Hz & HB & Hp). rewrite E1 in H. inversion H; subst.
              rewrite E2 in HB. inversion HB; subst. exists n0, sx. split; [lia|]. auto.
Qed.

(** one turn of a .REPEAT ([until]) or .DO: the body is expanded, the program counter is still in 64K, and the
    condition says to go on *)
Definition do_turn (until : bool) (b c : nat) (s s' : state) : Prop :=
  exists u s1 v, ex b s = Ok u s1 /\ s_pc s1 <= 65535 /\ ex c s1 = Ok v s' /\ (if until then v = 0 else v <> 0).
Lemma do_spec f until b c : forall s v s', do_loop ex f until b c s = Ok v s' <->
  v = 0 /\ exists n s1 u s2, (n < f)%nat /\ turns (do_turn until b c) n s s1 /\ ex b s1 = Ok u s2 /\
    ((s_pc s2 <= 65535 /\ exists w, ex c s2 = Ok w s' /\ (if until then w <> 0 else w = 0)) \/ too_far s2 s').
Proof.
  induction f as [|f IH]; intros s v s'; cbn [do_loop].
  - unfold nofuel. split; [discriminate|]. intros (_ & n & s1 & u & s2 & H & _). lia.
  - unfold bind. destruct (ex b s) as [u1 s1|c1 s1|x1|] eqn:E1.
    2-4: (split; [discriminate|]; intros (-> & n & s2 & u & s3 & Hn & HT & HE & _); inversion HT; subst;
      [congruence | destruct H as (? & ? & ? & H & _); congruence]).
    unfold gets. destruct (max_address <? s_pc s1) eqn:Ep; unfold max_address in Ep.
    + unfold err, modify, ret. split.
      * intros H; inversion H; subst. split; auto. exists O, s, u1, s1. repeat split; auto; [lia|constructor|].
        right. split; [lia|reflexivity].
      * intros (-> & n & s2 & u & s3 & Hn & HT & HE & HR). inversion HT; subst.
        -- rewrite E1 in HE. inversion HE; subst. destruct HR as [(Hp & _)|(Hp & ->)]; [lia|reflexivity].
        -- destruct H as (u0 & s5 & w & H & Hp & _). rewrite E1 in H. inversion H; subst. lia.
    + destruct (ex c s1) as [w s2|c2 s2|x2|] eqn:E2.
      2-4: (split; [discriminate|]; intros (-> & n & sx & u & s3 & Hn & HT & HE & HR); inversion HT; subst;
        [rewrite E1 in HE; inversion HE; subst; destruct HR as [(_ & ? & HR & _)|(Hp & _)]; [congruence|lia]
        | destruct H as (u0 & s5 & w & H & Hp & HC & _); rewrite E1 in H; inversion H; subst; congruence]).
      destruct (Bool.eqb (w =? 0) until) eqn:Ew.
      * assert (Hw : if until then w = 0 else w <> 0).
        { apply Bool.eqb_prop in Ew. destruct until; [apply Z.eqb_eq|apply Z.eqb_neq]; auto. }
        rewrite IH. split.
        -- intros (-> & n & sx & u & s3 & Hn & HT & HE & HR). split; auto. exists (S n), sx, u, s3.
           split; [lia|]. split; [|auto]. econstructor; [|exact HT]. exists u1, s1, w. repeat split; auto. lia.
        -- intros (-> & n & sx & u & s3 & Hn & HT & HE & HR). split; auto. inversion HT; subst.
           ++ rewrite E1 in HE. inversion HE; subst. destruct HR as [(_ & w' & HC & Hw')|(Hp & _)]; [|lia].
              rewrite E2 in HC. inversion HC; subst. destruct until; contradiction.
           ++ destruct H as (u0 & s5 & w' & H & Hp & HC & Hw'). rewrite E1 in H. inversion H; subst.
              rewrite E2 in HC. inversion HC; subst. exists n0, sx, u, s3. split; [lia|]. auto.
      * assert (Hw : if until then w <> 0 else w = 0).
        { apply Bool.eqb_false_iff in Ew. destruct until; destruct (w =? 0) eqn:W; try congruence;
            [apply Z.eqb_neq|apply Z.eqb_eq]; auto. }
        unfold ret. split.
        -- intros H; inversion H; subst. split; auto. exists O, s, u1, s1. repeat split; auto; [lia|constructor|].
           left. split; [lia|]. exists w. auto.
        -- intros (-> & n & sx & u & s3 & Hn & HT & HE & HR). inversion HT; subst.
           ++ rewrite E1 in HE. inversion HE; subst. destruct HR as [(_ & w' & HC & Hw')|(Hp & _)]; [|lia].
              rewrite E2 in HC. inversion HC; subst. reflexivity.
           ++ destruct H as (u0 & s5 & w' & H & Hp & HC & Hw'). rewrite E1 in H. inversion H; subst.
              rewrite E2 in HC. inversion HC; subst. destruct until; contradiction.
Qed.

(** the value of the symbol at address [a] *)
Definition value_at (a : nat) (s : state) (v : Z) : Prop := exists y, nth_error (s_syms s) a = Some y /\ y_value y = v.
(** a .FOR goes on while the variable has not passed the end *)
Definition passed (end_ step v : Z) : Prop := (0 < step /\ end_ < v) \/ (step < 0 /\ v < end_).

(** turns of a .FOR: in each the variable has not passed the end, the body is expanded, the program counter is
    still in 64K, and the step is added to the variable.  The list has the value of the variable at each turn. *)
Inductive for_turns (a : nat) (end_ step : Z) (b : nat) : list Z -> state -> state -> Prop :=
| for_turns_nil s : for_turns a end_ step b [] s s
| for_turns_cons v l s u s1 w s2 s' :
    value_at a s v -> ~ passed end_ step v -> ex b s = Ok u s1 -> s_pc s1 <= 65535 -> value_at a s1 w ->
    set_symbol_value a (w + step) s1 = Ok tt s2 -> for_turns a end_ step b l s2 s' ->
    for_turns a end_ step b (v :: l) s s'.

Lemma value_fun a s v w : value_at a s v -> value_at a s w -> v = w.
Proof. intros (y & H1 & <-) (z & H2 & <-). congruence. Qed.
Lemma not_passed e k v : (0 <? k) && (e <? v) = false -> (k <? 0) && (v <? e) = false -> ~ passed e k v.
Proof. unfold passed. lia. Qed.

Lemma for_spec f a e k b : forall s r s', for_loop ex f a e k b s = Ok r s' <->
  r = 0 /\ exists l s1, (length l < f)%nat /\ for_turns a e k b l s s1 /\
    ((s' = s1 /\ exists v, value_at a s1 v /\ passed e k v) \/
     exists v u s2, value_at a s1 v /\ ~ passed e k v /\ ex b s1 = Ok u s2 /\ too_far s2 s').
Proof.
  induction f as [|f IH]; intros s r s'; cbn [for_loop].
  - unfold nofuel. split; [discriminate|]. intros (_ & l & s1 & H & _). lia.
  - unfold bind, sym_get, gets, bind. destruct (nth_error (s_syms s) a) as [y|] eqn:Ey.
    2:{ unfold ub. split; [discriminate|]. intros (-> & l & s1 & _ & HT & HE).
        assert (Hno : forall v, ~ value_at a s v) by (intros v (y & Hy & _); congruence).
        inversion HT; subst; [|edestruct Hno; eauto].
        destruct HE as [(_ & v & Hv & _)|(v & _ & _ & Hv & _)]; edestruct Hno; eauto. }
    assert (Hv : value_at a s (y_value y)) by (exists y; auto).
    unfold ret at 1.
    destruct ((0 <? k) && (e <? y_value y) || (k <? 0) && (y_value y <? e)) eqn:EP.
    { assert (HP : passed e k (y_value y)) by (unfold passed; lia).
      assert (forall g, (if (0 <? k) && (e <? y_value y) then ret 0
          else if (k <? 0) && (y_value y <? e) then ret 0 else g) s = Ok r s' <-> r = 0 /\ s' = s) as ->.
      { intros g. destruct ((0 <? k) && (e <? y_value y)); [|cbn [orb] in EP; rewrite EP];
          (unfold ret; split; [intros H; inversion H; auto|intros (-> & ->); auto]). }
      split.
      - intros (-> & ->). split; auto. exists [], s. split; [cbn; lia|]. split; [constructor|]. left. eauto.
      - intros (-> & l & s1 & _ & HT & HE). split; auto. inversion HT; subst.
        + destruct HE as [(-> & _)|(v & u & s2 & Hv' & HP' & _)]; auto.
          now rewrite (value_fun _ _ _ _ Hv' Hv) in HP'.
        + rewrite (value_fun _ _ _ _ H Hv) in H0. contradiction. }
    apply Bool.orb_false_iff in EP. destruct EP as [EP1 EP2]. rewrite EP1, EP2.
    pose proof (not_passed _ _ _ EP1 EP2) as NP. clear EP1 EP2.
    destruct (ex b s) as [u1 s1|c1 s1|x1|] eqn:E1.
    2-4: (split; [discriminate|]; intros (-> & l & sx & _ & HT & HE); inversion HT; subst;
      [destruct HE as [(_ & v & Hv' & HP)|(v & u & s2 & _ & _ & HE & _)];
        [rewrite (value_fun _ _ _ _ Hv' Hv) in HP; contradiction|congruence] | congruence]).
    destruct (max_address <? s_pc s1) eqn:Ep; unfold max_address in Ep.
    { unfold err, modify, ret. split.
      - intros H; inversion H; subst. split; auto. exists [], s. split; [cbn; lia|]. split; [constructor|].
        right. exists (y_value y), u1, s1. repeat split; auto. lia.
      - intros (-> & l & sx & _ & HT & HE). inversion HT; subst.
        + destruct HE as [(_ & v & Hv' & HP)|(v & u & s2 & _ & _ & HE & Hp & ->)].
          * rewrite (value_fun _ _ _ _ Hv' Hv) in HP. contradiction.
          * rewrite E1 in HE. inversion HE; subst. reflexivity.
        + rewrite E1 in H1. inversion H1; subst. lia. }
    destruct (nth_error (s_syms s1) a) as [y1|] eqn:Ey1.
    2:{ unfold ub. split; [discriminate|]. intros (-> & l & sx & _ & HT & HE).
        inversion HT; subst.
        + destruct HE as [(_ & v & Hv' & HP)|(v & u & s2 & _ & _ & HE & Hp & _)].
          * rewrite (value_fun _ _ _ _ Hv' Hv) in HP. contradiction.
          * rewrite E1 in HE. inversion HE; subst. lia.
        + rewrite E1 in H1. inversion H1; subst. destruct H3 as (y2 & H3 & _). congruence. }
    assert (Hv1 : value_at a s1 (y_value y1)) by (exists y1; auto).
    unfold ret at 1.
    destruct (set_symbol_value a (y_value y1 + k) s1) as [[] s2|c2 s2|x2|] eqn:E2.
    2-4: (split; [discriminate|]; intros (-> & l & sx & _ & HT & HE); inversion HT; subst;
      [destruct HE as [(_ & v & Hv' & HP)|(v & u & s2' & _ & _ & HE & Hp & _)];
        [rewrite (value_fun _ _ _ _ Hv' Hv) in HP; contradiction|rewrite E1 in HE; inversion HE; subst; lia]
      | rewrite E1 in H1; inversion H1; subst; rewrite (value_fun _ _ _ _ H3 Hv1) in H4; congruence]).
    rewrite IH. split.
    + intros (-> & l & sx & Hl & HT & HE). split; auto. exists (y_value y :: l), sx.
      split; [cbn; lia|]. split; [|auto]. econstructor; eauto. lia.
    + intros (-> & l & sx & Hl & HT & HE). split; auto. inversion HT; subst.
      * destruct HE as [(_ & v & Hv' & HP)|(v & u & s2' & _ & _ & HE & Hp & _)].
        -- rewrite (value_fun _ _ _ _ Hv' Hv) in HP. contradiction.
        -- rewrite E1 in HE. inversion HE; subst. lia.
      * rewrite E1 in H1. inversion H1; subst. rewrite (value_fun _ _ _ _ H3 Hv1) in H4. rewrite E2 in H4.
        inversion H4; subst. exists l0, sx. cbn [length] in Hl. split; [lia|]. auto.
Qed.

(** [start], [start + step], ... [n] values *)
Fixpoint progression (start step : Z) (n : nat) : list Z :=
  match n with O => [] | S m => start :: progression (start + step) step m end.
(** how many of them come before the end is passed *)
Definition count_to (start end_ step : Z) : nat :=
  if 0 <? step then Z.to_nat ((end_ - start) / step + 1) else Z.to_nat ((start - end_) / (- step) + 1).

(** the body leaves the variable as it is *)
Definition leaves (a b : nat) : Prop := forall s u s' y, ex b s = Ok u s' -> nth_error (s_syms s) a = Some y ->
  exists y', nth_error (s_syms s') a = Some y' /\ y_value y' = y_value y /\ y_var y' = y_var y.

(** the variable may take the value: it is 16 bits wide, or the variable is a .VAR *)
Definition may_hold (a : nat) (s : state) (v : Z) : Prop :=
  0 <= v <= 65535 \/ exists y, nth_error (s_syms s) a = Some y /\ y_var y = true.

Lemma set_value_ok a v s s' y : set_symbol_value a v s = Ok tt s' -> nth_error (s_syms s) a = Some y ->
  exists y', nth_error (s_syms s') a = Some y' /\ y_var y' = y_var y /\
    y_value y' = (if over v 65535 && negb (y_var y) then y_value y else v).
Proof.
  intros H Hy. unfold set_symbol_value, bind, sym_get, gets, bind in H. rewrite Hy in H. unfold ret in H.
  destruct (y_value y =? v) eqn:E.
  - inversion H; subst. exists y. repeat split; auto. if_lia.
  - destruct (over v 65535 && negb (y_var y)).
    + unfold err, modify in H. inversion H; subst. exists y. auto.
    + unfold sym_set, modify in H.
      assert (Hu : nth_error (upd a (y_set_value v y) (s_syms s)) a = Some (y_set_value v y)).
      { apply upd_nth_eq. apply nth_error_Some. congruence. }
      unfold when in H. destruct (negb (y_mparam y) && negb (y_var y)); unfold modify, ret in H;
        inversion H; subst; exists (y_set_value v y); repeat split; exact Hu.
Qed.

Lemma count_passed v e k : k <> 0 -> passed e k v -> count_to v e k = O.
Proof.
  unfold passed, count_to. intros Hk [(H1 & H2)|(H1 & H2)].
  - replace (0 <? k) with true by lia. nia.
  - replace (0 <? k) with false by lia. nia.
Qed.
Lemma count_more v e k : k <> 0 -> ~ passed e k v -> count_to v e k = S (count_to (v + k) e k).
Proof.
  unfold passed, count_to. intros Hk NP.
  destruct (0 <? k) eqn:E.
  - replace (e - (v + k)) with (e - v + (-1) * k) by lia. rewrite Z.div_add by lia.
    assert (0 <= (e - v) / k) by (apply Z.div_pos; lia). lia.
  - replace (v + k - e) with (v - e + (-1) * (- k)) by lia. rewrite Z.div_add by lia.
    assert (0 <= (v - e) / (- k)) by (apply Z.div_pos; lia). lia.
Qed.
Lemma count_step v e k : k <> 0 -> ~ passed e k v ->
  v + k * Z.of_nat (count_to v e k) = (v + k) + k * Z.of_nat (count_to (v + k) e k).
Proof. intros. rewrite count_more by auto. lia. Qed.

(** the value after the last turn is at least as far as every value before *)
Lemma count_between v e k : k <> 0 ->
  (0 < k -> v <= v + k * Z.of_nat (count_to v e k)) /\ (k < 0 -> v + k * Z.of_nat (count_to v e k) <= v).
Proof. intros. nia. Qed.

(** with a step, room for the last value and a body that leaves the variable alone, the variable takes the
    values of the progression, one for each turn *)
Lemma for_values a e k b l s s1 : k <> 0 -> leaves a b -> for_turns a e k b l s s1 -> forall v,
  value_at a s v -> may_hold a s v -> may_hold a s (v + k * Z.of_nat (count_to v e k)) ->
  exists m, count_to v e k = (length l + m)%nat /\ l = progression v k (length l) /\
    value_at a s1 (v + k * Z.of_nat (length l)).
Proof.
  intros Hk HL HT. induction HT as [s|v0 l s u s1 w s2 s' Hv0 NP HB Hp Hw HS HT IH]; intros v Hv HM HM'.
  - exists (count_to v e k). cbn [length]. repeat split; auto.
    replace (v + k * Z.of_nat 0) with v by lia. exact Hv.
  - assert (v0 = v) by (eapply value_fun; eauto). subst v0.
    destruct Hv as (y & Hy & Hyv). destruct (HL _ _ _ _ HB Hy) as (y1 & Hy1 & Hv1 & Hr1).
    assert (w = v) by (eapply value_fun; [exact Hw|]; exists y1; split; [auto|lia]). subst w.
    destruct (set_value_ok _ _ _ _ _ HS Hy1) as (y2 & Hy2 & Hr2 & Hv2).
    rewrite (count_step v e k) in HM' by auto.
    assert (HM1 : may_hold a s (v + k)).
    { destruct HM' as [HM'|?]; [|right; auto]. destruct HM as [HM|?]; [|right; auto].
      left. destruct (count_between (v + k) e k Hk) as [H1 H2]. nia. }
    assert (Ho : over (v + k) 65535 && negb (y_var y1) = false).
    { rewrite Hr1. destruct HM1 as [HM1|(y' & Hy' & Hr')].
      - rewrite over_16. replace ((0 <=? v + k) && (v + k <=? 65535)) with true by lia. reflexivity.
      - assert (y' = y) by congruence. subst y'. rewrite Hr'. now rewrite Bool.andb_false_r. }
    rewrite Ho in Hv2.
    assert (Hmove : forall x, may_hold a s x -> may_hold a s2 x).
    { intros x [Hx|(y' & Hy' & Hr')]; [left; auto|right]. exists y2. split; auto. congruence. }
    destruct (IH (v + k)) as (m & Hm & Hl & Hlast); auto.
    { exists y2. auto. }
    exists m. cbn [length progression]. rewrite count_more by auto. repeat split; [lia|congruence|].
    replace (v + k * Z.of_nat (S (length l))) with (v + k + k * Z.of_nat (length l)) by lia. exact Hlast.
Qed.

Lemma passed_count v e k n : k <> 0 -> passed e k (v + k * Z.of_nat n) -> (count_to v e k <= n)%nat.
Proof.
  intros Hk. unfold passed, count_to. intros [(H1 & H2)|(H1 & H2)].
  - replace (0 <? k) with true by lia.
    assert ((e - v) / k < Z.of_nat n) by (apply Z.div_lt_upper_bound; lia). lia.
  - replace (0 <? k) with false by lia.
    assert ((v - e) / (- k) < Z.of_nat n) by (apply Z.div_lt_upper_bound; lia). lia.
Qed.

Lemma for_exact f a e k b s r s' v : for_loop ex f a e k b s = Ok r s' -> k <> 0 -> leaves a b ->
  value_at a s v -> may_hold a s v -> may_hold a s (v + k * Z.of_nat (count_to v e k)) ->
  for_turns a e k b (progression v k (count_to v e k)) s s' \/
  exists n s1 u s2, (n < count_to v e k)%nat /\ for_turns a e k b (progression v k n) s s1 /\
    ex b s1 = Ok u s2 /\ too_far s2 s'.
Proof.
  intros H Hk HL Hv HM HM'. apply for_spec in H. destruct H as (-> & l & s1 & _ & HT & HE).
  destruct (for_values _ _ _ _ _ _ _ Hk HL HT v Hv HM HM') as (m & Hm & Hl & Hlast).
  destruct HE as [(-> & v1 & Hv1 & HP)|(v1 & u & s2 & Hv1 & NP & HB & HF)].
  - left. rewrite (value_fun _ _ _ _ Hv1 Hlast) in HP. apply passed_count in HP; auto.
    assert (count_to v e k = length l) as -> by lia. rewrite <- Hl. exact HT.
  - right. exists (length l), s1, u, s2. rewrite <- Hl. repeat split; auto; try apply HF.
    rewrite (value_fun _ _ _ _ Hv1 Hlast) in NP.
    destruct m; [|lia]. exfalso. apply NP. rewrite Nat.add_0_r in Hm. rewrite <- Hm.
    clear - Hk. unfold passed, count_to. destruct (0 <? k) eqn:E.
    + left. split; [lia|].
      pose proof (Z.div_mod (e - v) k Hk). pose proof (Z.mod_pos_bound (e - v) k ltac:(lia)). nia.
    + right. split; [lia|].
      pose proof (Z.div_mod (v - e) (- k) ltac:(lia)). pose proof (Z.mod_pos_bound (v - e) (- k) ltac:(lia)). nia.
Qed.

(** with a step of 0, or when the last value does not fit the variable, the loop only ends when the program
    counter leaves 64K *)
Lemma for_turns_stuck a e k b l s s1 : k <> 0 -> leaves a b -> for_turns a e k b l s s1 -> forall v y,
  nth_error (s_syms s) a = Some y -> y_value y = v -> y_var y = false -> 0 <= v <= 65535 ->
  ~ 0 <= v + k * Z.of_nat (count_to v e k) <= 65535 -> exists w, value_at a s1 w /\ ~ passed e k w.
Proof.
  intros Hk HL HT. induction HT as [s|v0 l s u s1 w s2 s' Hv0 NP HB Hp Hw HS HT IH]; intros v y Hy Hv Hr Hin Hout.
  - exists v. split; [exists y; auto|]. intros HP. rewrite count_passed in Hout by auto. lia.
  - assert (v0 = v) by (eapply value_fun; [eauto|]; exists y; auto). subst v0.
    destruct (HL _ _ _ _ HB Hy) as (y1 & Hy1 & Hv1 & Hr1).
    assert (w = v) by (eapply value_fun; [exact Hw|]; exists y1; split; [auto|lia]). subst w.
    destruct (set_value_ok _ _ _ _ _ HS Hy1) as (y2 & Hy2 & Hr2 & Hv2).
    rewrite Hr1, Hr, over_16 in Hv2. cbn [negb] in Hv2. rewrite Bool.andb_true_r in Hv2.
    destruct ((0 <=? v + k) && (v + k <=? 65535)) eqn:E; cbn [negb] in Hv2; rewrite ?Hv1 in Hv2.
    + apply (IH (v + k) y2); auto; [congruence|lia|]. rewrite <- count_step by auto. exact Hout.
    + apply (IH v y2); auto; congruence.
Qed.
Lemma for_stuck f a e k b s r s' y : for_loop ex f a e k b s = Ok r s' -> leaves a b ->
  nth_error (s_syms s) a = Some y -> y_var y = false -> 0 <= y_value y <= 65535 ->
  k = 0 \/ ~ 0 <= y_value y + k * Z.of_nat (count_to (y_value y) e k) <= 65535 ->
  exists s1, too_far s1 s'.
Proof.
  intros H HL Hy Hr Hin Hout. apply for_spec in H. destruct H as (-> & l & s1 & _ & HT & HE).
  destruct HE as [(-> & v1 & Hv1 & HP)|(v1 & u & s2 & Hv1 & NP & HB & HF)]; [|eauto].
  exfalso. destruct (Z.eq_dec k 0) as [->|Hk]; [unfold passed in HP; lia|].
  destruct Hout as [?|Hout]; [contradiction|].
  destruct (for_turns_stuck _ _ _ _ _ _ _ Hk HL HT _ _ Hy eq_refl Hr Hin Hout) as (w & Hw & NP).
  rewrite (value_fun _ _ _ _ Hw Hv1) in NP. contradiction.
Qed.

(** a body that emits at least one byte bounds the number of turns *)
Definition grows (b : nat) : Prop := forall s u s', ex b s = Ok u s' -> s_pc s + 1 <= s_pc s'.
Definition keeps_pc (c : nat) : Prop := forall s u s', ex c s = Ok u s' -> s_pc s <= s_pc s'.
Lemma while_bounded c b n s s' : grows b -> keeps_pc c -> turns (while_turn c b) n s s' ->
  s_pc s <= 65535 -> Z.of_nat n <= 65535 - s_pc s.
Proof.
  intros HG HK HT. induction HT as [|n s s1 s' (v & s2 & u & HC & _ & HB & Hp) HT IH]; intros; [lia|].
  apply HG in HB. apply HK in HC. lia.
Qed.
Lemma do_bounded until b c n s s' : grows b -> keeps_pc c -> turns (do_turn until b c) n s s' ->
  s_pc s <= 65535 -> Z.of_nat n <= 65536 - s_pc s.
Proof.
  intros HG HK HT. induction HT as [|n s s1 s' (v & s2 & u & HB & Hp & HC & _) HT IH]; intros; [lia|].
  apply HG in HB. apply HK in HC.
  destruct (Z_le_gt_dec (s_pc s1) 65535); [lia|].
  inversion HT as [|n0 sa sb sc (v0 & s3 & w & HB1 & Hp1 & _)]; subst; [lia|]. apply HG in HB1. lia.
Qed.
Lemma set_value_pc a v s s' : set_symbol_value a v s = Ok tt s' -> s_pc s' = s_pc s.
Proof.
  unfold set_symbol_value, bind, sym_get, gets, bind. destruct (nth_error (s_syms s) a) as [y|]; [|discriminate].
  unfold ret. destruct (y_value y =? v); [intros H; inversion H; auto|].
  destruct (over v 65535 && negb (y_var y)); [unfold err, modify; intros H; inversion H; auto|].
  unfold sym_set, when, modify, ret. destruct (negb (y_mparam y) && negb (y_var y)); intros H; inversion H; auto.
Qed.
Lemma for_bounded a e k b l s s' : grows b -> for_turns a e k b l s s' ->
  s_pc s <= 65535 -> Z.of_nat (length l) <= 65535 - s_pc s.
Proof.
  intros HG HT. induction HT as [|v l s u s1 w s2 s' Hv NP HB Hp Hw HS HT IH]; intros; [cbn [length]; lia|].
  apply HG in HB. apply set_value_pc in HS. cbn [length]. lia.
Qed.
End Loops.

(** the nodes of the loops *)
Lemma expand_node F n s x : s_stop s = false -> nth_error (s_nodes s) n = Some x ->
  expand (S F) n s = x_node (expand F) F n x s.
Proof.
  intros HS HN. cbn [expand]. unfold bind, gets. rewrite HS. unfold node_get, bind, gets. rewrite HN. reflexivity.
Qed.
Lemma node_while F n c b s : s_stop s = false -> nth_error (s_nodes s) n = Some (mkNode (KOpr OWhile) [c; b]) ->
  forall v s', expand (S F) n s = Ok v s' <->
  v = 0 /\ exists k s1, (k < F)%nat /\ turns (while_turn (expand F) c b) k s s1 /\
    (expand F c s1 = Ok 0 s' \/
     exists w s2 u s3, expand F c s1 = Ok w s2 /\ w <> 0 /\ expand F b s2 = Ok u s3 /\ too_far s3 s').
Proof. intros HS HN v s'. rewrite (expand_node _ _ _ _ HS HN). apply while_spec. Qed.
Lemma node_repeat F n b c s : s_stop s = false -> nth_error (s_nodes s) n = Some (mkNode (KOpr ORepeat) [b; c]) ->
  forall v s', expand (S F) n s = Ok v s' <->
  v = 0 /\ exists k s1 u s2, (k < F)%nat /\ turns (do_turn (expand F) true b c) k s s1 /\ expand F b s1 = Ok u s2 /\
    ((s_pc s2 <= 65535 /\ exists w, expand F c s2 = Ok w s' /\ w <> 0) \/ too_far s2 s').
Proof. intros HS HN v s'. rewrite (expand_node _ _ _ _ HS HN). apply (do_spec _ _ true). Qed.
Lemma node_do F n b c s : s_stop s = false -> nth_error (s_nodes s) n = Some (mkNode (KOpr ODo) [b; c]) ->
  forall v s', expand (S F) n s = Ok v s' <->
  v = 0 /\ exists k s1 u s2, (k < F)%nat /\ turns (do_turn (expand F) false b c) k s s1 /\ expand F b s1 = Ok u s2 /\
    ((s_pc s2 <= 65535 /\ exists w, expand F c s2 = Ok w s' /\ w = 0) \/ too_far s2 s').
Proof. intros HS HN v s'. rewrite (expand_node _ _ _ _ HS HN). apply (do_spec _ _ false). Qed.
(** a .FOR evaluates the step, the assignment and the end once, in this order, and then loops *)
Lemma node_for F n asg e b i sv s r s' : s_stop s = false ->
  nth_error (s_nodes s) n = Some (mkNode (KOpr OFor) ([asg; e; b; i] ++ sv)) ->
  expand (S F) n s = Ok r s' ->
  exists k s1 id0 s2 r2 s3 s4 end_ s5 a a',
    (match sv with nk :: _ => expand F nk s = Ok k s1 | [] => k = 1 /\ s1 = s end) /\
    cached_symbol id0 s1 = Ok a s2 /\ expand F asg s2 = Ok r2 s3 /\ cached_symbol i s3 = Ok a' s4 /\
    expand F e s4 = Ok end_ s5 /\
    ((a = a' /\ for_loop (expand F) F a end_ k b s5 = Ok r s') \/
     (a <> a' /\ r = 0 /\ s' = set_errs (s_errs s5 + 1) (set_msgs (error_expected_next :: s_msgs s5) s5))).
Proof.
  intros HS HN H. rewrite (expand_node _ _ _ _ HS HN) in H. unfold x_node in H. cbn [n_kind] in H.
  unfold x_opr, x_for in H. cbn [n_ops app] in H. unfold bind in H at 1.
  assert (exists k s1, (match sv with nk :: _ => expand F nk s = Ok k s1 | [] => k = 1 /\ s1 = s end) /\
    (match nth_error (asg :: e :: b :: i :: sv) 4 with Some n0 => expand F n0 | None => ret 1 end) s = Ok k s1) as (k & s1 & HK & HE).
  { destruct sv as [|nk sv]; cbn [nth_error] in H |- *.
    - exists 1, s. auto.
    - destruct (expand F nk s) as [k s1|? ?|?|]; try discriminate. eauto. }
  rewrite HE in H. unfold bind, opn, ret in H. cbn [n_ops nth_error] in H.
  destruct (node_get asg s1) as [x0 sa|? ?|?|] eqn:E1; try discriminate.
  assert (sa = s1) as ->.
  { unfold node_get, bind, gets in E1. destruct (nth_error (s_nodes s1) asg); [|discriminate]. now inversion E1. }
  destruct (n_ops x0) as [|id0 ops0]; [discriminate|].
  destruct (cached_symbol id0 s1) as [a s2|? ?|?|] eqn:E3; try discriminate.
  destruct (expand F asg s2) as [r2 s3|? ?|?|] eqn:E4; try discriminate.
  destruct (cached_symbol i s3) as [a' s4|? ?|?|] eqn:E5; try discriminate.
  destruct (expand F e s4) as [end_ s5|? ?|?|] eqn:E6; try discriminate.
  exists k, s1, id0, s2, r2, s3, s4, end_, s5, a, a'. repeat (split; [assumption|]).
  destruct (Nat.eqb a a') eqn:Ea; cbn [negb] in H.
  - left. apply Nat.eqb_eq in Ea. subst a'. split; [reflexivity|exact H].
  - right. apply Nat.eqb_neq in Ea. unfold err, modify in H. inversion H; subst. auto.
Qed.
