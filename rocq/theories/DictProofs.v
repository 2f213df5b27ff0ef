From Verif Require Import Base BaseProofs Hash HashProofs Dict.
From Coq Require Import Permutation.
Ltac Zify.zify_post_hook ::= Z.div_mod_to_equations.

Section DictProofs.
Context {V : Type}.
Implicit Types (d : dict) (h : heap (V:=V)) (k : cstr) (v : V).

Notation elem := (cstr * nat)%type.
Definition fk (k : cstr) : list Z := map tolower k.

(** does a record match key [k]? (specification: equal after folding) *)
Definition lzeqb (a b : list Z) : bool := streq a b.
Definition matches (k : cstr) (e : elem) : bool := lzeqb (fk (fst e)) (fk k).

Definition stackof d k : list elem := filter (matches k) (concat (dtable d)).
Definition vals h (es : list elem) : list (option V) := map (fun e => nth_error h (snd e)) es.

Definition elem_ok (size : Z) (h : heap (V:=V)) (n : nat) (e : elem) : Prop :=
  valids (fst e) /\ (snd e < length h)%nat /\ Z.to_nat (hash_function (fst e) mod size) = n.

(** structural invariant without the load bound *)
Record WF0 d h : Prop := {
  wf_pow : exists p : nat, dsize d = 1024 * 2 ^ Z.of_nat p;
  wf_len : length (dtable d) = Z.to_nat (dsize d);
  wf_elem : forall n c, nth_error (dtable d) n = Some c -> Forall (elem_ok (dsize d) h n) c;
  wf_cnt : dcount d = Z.of_nat (length (concat (dtable d)))
}.

Definition WF d h : Prop := WF0 d h /\ dcount d < dsize d * 9 / 10.

Lemma matches_stricmp k k' a : valids k -> valids k' ->
  matches k (k', a) = (stricmp k' k =? 0).
Proof.
  intros Hk Hk'. unfold matches, lzeqb, fk; cbn [fst].
  destruct (streq (map tolower k') (map tolower k)) eqn:E.
  - apply streq_eq in E. symmetry. apply Z.eqb_eq. apply stricmp_0_iff; assumption.
  - symmetry. apply Z.eqb_neq. intros H. apply stricmp_0_iff in H; try assumption.
    rewrite <- streq_eq in H. congruence.
Qed.

Lemma matches_fk k e : matches k e = true <-> fk (fst e) = fk k.
Proof. unfold matches, lzeqb. apply streq_eq. Qed.

Lemma dsize_pos d h : WF0 d h -> 0 < dsize d.
Proof. intros [[p Hp] _ _ _]. rewrite Hp. pose proof (Z.pow_pos_nonneg 2 (Z.of_nat p)). lia. Qed.

Lemma slot_lt d h k : WF0 d h -> (slot d k < length (dtable d))%nat.
Proof.
  intros H. pose proof (dsize_pos _ _ H) as Hp. rewrite (wf_len _ _ H). unfold slot.
  pose proof (Z.mod_pos_bound (hash_function k) (dsize d) Hp). lia.
Qed.

Lemma slot_fk d k k' : fk k = fk k' -> slot d k = slot d k'.
Proof. intros H. unfold slot. now rewrite (hash_function_fold k k' H). Qed.

Lemma chain_nth_error d n : (n < length (dtable d))%nat -> nth_error (dtable d) n = Some (chain d n).
Proof. intros H. unfold chain. now apply nth_error_nth'. Qed.

Lemma filter_nil {A} (f : A -> bool) l : (forall x, In x l -> f x = false) -> filter f l = [].
Proof.
  induction l as [|x l IH]; intros H; cbn [filter]; [reflexivity|].
  rewrite (H x) by (now left). apply IH. intros y Hy. apply H. now right.
Qed.

Lemma filter_concat_one {A} (f : A -> bool) (t : list (list A)) n c :
  nth_error t n = Some c ->
  (forall m c', m <> n -> nth_error t m = Some c' -> filter f c' = []) ->
  filter f (concat t) = filter f c.
Proof.
  revert n; induction t as [|x t IH]; intros [|n] Hn Ho; cbn in Hn; try discriminate; cbn [concat]; rewrite filter_app.
  - injection Hn as ->. replace (filter f (concat t)) with (@nil A); [apply app_nil_r|].
    symmetry. apply filter_nil. intros y Hy. apply in_concat in Hy as (c' & Hc' & Hy).
    apply In_nth_error in Hc' as (m & Hm).
    specialize (Ho (S m) c' ltac:(lia) Hm).
    destruct (f y) eqn:E; [|reflexivity]. exfalso.
    assert (In y (filter f c')) as HI by (apply filter_In; auto). now rewrite Ho in HI.
  - rewrite (Ho O x ltac:(lia) eq_refl). cbn [app]. apply (IH n); [exact Hn|].
    intros m c' Hm Hc'. apply (Ho (S m) c'); [lia|exact Hc'].
Qed.

Lemma stackof_chain d h k : WF0 d h -> stackof d k = filter (matches k) (chain d (slot d k)).
Proof.
  intros H. unfold stackof. apply filter_concat_one with (n := slot d k).
  - apply chain_nth_error. eapply slot_lt; eassumption.
  - intros m c' Hm Hc'. apply filter_nil. intros e He.
    destruct (matches k e) eqn:E; [|reflexivity]. exfalso.
    apply matches_fk in E. pose proof (wf_elem _ _ H m c' Hc') as HF.
    rewrite Forall_forall in HF. destruct (HF e He) as (_ & _ & Hs).
    apply Hm. rewrite <- Hs. symmetry. unfold slot. now rewrite (hash_function_fold _ _ E).
Qed.

Lemma find_chain_filter c k : valids k -> Forall (fun e : elem => valids (fst e)) c ->
  find_chain c k = option_map snd (hd_error (filter (matches k) c)).
Proof.
  intros Hk. induction c as [|[k' a] c IH]; intros HF; cbn [find_chain filter]; [reflexivity|].
  inversion HF; subst. rewrite matches_stricmp by assumption.
  destruct (stricmp k' k =? 0); [reflexivity|auto].
Qed.

Lemma chain_valid d h n : WF0 d h -> Forall (elem_ok (dsize d) h n) (chain d n).
Proof.
  intros H. destruct (Nat.lt_ge_cases n (length (dtable d))) as [Hn|Hn].
  - apply (wf_elem _ _ H). now apply chain_nth_error.
  - unfold chain. rewrite nth_overflow by lia. constructor.
Qed.

Lemma chain_valid_keys d h n : WF0 d h -> Forall (fun e : elem => valids (fst e)) (chain d n).
Proof. intros H. eapply Forall_impl; [|eapply chain_valid; eassumption]. intros e He. apply He. Qed.

Lemma dict_search_stack d h k : WF0 d h -> valids k ->
  dict_search d k = option_map snd (hd_error (stackof d k)).
Proof.
  intros H Hk. unfold dict_search. rewrite (stackof_chain _ _ _ H).
  apply find_chain_filter; [assumption|]. eapply chain_valid_keys; eassumption.
Qed.

(** ** raw insertion *)
Lemma concat_upd_length {A} n (c c0 : list A) t : nth_error t n = Some c0 ->
  (length (concat (upd n c t)) + length c0 = length (concat t) + length c)%nat.
Proof.
  revert n; induction t as [|x t IH]; intros [|n] Hn; cbn in Hn; try discriminate; cbn [upd concat];
  rewrite !app_length.
  - injection Hn as ->. lia.
  - specialize (IH n Hn). lia.
Qed.

Lemma elem_ok_mono size h h' n e : elem_ok size h n e -> (length h <= length h')%nat -> elem_ok size h' n e.
Proof. intros (H1 & H2 & H3) Hl. split; [exact H1|split; [lia|exact H3]]. Qed.

Lemma insert_raw_wf d h k v d' h' a : WF0 d h -> valids k ->
  dict_insert_raw d h k v = (d', h', a) -> WF0 d' h' /\ dcount d' = dcount d + 1 /\ dsize d' = dsize d.
Proof.
  intros H Hk E. unfold dict_insert_raw in E. injection E as <- <- <-.
  pose proof (slot_lt d h k H) as Hs.
  split; [|split; reflexivity].
  constructor; cbn [dsize dtable dcount].
  - exact (wf_pow _ _ H).
  - rewrite upd_length. exact (wf_len _ _ H).
  - intros n c Hc. rewrite upd_nth in Hc. destruct (Nat.eqb_spec (slot d k) n) as [<-|Hne].
    + destruct (Nat.ltb_spec (slot d k) (length (dtable d))); [|discriminate]. injection Hc as <-.
      constructor.
      * split; [exact Hk|]. cbn [fst snd]. rewrite app_length. cbn. split; [lia|reflexivity].
      * eapply Forall_impl; [|eapply chain_valid; exact H]. intros e He.
        eapply elem_ok_mono; [exact He|]. rewrite app_length; lia.
    + eapply Forall_impl; [|eapply (wf_elem _ _ H); exact Hc]. intros e He.
      eapply elem_ok_mono; [exact He|]. rewrite app_length; lia.
  - rewrite (wf_cnt _ _ H).
    pose proof (concat_upd_length (slot d k) ((k, length h) :: chain d (slot d k)) _ _ (chain_nth_error _ _ Hs)) as HL.
    cbn [length] in HL. lia.
Qed.

Lemma insert_raw_stack d h k v d' h' a k' : WF0 d h -> valids k ->
  dict_insert_raw d h k v = (d', h', a) ->
  stackof d' k' = if lzeqb (fk k) (fk k') then (k, a) :: stackof d k' else stackof d k'.
Proof.
  intros H Hk E. pose proof (insert_raw_wf _ _ _ _ _ _ _ H Hk E) as (H' & _ & Hsz).
  rewrite (stackof_chain _ _ _ H'), (stackof_chain _ _ _ H).
  assert (slot d' k' = slot d k') as Hslot by (unfold slot; now rewrite Hsz).
  rewrite Hslot. pose proof (slot_lt d h k H) as Hs. pose proof (slot_lt d h k' H) as Hs'.
  unfold dict_insert_raw in E. injection E as <- <- <-.
  unfold chain at 1; cbn [dtable].
  rewrite (nth_error_nth (upd (slot d k) ((k, length h) :: chain d (slot d k)) (dtable d)) (slot d k') []
             (x := if Nat.eqb (slot d k) (slot d k') then (k, length h) :: chain d (slot d k) else chain d (slot d k'))).
  2:{ rewrite upd_nth. destruct (Nat.eqb_spec (slot d k) (slot d k')).
      - now apply Nat.ltb_lt in Hs as ->.
      - now apply chain_nth_error. }
  destruct (lzeqb (fk k) (fk k')) eqn:EK.
  - apply streq_eq in EK. rewrite (slot_fk d k k' EK), Nat.eqb_refl. cbn [filter].
    replace (matches k' (k, length h)) with true; [reflexivity|].
    symmetry. now apply matches_fk.
  - destruct (Nat.eqb_spec (slot d k) (slot d k')) as [->|]; [|reflexivity].
    cbn [filter]. unfold matches at 1; cbn [fst]. now rewrite EK.
Qed.

(** ** growth *)
Lemma create_wf p h : WF0 (dict_create_sz (1024 * 2 ^ Z.of_nat p)) h.
Proof.
  constructor; cbn [dict_create_sz dsize dtable dcount].
  - now exists p.
  - apply repeat_length.
  - intros n c Hc. assert (In c (repeat [] (Z.to_nat (1024 * 2 ^ Z.of_nat p)))) as HI by (eapply nth_error_In; exact Hc).
    apply repeat_spec in HI. subst. constructor.
  - induction (Z.to_nat (1024 * 2 ^ Z.of_nat p)); cbn [repeat concat app length]; auto.
Qed.

Lemma concat_repeat_nil {A} n : concat (repeat (@nil A) n) = [].
Proof. induction n; cbn; auto. Qed.

Lemma stackof_create s k : stackof (dict_create_sz s) k = [].
Proof. unfold stackof, dict_create_sz; cbn [dtable]. now rewrite concat_repeat_nil. Qed.

Definition elem_ok0 h (e : elem) := valids (fst e) /\ (snd e < length h)%nat.

Lemma vals_app h h' es : Forall (elem_ok0 h) es -> vals (h ++ h') es = vals h es.
Proof.
  induction 1 as [|e es [_ He] HF IH]; cbn [vals map]; [reflexivity|].
  f_equal; [now apply nth_error_app1|exact IH].
Qed.

Lemma reinsert_spec es : forall d h d' h',
  WF0 d h -> Forall (elem_ok0 h) es -> reinsert es d h = (d', h') ->
  WF0 d' h' /\ dcount d' = dcount d + Z.of_nat (length es) /\ dsize d' = dsize d /\
  (exists t, h' = h ++ t) /\
  (forall k, vals h' (stackof d' k) = rev (vals h (filter (matches k) es)) ++ vals h (stackof d k)).
Proof.
  induction es as [|[k a] es IH]; intros d h d' h' H HF E; cbn [reinsert] in E.
  - injection E as <- <-. split; [exact H|]. split; [cbn; lia|]. split; [reflexivity|].
    split; [exists []; now rewrite app_nil_r|]. intros k. reflexivity.
  - inversion HF as [|? ? [Hk Ha] HF']; subst. cbn [fst snd] in Hk, Ha.
    destruct (nth_error h a) as [v|] eqn:Ev; [|apply nth_error_None in Ev; lia].
    destruct (dict_insert_raw d h k v) as [[d1 h1] a1] eqn:E1.
    pose proof (insert_raw_wf _ _ _ _ _ _ _ H Hk E1) as (H1 & Hc1 & Hs1).
    assert (Hh1 : h1 = h ++ [v] /\ a1 = length h) by (unfold dict_insert_raw in E1; injection E1 as _ <- <-; auto).
    destruct Hh1 as [Hh1 Ha1].
    assert (HF1 : Forall (elem_ok0 h1) es).
    { eapply Forall_impl; [|exact HF']. intros e [X Y]. split; [exact X|]. subst h1. rewrite app_length; lia. }
    destruct (IH _ _ _ _ H1 HF1 E) as (I1 & I2 & I3 & (t & It) & I4).
    split; [exact I1|]. split; [rewrite I2, Hc1; cbn [length]; lia|]. split; [congruence|].
    split; [exists ([v] ++ t); rewrite It, Hh1; now rewrite <- app_assoc|].
    intros k'. rewrite I4. rewrite (insert_raw_stack _ _ _ _ _ _ _ k' H Hk E1).
    cbn [filter]. unfold matches at 2. cbn [fst].
    subst h1.
    assert (Forall (elem_ok0 h) (filter (matches k') es)) as HFf.
    { apply Forall_forall. intros e He. apply filter_In in He as [He _]. rewrite Forall_forall in HF'; auto. }
    assert (Forall (elem_ok0 h) (stackof d k')) as HFs.
    { apply Forall_forall. intros e He. apply filter_In in He as [He _].
      apply in_concat in He as (c & Hc & He). apply In_nth_error in Hc as (n & Hn).
      pose proof (wf_elem _ _ H _ _ Hn) as HE. rewrite Forall_forall in HE. destruct (HE e He) as (X & Y & _). split; assumption. }
    rewrite (vals_app _ _ _ HFf).
    destruct (lzeqb (fk k) (fk k')); cbn [vals map snd rev].
    + fold (vals (h ++ [v]) (stackof d k')). fold (vals h (filter (matches k') es)).
      rewrite (vals_app _ _ _ HFs). rewrite <- app_assoc. cbn [app]. f_equal. f_equal.
      rewrite Ha1, nth_error_app2 by lia. rewrite Nat.sub_diag. cbn. congruence.
    + fold (vals (h ++ [v]) (stackof d k')). fold (vals h (filter (matches k') es)).
      now rewrite (vals_app _ _ _ HFs).
Qed.

Lemma concat_ok d h : WF0 d h -> Forall (elem_ok0 h) (concat (dtable d)).
Proof.
  intros H. apply Forall_forall. intros e He.
  apply in_concat in He as (c & Hc & He). apply In_nth_error in Hc as (n & Hn).
  pose proof (wf_elem _ _ H _ _ Hn) as HE. rewrite Forall_forall in HE.
  destruct (HE e He) as (X & Y & _). split; assumption.
Qed.

Lemma grow_spec d h d' h' : WF0 d h -> dict_grow d h = (d', h') ->
  WF0 d' h' /\ dcount d' = dcount d /\ dsize d' = 2 * dsize d /\
  (exists t, h' = h ++ t) /\
  (forall k, vals h' (stackof d' k) = rev (vals h (stackof d k))).
Proof.
  intros H E. unfold dict_grow in E.
  destruct (wf_pow _ _ H) as [p Hp].
  assert (Hsz : dsize d * growth_factor = 1024 * 2 ^ Z.of_nat (S p)).
  { rewrite Hp. unfold growth_factor. rewrite Nat2Z.inj_succ, Z.pow_succ_r by lia. lia. }
  rewrite Hsz in E.
  destruct (reinsert_spec _ _ _ _ _ (create_wf (S p) h) (concat_ok _ _ H) E) as (A & B & C & D & F).
  split; [exact A|]. split.
  { rewrite B. cbn [dict_create_sz dcount]. rewrite (wf_cnt _ _ H). lia. }
  split. { rewrite C. cbn [dict_create_sz dsize]. rewrite <- Hsz. unfold growth_factor. lia. }
  split; [exact D|]. intros k. rewrite F, stackof_create. cbn [vals map]. now rewrite app_nil_r.
Qed.

(** ** dict_insert *)
Lemma insert_wf d h k v d' h' r : WF d h -> valids k ->
  dict_insert d h k v = (d', h', r) -> WF d' h'.
Proof.
  intros [H HL] Hk E. unfold dict_insert in E.
  destruct (dict_insert_raw d h k v) as [[d1 h1] a] eqn:E1.
  destruct (insert_raw_wf _ _ _ _ _ _ _ H Hk E1) as (H1 & Hc & Hs).
  unfold over_load in E. destruct (Z.leb_spec (dsize d1 * 9 / 10) (dcount d1)) as [HO|HO].
  - destruct (dict_grow d1 h1) as [d2 h2] eqn:E2. injection E as <- <- <-.
    destruct (grow_spec _ _ _ _ H1 E2) as (A & B & C & _).
    split; [exact A|]. rewrite B, C, Hc, Hs. pose proof (dsize_pos _ _ H).
    destruct (wf_pow _ _ H) as [p Hp]. 
    assert (1 <= 2 ^ Z.of_nat p) by (pose proof (Z.pow_pos_nonneg 2 (Z.of_nat p)); lia). lia.
  - injection E as <- <- <-. split; [exact H1|lia].
Qed.

Lemma insert_grows_iff d h k v d' h' r : WF d h -> valids k ->
  dict_insert d h k v = (d', h', r) ->
  (dcount d + 1 < dsize d * 9 / 10 /\ dsize d' = dsize d /\ dcount d' = dcount d + 1 /\
   (forall k', vals h' (stackof d' k') =
      if lzeqb (fk k) (fk k') then Some v :: vals h (stackof d k') else vals h (stackof d k')))
  \/ (dcount d + 1 >= dsize d * 9 / 10 /\ dsize d' = 2 * dsize d /\ dcount d' = dcount d + 1 /\
   (forall k', vals h' (stackof d' k') =
      rev (if lzeqb (fk k) (fk k') then Some v :: vals h (stackof d k') else vals h (stackof d k')))).
Proof.
  intros [H HL] Hk E. unfold dict_insert in E.
  destruct (dict_insert_raw d h k v) as [[d1 h1] a] eqn:E1.
  destruct (insert_raw_wf _ _ _ _ _ _ _ H Hk E1) as (H1 & Hc & Hs).
  assert (Hst : forall k', vals h1 (stackof d1 k') =
      if lzeqb (fk k) (fk k') then Some v :: vals h (stackof d k') else vals h (stackof d k')).
  { intros k'. rewrite (insert_raw_stack _ _ _ _ _ _ _ k' H Hk E1).
    assert (h1 = h ++ [v] /\ a = length h) as [-> ->] by (unfold dict_insert_raw in E1; injection E1 as _ <- <-; auto).
    assert (Forall (elem_ok0 h) (stackof d k')) as HFs.
    { apply Forall_forall. intros e He. apply filter_In in He as [He _].
      pose proof (concat_ok _ _ H) as HC. rewrite Forall_forall in HC; auto. }
    destruct (lzeqb (fk k) (fk k')); cbn [vals map snd].
    - fold (vals (h ++ [v]) (stackof d k')). rewrite (vals_app _ _ _ HFs).
      rewrite nth_error_app2, Nat.sub_diag by lia. reflexivity.
    - apply vals_app, HFs. }
  unfold over_load in E. destruct (Z.leb_spec (dsize d1 * 9 / 10) (dcount d1)) as [HO|HO].
  - destruct (dict_grow d1 h1) as [d2 h2] eqn:E2. injection E as <- <- <-.
    destruct (grow_spec _ _ _ _ H1 E2) as (A & B & C & _ & F).
    right. rewrite Hs, Hc in HO. split; [lia|]. split; [lia|]. split; [lia|].
    intros k'. now rewrite F, Hst.
  - injection E as <- <- <-. left. rewrite Hs, Hc in HO. split; [lia|]. split; [lia|]. split; [lia|]. exact Hst.
Qed.

(** the nested growth test inside [grow] never fires *)
Lemma grow_no_nested d h : WF d h -> forall d1, dsize d1 = 2 * dsize d -> dcount d1 <= dcount d + 1 -> over_load d1 = false.
Proof.
  intros [H HL] d1 Hs Hc. unfold over_load. apply Z.leb_gt.
  destruct (wf_pow _ _ H) as [p Hp].
  assert (1 <= 2 ^ Z.of_nat p) by (pose proof (Z.pow_pos_nonneg 2 (Z.of_nat p)); lia). lia.
Qed.

(** ** dict_delete *)
Lemma del_chain_spec c k : valids k -> Forall (fun e : elem => valids (fst e)) c ->
  match del_chain c k with
  | None => filter (matches k) c = []
  | Some c' => (forall e, In e c' -> In e c) /\ length c = S (length c') /\
               filter (matches k) c' = tl (filter (matches k) c) /\ filter (matches k) c <> [] /\
               (forall k', lzeqb (fk k) (fk k') = false -> filter (matches k') c' = filter (matches k') c)
  end.
Proof.
  intros Hk. induction c as [|[k1 a] c IH]; intros HF; cbn [del_chain]; [reflexivity|].
  inversion HF; subst. cbn [fst] in *. cbn [filter]. rewrite (matches_stricmp k k1 a) by assumption.
  destruct (stricmp k1 k =? 0) eqn:E.
  - split; [intros e He; now right|]. split; [reflexivity|]. split; [reflexivity|]. split; [discriminate|].
    intros k' Hk'. cbn [filter]. unfold matches at 2; cbn [fst].
    assert (fk k1 = fk k) as EE. { apply matches_fk with (e := (k1, a)). rewrite matches_stricmp by assumption. exact E. }
    rewrite EE, Hk'. reflexivity.
  - specialize (IH ltac:(assumption)). destruct (del_chain c k) as [c'|]; [|exact IH].
    destruct IH as (I1 & I2 & I3 & I4 & I5). split.
    + intros e [<-|He]; [now left|right; auto].
    + split; [cbn [length]; lia|]. split.
      * cbn [filter]. now rewrite (matches_stricmp k k1 a), E by assumption.
      * split; [assumption|]. intros k' Hk'. cbn [filter]. now rewrite (I5 k' Hk').
Qed.

Lemma chain_upd d n c size cnt col : (n < length (dtable d))%nat -> forall m,
  chain (mkDict size cnt col (upd n c (dtable d))) m = if Nat.eqb n m then c else chain d m.
Proof.
  intros Hn m. unfold chain; cbn [dtable].
  destruct (Nat.eqb_spec n m) as [<-|E].
  - apply nth_error_nth. rewrite upd_nth, Nat.eqb_refl. now apply Nat.ltb_lt in Hn as ->.
  - destruct (nth_error (dtable d) m) as [c'|] eqn:Ec.
    + rewrite (nth_error_nth _ _ _ Ec). apply nth_error_nth. now rewrite upd_nth_ne.
    + apply nth_error_None in Ec. rewrite !nth_overflow; [reflexivity|lia|rewrite upd_length; lia].
Qed.

Lemma delete_spec d h k : WF d h -> valids k ->
  WF (dict_delete d k) h /\ dsize (dict_delete d k) = dsize d /\
  forall k', stackof (dict_delete d k) k' =
    if lzeqb (fk k) (fk k') then tl (stackof d k') else stackof d k'.
Proof.
  intros [H HL] Hk. pose proof (slot_lt _ _ k H) as Hs.
  unfold dict_delete. pose proof (del_chain_spec (chain d (slot d k)) k Hk (chain_valid_keys _ _ _ H)) as HD.
  destruct (del_chain (chain d (slot d k)) k) as [c'|] eqn:E.
  - destruct HD as (D1 & D2 & D3 & D4 & D5).
    assert (W : WF0 (mkDict (dsize d) (dcount d - 1) (dcoll d) (upd (slot d k) c' (dtable d))) h).
    { constructor; cbn [dsize dtable dcount].
      - exact (wf_pow _ _ H).
      - rewrite upd_length. exact (wf_len _ _ H).
      - intros n c Hc. rewrite upd_nth in Hc. destruct (Nat.eqb_spec (slot d k) n) as [<-|Hne].
        + destruct (Nat.ltb_spec (slot d k) (length (dtable d))); [|discriminate]. injection Hc as <-.
          pose proof (chain_valid _ _ (slot d k) H) as HF. rewrite Forall_forall in HF |- *. auto.
        + apply (wf_elem _ _ H _ _ Hc).
      - rewrite (wf_cnt _ _ H). pose proof (concat_upd_length (slot d k) c' _ _ (chain_nth_error _ _ Hs)). lia. }
    split; [split; [exact W|cbn [dcount dsize]; lia]|]. split; [reflexivity|].
    intros k'. rewrite (stackof_chain _ _ _ W), (stackof_chain _ _ _ H).
    rewrite chain_upd by exact Hs. unfold slot at 2; cbn [dsize]; fold (slot d k').
    destruct (lzeqb (fk k) (fk k')) eqn:EK.
    + apply streq_eq in EK. rewrite (slot_fk d k k' EK), Nat.eqb_refl.
      assert (Hm : forall e, matches k' e = matches k e) by (intros e; unfold matches; now rewrite EK).
      rewrite !(filter_ext _ _ Hm). rewrite <- (slot_fk d k k' EK). exact D3.
    + destruct (Nat.eqb_spec (slot d k) (slot d k')) as [<-|]; [|reflexivity]. apply D5, EK.
  - split; [split; assumption|]. split; [reflexivity|].
    intros k'. destruct (lzeqb (fk k) (fk k')) eqn:EK; [|reflexivity].
    apply streq_eq in EK.
    assert (Hm : forall e, matches k' e = matches k e) by (intros e; unfold matches; now rewrite EK).
    unfold stackof. rewrite !(filter_ext _ _ Hm). fold (stackof d k). rewrite (stackof_chain _ _ _ H), HD. reflexivity.
Qed.

(** ** operation sequences *)
Inductive dop := DInsert (k : cstr) (v : V) | DDelete (k : cstr).

Definition dstep (s : @dict * heap (V:=V)) (o : dop) : @dict * heap (V:=V) :=
  match o with
  | DInsert k v => let '(d, h, _) := dict_insert (fst s) (snd s) k v in (d, h)
  | DDelete k => (dict_delete (fst s) k, snd s)
  end.
Definition drun (ops : list dop) := fold_left dstep ops (dict_create, []).

Definition dop_key (o : dop) := match o with DInsert k _ | DDelete k => k end.

(** What a lookup delivers: the value at the address found. *)
Definition dlookup (s : @dict * heap (V:=V)) (k : cstr) : option V :=
  match dict_search (fst s) k with None => None | Some a => nth_error (snd s) a end.

Lemma init_wf : WF dict_create ([] : heap (V:=V)).
Proof.
  split; [exact (create_wf 0 [])|]. cbn. lia.
Qed.

Lemma step_wf s o : WF (fst s) (snd s) -> valids (dop_key o) -> WF (fst (dstep s o)) (snd (dstep s o)).
Proof.
  intros H Hk. destruct o as [k v|k]; cbn [dstep dop_key] in *.
  - destruct (dict_insert (fst s) (snd s) k v) as [[d h] r] eqn:E. cbn [fst snd].
    eapply insert_wf; eassumption.
  - apply delete_spec; assumption.
Qed.

Lemma fold_wf ops : forall s, WF (fst s) (snd s) -> Forall (fun o => valids (dop_key o)) ops ->
  WF (fst (fold_left dstep ops s)) (snd (fold_left dstep ops s)).
Proof.
  induction ops as [|o ops IH]; intros s H HF; cbn [fold_left]; [exact H|].
  inversion HF; subst. apply IH; [apply step_wf|]; assumption.
Qed.

Lemma run_wf ops : Forall (fun o => valids (dop_key o)) ops -> WF (fst (drun ops)) (snd (drun ops)).
Proof. intros H. apply fold_wf; [apply init_wf|exact H]. Qed.

Lemma dlookup_stack s k : WF (fst s) (snd s) -> valids k ->
  dlookup s k = match vals (snd s) (stackof (fst s) k) with [] => None | x :: _ => x end.
Proof.
  intros [H _] Hk. unfold dlookup. rewrite (dict_search_stack _ _ _ H Hk).
  destruct (stackof (fst s) k) as [|[k1 a] t]; reflexivity.
Qed.

(** exact effect of every step on the per-key stacks; growth reverses them *)
Definition grows (s : @dict * heap (V:=V)) (o : dop) : bool :=
  match o with
  | DInsert _ _ => dsize (fst s) * 9 / 10 <=? dcount (fst s) + 1
  | DDelete _ => false
  end.

Lemma step_stack s o k : WF (fst s) (snd s) -> valids (dop_key o) ->
  vals (snd (dstep s o)) (stackof (fst (dstep s o)) k) =
  let old := vals (snd s) (stackof (fst s) k) in
  let new := match o with
             | DInsert k1 v => if lzeqb (fk k1) (fk k) then Some v :: old else old
             | DDelete k1 => if lzeqb (fk k1) (fk k) then tl old else old
             end in
  if grows s o then rev new else new.
Proof.
  intros H Hk. cbv zeta. destruct o as [k1 v|k1]; cbn [dstep dop_key grows] in *.
  - destruct (dict_insert (fst s) (snd s) k1 v) as [[d h] r] eqn:E. cbn [fst snd].
    destruct (insert_grows_iff _ _ _ _ _ _ _ H Hk E) as [(A & _ & _ & B)|(A & _ & _ & B)].
    + replace (dsize (fst s) * 9 / 10 <=? dcount (fst s) + 1) with false by (symmetry; apply Z.leb_gt; lia). apply B.
    + replace (dsize (fst s) * 9 / 10 <=? dcount (fst s) + 1) with true by (symmetry; apply Z.leb_le; lia). apply B.
  - cbn [fst snd]. destruct (delete_spec _ _ k1 H Hk) as (_ & _ & HS). rewrite HS.
    destruct (lzeqb (fk k1) (fk k)); [|reflexivity].
    destruct (stackof (fst s) k); reflexivity.
Qed.

(** ** abstract specification: a finite map keyed by folded strings *)
Definition amap := list Z -> option V.
Definition aempty : amap := fun _ => None.
Definition astep (m : amap) (o : dop) : amap :=
  match o with
  | DInsert k v => fun q => if list_eq_dec Z.eq_dec (map tolower k) q then Some v else m q
  | DDelete k => fun q => if list_eq_dec Z.eq_dec (map tolower k) q then None else m q
  end.
(** inserts only of absent keys *)
Fixpoint fresh_ops (m : amap) (ops : list dop) : Prop :=
  match ops with
  | [] => True
  | o :: ops' =>
      match o with DInsert k _ => m (map tolower k) = None | DDelete _ => True end
      /\ fresh_ops (astep m o) ops'
  end.

Definition rel (s : @dict * heap (V:=V)) (m : amap) : Prop :=
  forall k, vals (snd s) (stackof (fst s) k) = match m (fk k) with None => [] | Some v => [Some v] end.

Lemma lzeqb_dec a b : lzeqb a b = if list_eq_dec Z.eq_dec a b then true else false.
Proof.
  destruct (list_eq_dec Z.eq_dec a b) as [->|E].
  - now apply streq_eq.
  - destruct (lzeqb a b) eqn:X; [|reflexivity]. apply streq_eq in X. congruence.
Qed.

Lemma step_rel s m o : WF (fst s) (snd s) -> rel s m -> valids (dop_key o) ->
  match o with DInsert k _ => m (map tolower k) = None | DDelete _ => True end ->
  rel (dstep s o) (astep m o).
Proof.
  intros H R Hk HO k. rewrite (step_stack _ _ _ H Hk). cbv zeta.
  assert (Hrev : forall l : list (option V), (length l <= 1)%nat -> (if grows s o then rev l else l) = l).
  { intros [|x [|y l]] Hl; cbn [length] in Hl; try lia; destruct (grows s o); reflexivity. }
  rewrite !R. destruct o as [k1 v|k1]; cbn [astep] in *.
  - rewrite lzeqb_dec. unfold fk in *. destruct (list_eq_dec Z.eq_dec (map tolower k1) (map tolower k)) as [E|E].
    + rewrite <- E, HO. apply Hrev. cbn; lia.
    + apply Hrev. destruct (m (map tolower k)); cbn; lia.
  - rewrite lzeqb_dec. unfold fk in *. destruct (list_eq_dec Z.eq_dec (map tolower k1) (map tolower k)) as [E|E].
    + cbn [grows]. destruct (m (map tolower k)); reflexivity.
    + reflexivity.
Qed.

Lemma fold_rel ops : forall s m, WF (fst s) (snd s) -> rel s m ->
  Forall (fun o => valids (dop_key o)) ops -> fresh_ops m ops ->
  rel (fold_left dstep ops s) (fold_left astep ops m).
Proof.
  induction ops as [|o ops IH]; intros s m H R HF HO; cbn [fold_left]; [exact R|].
  inversion HF; subst. cbn [fresh_ops] in HO. destruct HO as [HO1 HO2].
  apply IH; try assumption; [apply step_wf|apply step_rel]; assumption.
Qed.

Lemma dict_refines_map ops k :
  Forall (fun o => valids (dop_key o)) ops -> fresh_ops aempty ops -> valids k ->
  dlookup (drun ops) k = fold_left astep ops aempty (map tolower k).
Proof.
  intros HF HO Hk. rewrite dlookup_stack; [|now apply run_wf|exact Hk].
  assert (rel (dict_create, []) aempty) as R0.
  { intros q. cbn [fst snd aempty]. unfold dict_create. rewrite stackof_create. reflexivity. }
  pose proof (fold_rel ops (dict_create, []) aempty init_wf R0 HF HO k) as R. unfold drun. rewrite R. unfold fk.
  destruct (fold_left astep ops aempty (map tolower k)); reflexivity.
Qed.

(** ** duplicates: stack semantics as long as no growth happens *)
Definition smap := list Z -> list V.
Definition sstep (m : smap) (o : dop) : smap :=
  match o with
  | DInsert k v => fun q => if list_eq_dec Z.eq_dec (map tolower k) q then v :: m q else m q
  | DDelete k => fun q => if list_eq_dec Z.eq_dec (map tolower k) q then tl (m q) else m q
  end.

Definition srel (s : @dict * heap (V:=V)) (m : smap) : Prop :=
  forall k, vals (snd s) (stackof (fst s) k) = map Some (m (fk k)).

Definition ninserts (ops : list dop) : nat :=
  length (filter (fun o => match o with DInsert _ _ => true | _ => false end) ops).

Lemma step_srel s m o : WF (fst s) (snd s) -> srel s m -> valids (dop_key o) -> grows s o = false ->
  srel (dstep s o) (sstep m o).
Proof.
  intros H R Hk HG k. rewrite (step_stack _ _ _ H Hk). cbv zeta. rewrite HG, !R.
  destruct o as [k1 v|k1]; cbn [sstep]; rewrite lzeqb_dec; unfold fk;
  destruct (list_eq_dec Z.eq_dec (map tolower k1) (map tolower k)); try reflexivity.
  destruct (m (map tolower k)); reflexivity.
Qed.

Lemma step_count s o : WF (fst s) (snd s) -> valids (dop_key o) -> grows s o = false ->
  dsize (fst (dstep s o)) = dsize (fst s) /\
  dcount (fst (dstep s o)) <= dcount (fst s) + match o with DInsert _ _ => 1 | _ => 0 end.
Proof.
  intros H Hk HG. destruct o as [k1 v|k1]; cbn [dstep grows dop_key] in *.
  - destruct (dict_insert (fst s) (snd s) k1 v) as [[d h] r] eqn:E. cbn [fst snd].
    destruct (insert_grows_iff _ _ _ _ _ _ _ H Hk E) as [(A & B & C & _)|(A & _)]; lia.
  - cbn [fst]. unfold dict_delete. destruct (del_chain _ _); cbn [dsize dcount]; lia.
Qed.

Lemma fold_srel ops : forall s m, WF (fst s) (snd s) -> srel s m -> dsize (fst s) = 1024 ->
  Forall (fun o => valids (dop_key o)) ops -> dcount (fst s) + Z.of_nat (ninserts ops) < 921 ->
  srel (fold_left dstep ops s) (fold_left sstep ops m).
Proof.
  induction ops as [|o ops IH]; intros s m H R Hs HF HN; cbn [fold_left]; [exact R|].
  inversion HF; subst.
  assert (HG : grows s o = false).
  { destruct o; cbn [grows]; [|reflexivity]. rewrite Hs. unfold ninserts in HN. cbn [filter length] in HN.
    apply Z.leb_gt. cbn. lia. }
  destruct (step_count s o H ltac:(assumption) HG) as [C1 C2].
  apply IH; try assumption; [apply step_wf|apply step_srel|congruence|]; try assumption.
  unfold ninserts in *. destruct o; cbn [filter length] in HN; lia.
Qed.

Lemma dict_most_recent_no_growth ops k :
  Forall (fun o => valids (dop_key o)) ops -> valids k -> (ninserts ops < 921)%nat ->
  dlookup (drun ops) k = hd_error (fold_left sstep ops (fun _ => []) (map tolower k)).
Proof.
  intros HF Hk HN. rewrite dlookup_stack; [|now apply run_wf|exact Hk].
  assert (srel (dict_create, []) (fun _ => [])) as R0.
  { intros q. cbn [fst snd]. unfold dict_create. rewrite stackof_create. reflexivity. }
  pose proof (fold_srel ops (dict_create, []) (fun _ => []) init_wf R0 eq_refl HF) as R. unfold drun.
  rewrite R by (cbn [dcount dict_create dict_create_sz fst]; lia). unfold fk.
  destruct (fold_left sstep ops (fun _ => []) (map tolower k)); reflexivity.
Qed.

End DictProofs.
