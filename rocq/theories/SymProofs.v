(** Facts about sym.cc. *)
From Coq Require Import String Lia Permutation Sorting.Sorted.
From Verif Require Import Base BaseProofs Hash Dict DictProofs Str Opcodes Err State Sym Machine Build Pass Inv.
Open Scope string_scope.
Open Scope list_scope.
Open Scope Z_scope.
Open Scope m_scope.

(** ** set_symbol_value *)
Lemma over_16 v : over v 65535 = negb ((0 <=? v) && (v <=? 65535)).
Proof.
  unfold over. f_equal. change 65535 with (Z.ones 16). 
  assert (E : Z.land v (Z.lnot (Z.ones 16)) = v - v mod 65536).
  { change (Z.lnot (Z.ones 16)) with (Z.lnot (Z.ones 16)). rewrite <- Z.ldiff_land, Z.ldiff_ones_r by lia.
    rewrite Z.shiftl_mul_pow2, Z.shiftr_div_pow2 by lia. change (2 ^ 16) with 65536.
    pose proof (Z.div_mod v 65536). lia. }
  rewrite E. change (Z.ones 16) with 65535. pose proof (Z.mod_pos_bound v 65536 ltac:(lia)).
  destruct (Z.eqb_spec (v - v mod 65536) 0) as [H1|H1]; symmetry.
  - apply andb_true_iff. rewrite !Z.leb_le. lia.
  - apply andb_false_iff. rewrite !Z.leb_gt. destruct (Z.lt_ge_cases v 0); [auto|].
    destruct (Z.lt_ge_cases 65535 v); [auto|]. exfalso. apply H1. rewrite Z.mod_small; lia.
Qed.

Definition same_flags (y y' : symbol) : Prop :=
  y_var y' = y_var y /\ y_mparam y' = y_mparam y /\ y_init y' = y_init y /\ y_times y' = y_times y /\
  y_mname y' = y_mname y /\ y_name y' = y_name y /\ y_scope y' = y_scope y.

(** one call, completely *)
Lemma set_symbol_value_spec a v s y : nth_error (s_syms s) a = Some y ->
  exists s', set_symbol_value a v s = Ok tt s' /\
  (s' = s /\ y_value y = v \/
   s' = set_errs (s_errs s + 1) (set_msgs (error_value_out_of_range :: s_msgs s) s) /\
     y_var y = false /\ ~ 0 <= v <= 65535 \/
   y_value y <> v /\ (0 <= v <= 65535 \/ y_var y = true) /\
     s' = (let t := set_syms (upd a (y_set_value v y) (s_syms s)) s in
           if y_mparam y || y_var y then t else set_changed (s_changed s + 1) t)).
Proof.
  intros H. pose proof (over_16 v) as O.
  assert (Ow : over v 65535 = false <-> 0 <= v <= 65535).
  { rewrite O. rewrite negb_false_iff, andb_true_iff, !Z.leb_le. tauto. }
  unfold set_symbol_value, sym_get, gets, bind, sym_set, modify, err, when, ret. rewrite H.
  destruct (Z.eqb_spec (y_value y) v) as [E|E]; [eexists; split; [reflexivity|auto]|].
  destruct (over v 65535) eqn:E1; destruct (y_var y) eqn:E2; cbn [negb andb].
  - destruct (y_mparam y); cbn; eexists; split; try reflexivity; right; right;
      (split; [auto|]; split; [auto|]); reflexivity.
  - eexists; split; [reflexivity|]. right; left. split; [reflexivity|]. split; [reflexivity|].
    intros H1. apply Ow in H1. discriminate.
  - destruct (y_mparam y); cbn; eexists; split; try reflexivity; right; right;
      (split; [auto|]; split; [auto|]); reflexivity.
  - assert (0 <= v <= 65535) by (apply Ow; reflexivity).
    destruct (y_mparam y); cbn; eexists; split; try reflexivity; right; right;
      (split; [auto|]; split; [auto|]); reflexivity.
Qed.

(** any sequence of calls *)
Fixpoint set_values (l : list (nat * Z)) : M unit :=
  match l with [] => ret tt | (a, v) :: l => set_symbol_value a v ;;; set_values l end.

Definition in16 (y : symbol) : Prop := y_var y = false -> 0 <= y_value y <= 65535.

Lemma Forall_upd {A} (P : A -> Prop) l n x : Forall P l -> P x -> Forall P (upd n x l).
Proof. intros H Hx. revert n; induction H; intros [|n]; cbn; constructor; auto. Qed.
Lemma nth_upd_same {A} (l : list A) n x : (n < length l)%nat -> nth_error (upd n x l) n = Some x.
Proof. revert n; induction l; intros [|n] H; cbn in *; try lia; auto. apply IHl; lia. Qed.
Lemma nth_upd_other {A} (l : list A) n m x : n <> m -> nth_error (upd n x l) m = nth_error l m.
Proof. revert n m; induction l; intros [|n] [|m] H; cbn; auto; congruence. Qed.
Lemma upd_length {A} (l : list A) n x : length (upd n x l) = length l.
Proof. revert n; induction l; intros [|n]; cbn; auto. Qed.

Lemma set_value_16 a v s s' : Forall in16 (s_syms s) -> set_symbol_value a v s = Ok tt s' -> Forall in16 (s_syms s').
Proof.
  intros H E. pose proof E as E0. svcases E; auto. 
  - cbn [s_syms set_syms]. apply Forall_upd; auto. intros Hv'. cbn in Hv'. cbn.
    destruct Ho as [Ho|Ho]; [|congruence]. rewrite over_16 in Ho. apply negb_false_iff, andb_true_iff in Ho.
    rewrite !Z.leb_le in Ho. exact Ho.
  - cbn [s_syms set_syms set_changed]. apply Forall_upd; auto. intros _. cbn.
    rewrite over_16 in Ho. apply negb_false_iff, andb_true_iff in Ho. rewrite !Z.leb_le in Ho. exact Ho.
Qed.
Lemma set_values_16 l : forall s s', Forall in16 (s_syms s) -> set_values l s = Ok tt s' -> Forall in16 (s_syms s').
Proof.
  induction l as [|[a v] l IH]; intros s s' H E; cbn [set_values] in E.
  - injection E as <-. exact H.
  - unfold bind in E. destruct (set_symbol_value a v s) as [[] s1|c s1| |] eqn:E1; try discriminate.
    eapply IH; [|exact E]. eapply set_value_16; eauto.
Qed.

(** number of calls that change the value of a symbol that is neither variable nor parameter *)
Definition effective (a : nat) (v : Z) (s : state) : Z :=
  match nth_error (s_syms s) a with
  | Some y => if negb (y_var y) && negb (y_mparam y) && negb (y_value y =? v) && (0 <=? v) && (v <=? 65535) then 1 else 0
  | None => 0
  end.
Lemma set_value_changed a v s s' : set_symbol_value a v s = Ok tt s' ->
  s_changed s' = s_changed s + effective a v s.
Proof.
  intros E. unfold effective. svcases E; rewrite Hy.
  - rewrite (proj2 (Z.eqb_eq _ _) Hv). cbn. rewrite !andb_false_r. cbn. lia.
  - rewrite over_16 in Ho. apply negb_true_iff in Ho.
    rewrite <- (andb_assoc _ (0 <=? v)), Ho, andb_false_r. cbn. lia.
  - replace (negb (y_var y) && negb (y_mparam y)) with false; [cbn; lia|].
    destruct Hvar as [-> | ->]; [rewrite andb_false_r|]; reflexivity.
  - rewrite Hmp, Hvar. rewrite (proj2 (Z.eqb_neq _ _) Hv). rewrite over_16 in Ho. apply negb_false_iff in Ho.
    apply andb_true_iff in Ho. destruct Ho as [-> ->]. cbn. lia.
Qed.
Lemma set_value_others a v s s' : set_symbol_value a v s = Ok tt s' ->
  forall b, b <> a -> nth_error (s_syms s') b = nth_error (s_syms s) b.
Proof.
  intros E b Hb. svcases E; auto; cbn [s_syms set_syms set_changed]; apply nth_upd_other; auto.
Qed.
Lemma set_value_flags a v s s' : set_symbol_value a v s = Ok tt s' -> forall b y, nth_error (s_syms s) b = Some y ->
  exists y', nth_error (s_syms s') b = Some y' /\ same_flags y y' /\
    (s_changed s' = s_changed s -> y_var y = false -> y_mparam y = false -> y' = y).
Proof.
  intros E b y0 Hb. pose proof (set_value_others _ _ _ _ E b) as Ho'.
  destruct (Nat.eq_dec b a) as [->|Hn].
  - svcases E.
    + exists y0. unfold same_flags; repeat split; auto.
    + exists y0. unfold same_flags; repeat split; auto.
    + assert (y = y0) by congruence; subst. exists (y_set_value v y0). cbn [s_syms set_syms].
      rewrite nth_upd_same by (apply nth_error_Some; congruence).
      unfold same_flags; repeat split; auto. intros. destruct Hvar; congruence.
    + assert (y = y0) by congruence; subst. exists (y_set_value v y0). cbn [s_syms set_syms set_changed s_changed].
      rewrite nth_upd_same by (apply nth_error_Some; congruence).
      unfold same_flags; repeat split; auto. intros. lia.
  - rewrite Ho' by auto. exists y0. unfold same_flags; repeat split; auto.
Qed.
Lemma set_value_mono a v s s' : set_symbol_value a v s = Ok tt s' -> s_changed s <= s_changed s'.
Proof. intros E. svcases E; cbn; lia. Qed.
Lemma set_values_mono l : forall s s', set_values l s = Ok tt s' -> s_changed s <= s_changed s'.
Proof.
  induction l as [|[a v] l IH]; intros s s' E; cbn [set_values] in E.
  - injection E as <-. lia.
  - unfold bind in E. destruct (set_symbol_value a v s) as [[] s1|c s1| |] eqn:E1; try discriminate.
    apply IH in E. apply set_value_mono in E1. lia.
Qed.
(** no counted change: every symbol that is neither variable nor parameter is as before *)
Lemma set_values_unchanged l : forall s s', set_values l s = Ok tt s' -> s_changed s' = s_changed s ->
  forall b y, nth_error (s_syms s) b = Some y -> y_var y = false -> y_mparam y = false -> nth_error (s_syms s') b = Some y.
Proof.
  induction l as [|[a v] l IH]; intros s s' E Hc b y Hb Hv Hm; cbn [set_values] in E.
  - injection E as <-. exact Hb.
  - unfold bind in E. destruct (set_symbol_value a v s) as [[] s1|c s1| |] eqn:E1; try discriminate.
    pose proof (set_value_mono _ _ _ _ E1). pose proof (set_values_mono _ _ _ E).
    destruct (set_value_flags _ _ _ _ E1 b y Hb) as (y' & H1 & _ & H2). rewrite H2 in H1 by (auto; lia).
    eapply IH; eauto. lia.
Qed.

(** ** Lookup *)
Definition dl (s : state) (k : cstr) : option symbol := dlookup (s_dict s, s_syms s) k.
(** what a name means in a scope *)
Definition resolve (s : state) (sc : option cstr) (n : cstr) : option symbol :=
  match sc with
  | None => dl s n
  | Some c => match dl s (dotted c n) with Some y => Some y | None => dl s n end
  end.
Definition DWF (s : state) : Prop := WF (s_dict s) (s_syms s).

Lemma dl_search s k : DWF s -> valids k ->
  match dict_search (s_dict s) k with
  | Some a => exists y, nth_error (s_syms s) a = Some y /\ dl s k = Some y
  | None => dl s k = None
  end.
Proof.
  intros H Hk. unfold dl, dlookup. cbn [fst snd]. destruct (dict_search (s_dict s) k) as [a|] eqn:E; auto.
  destruct H as [H _]. rewrite (dict_search_stack _ _ _ H Hk) in E.
  destruct (stackof (s_dict s) k) as [|[k1 b] t] eqn:E2; [discriminate|]. injection E as <-.
  assert (In (k1, b) (concat (dtable (s_dict s)))).
  { assert (In (k1, b) (stackof (s_dict s) k)) by (rewrite E2; left; auto). apply filter_In in H0. tauto. }
  pose proof (concat_ok _ _ H) as HC. rewrite Forall_forall in HC. destruct (HC _ H0) as [_ HL]. cbn in HL.
  destruct (nth_error (s_syms s) b) as [y|] eqn:E3; [eauto|]. apply nth_error_None in E3. lia.
Qed.

Lemma look_up_in_spec sc n s : DWF s -> valids n -> (forall c, sc = Some c -> valids c) ->
  exists r s', look_up_in sc n s = Ok r s' /\
  match r with
  | None => resolve s sc n = None /\ s' = s
  | Some a => exists y, nth_error (s_syms s) a = Some y /\ resolve s sc n = Some y /\
                        s' = set_syms (upd a (y_times_inc y) (s_syms s)) s
  end.
Proof.
  intros H Hn Hc. unfold look_up_in, sym_search, bind, gets, sym_get, sym_set, modify, ret.
  destruct sc as [c|].
  - assert (V : valids (dotted c n)).
    { unfold dotted. apply Forall_app. split; [apply Hc; auto|]. constructor; auto. split; [unfold validc in *; lia|lia]. }
    pose proof (dl_search s (dotted c n) H V) as D1. pose proof (dl_search s n H Hn) as D2. unfold resolve.
    destruct (dict_search (s_dict s) (dotted c n)) as [a|].
    + destruct D1 as (y & D1 & D3). unfold bind, gets. rewrite D1. do 2 eexists; split; [reflexivity|].
      exists y. rewrite D3. auto.
    + rewrite D1. destruct (dict_search (s_dict s) n) as [a|].
      * destruct D2 as (y & D2 & D3). unfold bind, gets. rewrite D2. do 2 eexists; split; [reflexivity|].
        exists y. rewrite D3. auto.
      * rewrite D2. do 2 eexists; split; [reflexivity|]. cbn. auto.
  - pose proof (dl_search s n H Hn) as D2. unfold resolve. destruct (dict_search (s_dict s) n) as [a|].
    + destruct D2 as (y & D2 & D3). unfold bind, gets. rewrite D2. do 2 eexists; split; [reflexivity|].
      exists y. rewrite D3. auto.
    + rewrite D2. do 2 eexists; split; [reflexivity|]. cbn. auto.
Qed.

(** inserting under a key leaves all other keys alone *)
Lemma vals_upd_dead (h : list symbol) a y es : (forall e, In e es -> snd e <> a) -> vals (upd a y h) es = vals h es.
Proof.
  intros H. unfold vals. apply map_ext_in. intros e He. apply nth_upd_other. intro; apply (H e He); auto.
Qed.
Lemma WF0_upd d (h : list symbol) a y : WF0 d h -> WF0 d (upd a y h).
Proof.
  intros [H1 H2 H3 H4]. constructor; auto. intros n c E. eapply Forall_impl; [|apply (H3 _ _ E)].
  intros e (A & B & C). repeat split; auto. rewrite upd_length. exact B.
Qed.
Lemma WF_upd d (h : list symbol) a y : WF d h -> WF d (upd a y h).
Proof. intros [H1 H2]. split; auto. apply WF0_upd; auto. Qed.

Lemma dict_insert_handle (d : dict) (h : list symbol) k v d' h' a : dict_insert d h k v = (d', h', a) ->
  (exists d1, dict_insert_raw d h k v = (d1, h ++ [v], length h) /\
    ((a = Some (length h) /\ d' = d1 /\ h' = h ++ [v]) \/ (a = dict_search d' k /\ dict_grow d1 (h ++ [v]) = (d', h')))).
Proof.
  unfold dict_insert. destruct (dict_insert_raw d h k v) as [[d1 h1] b] eqn:E.
  assert (h1 = h ++ [v] /\ b = length h) as [-> ->] by (unfold dict_insert_raw in E; injection E as _ <- <-; auto).
  exists d1. split; [reflexivity|]. destruct (over_load d1); [|injection H as <- <- <-; auto].
  destruct (dict_grow d1 (h ++ [v])) as [d2 h2] eqn:E2. injection H as <- <- <-. right; split; auto.
Qed.

(** addresses in the table are distinct *)
Definition addrs (d : dict) : list nat := map snd (concat (dtable d)).
Lemma concat_upd_perm {A} n (x : A) c t : nth_error t n = Some c -> Permutation (concat (upd n (x :: c) t)) (x :: concat t).
Proof.
  revert n; induction t as [|b t IH]; intros [|n] H; cbn in H; try discriminate.
  - injection H as ->. reflexivity.
  - cbn [upd concat]. rewrite (IH _ H). symmetry. apply Permutation_middle.
Qed.
Lemma addrs_lt (d : dict) (h : list symbol) : WF0 d h -> Forall (fun a => (a < length h)%nat) (addrs d).
Proof.
  intros H. unfold addrs. apply Forall_map. eapply Forall_impl; [|apply (concat_ok _ _ H)]. intros e [_ He]; exact He.
Qed.
Lemma raw_addrs (d : dict) (h : list symbol) k v d' h' a : WF0 d h -> dict_insert_raw d h k v = (d', h', a) ->
  NoDup (addrs d) -> NoDup (addrs d').
Proof.
  intros H E N. unfold dict_insert_raw in E. injection E as <- <- <-. unfold addrs. cbn [dtable].
  pose proof (concat_upd_perm (slot d k) (k, length h) _ _ (chain_nth_error _ _ (slot_lt d h k H))) as P.
  eapply Permutation_NoDup; [apply Permutation_sym, Permutation_map, P|]. cbn [map snd]. constructor; auto.
  intros HI. pose proof (addrs_lt d h H) as L. rewrite Forall_forall in L. apply L in HI. lia.
Qed.
Lemma reinsert_addrs es : forall (d : dict) (h : list symbol) d' h', WF0 d h -> Forall (elem_ok0 h) es ->
  reinsert es d h = (d', h') -> NoDup (addrs d) -> NoDup (addrs d').
Proof.
  induction es as [|[k a] es IH]; intros d h d' h' H HF E N; cbn [reinsert] in E.
  - injection E as <- <-. exact N.
  - inversion HF as [|? ? [Hk Ha] HF']; subst. cbn [fst snd] in *.
    destruct (nth_error h a) as [v|] eqn:Ev; [|apply nth_error_None in Ev; lia].
    destruct (dict_insert_raw d h k v) as [[d1 h1] a1] eqn:E1.
    pose proof (insert_raw_wf _ _ _ _ _ _ _ H Hk E1) as (H1 & _ & _).
    assert (Hh1 : h1 = h ++ [v]) by (unfold dict_insert_raw in E1; injection E1 as _ <- <-; auto).
    apply (fun X => IH _ _ _ _ H1 X E (raw_addrs _ _ _ _ _ _ _ H E1 N)).
    eapply Forall_impl; [|exact HF']. intros e [X Y]. split; [exact X|]. subst h1. rewrite app_length; lia.
Qed.
Lemma insert_addrs (d : dict) (h : list symbol) k v d' h' r : WF d h -> valids k ->
  dict_insert d h k v = (d', h', r) -> NoDup (addrs d) -> NoDup (addrs d').
Proof.
  intros [H _] Hk E N. unfold dict_insert in E. destruct (dict_insert_raw d h k v) as [[d1 h1] a] eqn:E1.
  pose proof (raw_addrs _ _ _ _ _ _ _ H E1 N) as N1.
  destruct (over_load d1); [|injection E as <- <- <-; exact N1].
  destruct (dict_grow d1 h1) as [d2 h2] eqn:E2. injection E as <- <- <-.
  destruct (insert_raw_wf _ _ _ _ _ _ _ H Hk E1) as (H1 & _ & _).
  unfold dict_grow in E2. destruct (wf_pow _ _ H1) as [p Hp].
  assert (Hsz : dsize d1 * growth_factor = 1024 * 2 ^ Z.of_nat (S p)).
  { rewrite Hp. unfold growth_factor. rewrite Nat2Z.inj_succ, Z.pow_succ_r by lia. lia. }
  rewrite Hsz in E2. eapply reinsert_addrs; [apply (create_wf (S p))|apply (concat_ok _ _ H1)|exact E2|].
  unfold addrs, dict_create_sz. cbn [dtable]. rewrite concat_repeat_nil. constructor.
Qed.

(** the table of symbols is sound *)
Definition table_ok (s : state) : Prop := WF (s_dict s) (s_syms s) /\ NoDup (addrs (s_dict s)).
(** records under a key *)
Definition recs (s : state) (k : cstr) : list (option symbol) := vals (s_syms s) (stackof (s_dict s) k).

Lemma dl_recs s k : table_ok s -> valids k -> dl s k = match recs s k with [] => None | x :: _ => x end.
Proof. intros [H _] Hk. apply (dlookup_stack (s_dict s, s_syms s) k H Hk). Qed.
Lemma recs_some s k : table_ok s -> Forall (fun o => exists y, o = Some y) (recs s k).
Proof.
  intros [[H _] _]. unfold recs, vals. apply Forall_map, Forall_forall. intros e He. apply filter_In in He. destruct He as [He _].
  pose proof (concat_ok _ _ H) as HC. rewrite Forall_forall in HC. destruct (HC _ He) as [_ HL].
  destruct (nth_error (s_syms s) (snd e)) as [y|] eqn:E3; [eauto|]. apply nth_error_None in E3. lia.
Qed.

(** a stack element with the address found by a search is the element found *)
Lemma stack_addr_key d (h : list symbol) k k' a e : WF0 d h -> NoDup (addrs d) -> valids k ->
  dict_search d k = Some a -> In e (stackof d k') -> snd e = a -> fk k = fk k'.
Proof.
  intros H N Hk S He Ha. rewrite (dict_search_stack _ _ _ H Hk) in S.
  destruct (stackof d k) as [|[k1 b] t] eqn:E2; [discriminate|]. injection S as ->.
  assert (He1 : In (k1, a) (stackof d k)) by (rewrite E2; left; auto).
  apply filter_In in He, He1. destruct He as [He M], He1 as [He1 M1].
  assert (e = (k1, a)) as ->.
  { clear - N He He1 Ha. unfold addrs in N. revert N He He1. generalize (concat (dtable d)).
    induction l as [|x l IH]; intros N He He1; [destruct He|]. cbn in N. inversion N; subst.
    destruct He as [He|He], He1 as [He1|He1]; auto; try congruence; exfalso; apply H1.
    - apply (in_map snd) in He1. subst x. exact He1.
    - apply (in_map snd) in He. subst x. exact He. }
  apply matches_fk in M, M1. cbn in *. congruence.
Qed.

Lemma sym_insert_spec k y s a s' : table_ok s -> valids k -> sym_insert k y s = Ok a s' ->
  table_ok s' /\
  (forall k', fk k' <> fk k -> recs s' k' = recs s k' \/ recs s' k' = rev (recs s k')) /\
  (recs s k = [] -> recs s' k = [Some (sanitize_symbol y)] /\ nth_error (s_syms s') a = Some (sanitize_symbol y)).
Proof.
  intros [W N] Hk E. apply sym_insert_inv in E. destruct E as (d & h & y' & E1 & E2 & ->).
  cbn [s_dict s_syms set_syms set_dict]. unfold table_ok, recs. cbn [s_dict s_syms set_syms set_dict].
  pose proof (insert_wf _ _ _ _ _ _ _ W Hk E1) as W1. pose proof (insert_addrs _ _ _ _ _ _ _ W Hk E1 N) as N1.
  split; [split; [apply WF_upd; exact W1|exact N1]|].
  assert (Sr : dict_search d k = Some a \/ fk k = fk k /\ a = length (s_syms s) /\ h = s_syms s ++ [y] /\
               exists d1, dict_insert_raw (s_dict s) (s_syms s) k y = (d1, h, a) /\ d = d1).
  { destruct (dict_insert_handle _ _ _ _ _ _ _ E1) as (d1 & R & [(X & -> & ->)|(X & _)]); [right|left; congruence].
    injection X as ->. repeat split; auto. eauto. }
  assert (Sa : forall k' e, In e (stackof d k') -> snd e = a -> fk k = fk k').
  { intros k' e He Ha. destruct Sr as [Sr|(_ & A1 & A2 & d1 & A3 & A4)].
    - eapply stack_addr_key; eauto. apply W1.
    - subst d1. rewrite (insert_raw_stack _ _ _ _ _ _ _ k' (proj1 W) Hk A3) in He.
      destruct (lzeqb (fk k) (fk k')) eqn:L; [apply streq_eq in L; exact L|].
      exfalso. apply filter_In in He. destruct He as [He _]. destruct W as [W _].
      pose proof (concat_ok _ _ W) as HC. rewrite Forall_forall in HC. destruct (HC _ He) as [_ HL]. lia. }
  split.
  - intros k' Hne. assert (V : vals (upd a (sanitize_symbol y') h) (stackof d k') = vals h (stackof d k')).
    { apply vals_upd_dead. intros e He Ha. apply Hne. symmetry. eapply Sa; eauto. }
    rewrite V. assert (L : lzeqb (fk k) (fk k') = false).
    { destruct (lzeqb (fk k) (fk k')) eqn:L; auto. apply streq_eq in L. congruence. }
    destruct (insert_grows_iff _ _ _ _ _ _ _ W Hk E1) as [(_ & _ & _ & G)|(_ & _ & _ & G)]; rewrite G, L; auto.
  - intros H0.
    assert (St : vals h (stackof d k) = [Some y]).
    { assert (L : lzeqb (fk k) (fk k) = true) by (apply streq_eq; reflexivity).
      destruct (insert_grows_iff _ _ _ _ _ _ _ W Hk E1) as [(_ & _ & _ & G)|(_ & _ & _ & G)]; rewrite G, L, H0; reflexivity. }
    assert (A : exists k1, stackof d k = [(k1, a)]).
    { destruct Sr as [Sr|(_ & A1 & A2 & d1 & A3 & A4)].
      - rewrite (dict_search_stack _ _ _ (proj1 W1) Hk) in Sr.
        destruct (stackof d k) as [|[k1 b] [|]]; try discriminate. injection Sr as ->. eauto.
      - subst d1. rewrite (insert_raw_stack _ _ _ _ _ _ _ k (proj1 W) Hk A3) in *.
        assert (L : lzeqb (fk k) (fk k) = true) by (apply streq_eq; reflexivity). rewrite L in *.
        cbn in St. injection St as _ St. destruct (stackof (s_dict s) k); [eauto|discriminate]. }
    destruct A as [k1 A]. rewrite A in *. cbn in St. injection St as St. rewrite St in E2. injection E2 as ->.
    cbn [vals map snd]. rewrite nth_upd_same by (apply nth_error_Some; congruence). auto.
Qed.

Lemma sym_insert_ok k y s : table_ok s -> valids k -> exists a s', sym_insert k y s = Ok a s'.
Proof.
  intros [W N] Hk. unfold sym_insert, bind, gets, modify, sym_get, sym_set, ret.
  destruct (dict_insert (s_dict s) (s_syms s) k y) as [[d h] o] eqn:E1.
  pose proof (insert_wf _ _ _ _ _ _ _ W Hk E1) as W1. unfold bind, gets. cbn [s_dict s_syms set_syms set_dict].
  assert (X : exists a, o = Some a /\ (a < length h)%nat).
  { destruct (dict_insert_handle _ _ _ _ _ _ _ E1) as (d1 & R & [(X & -> & ->)|(X & _)]).
    - exists (length (s_syms s)). rewrite app_length. cbn. split; [auto|lia].
    - rewrite X. rewrite (dict_search_stack _ _ _ (proj1 W1) Hk).
      assert (L : lzeqb (fk k) (fk k) = true) by (apply streq_eq; reflexivity).
      assert (V : stackof d k <> []).
      { intros V. destruct (insert_grows_iff _ _ _ _ _ _ _ W Hk E1) as [(_ & _ & _ & G)|(_ & _ & _ & G)];
          specialize (G k); rewrite L, V in G; cbn in G; [discriminate|].
        symmetry in G. apply app_eq_nil in G. destruct G; discriminate. }
      destruct (stackof d k) as [|[k1 b] t] eqn:S; [congruence|]. exists b. split; auto.
      assert (HI : In (k1, b) (stackof d k)) by (rewrite S; left; auto). apply filter_In in HI. destruct HI as [HI _].
      pose proof (concat_ok _ _ (proj1 W1)) as HC. rewrite Forall_forall in HC. apply (HC _ HI). }
  destruct X as (a & -> & La). unfold bind, gets. cbn [s_dict s_syms set_syms set_dict].
  destruct (nth_error h a) as [y'|] eqn:E; [do 2 eexists; reflexivity|].
  apply nth_error_None in E. lia.
Qed.

(** a plain identifier: what the lexer's label rule yields without dots, locals or a colon, and not the register *)
Definition plain (n : cstr) : Prop :=
  valids n /\ ~ In 46 n /\ ~ In 58 n /\ n <> [] /\ ~ In (hd0 n) [43; 45; 64; 92] /\ stricmp n (cs "A") <> 0.

Lemma strip_colon_plain n : ~ In 58 n -> strip_colon n = n.
Proof.
  intros H. unfold strip_colon. destruct (rev n) as [|c r] eqn:E; auto.
  assert (c <> 58). { intros ->. apply H. apply in_rev. rewrite E. left; auto. }
  destruct c; auto. repeat (destruct p; auto). congruence.
Qed.
Lemma has_char_false c n : ~ In c n -> has_char c n = false.
Proof.
  intros H. unfold has_char. destruct (existsb (fun x => x =? c) n) eqn:E; auto. apply existsb_exists in E.
  destruct E as (x & Hx & E). apply Z.eqb_eq in E. subst. contradiction.
Qed.
Lemma split_last_none n : ~ In 46 n -> split_last n = None.
Proof.
  induction n as [|c n IH]; cbn; intros H; auto. rewrite IH by tauto.
  destruct (Z.eqb_spec c 46); auto. exfalso; apply H; auto.
Qed.
Lemma valids_dotted c n : valids c -> valids n -> valids (dotted c n).
Proof. intros H1 H2. unfold dotted. apply Forall_app. split; auto. constructor; auto. split; lia. Qed.
Lemma valids_under sc n : (forall c, sc = Some c -> valids c) -> valids n -> valids (under sc n).
Proof. intros H1 H2. destruct sc; cbn; auto. apply valids_dotted; auto. Qed.


(** the record made for a new plain name *)
Definition fresh (sc : option cstr) (n : cstr) : symbol := new_symbol false false false false sc n (under sc n).

Lemma dot_head n : hd0 n <> 46 -> match n with 46 :: r => r | _ => n end = n.
Proof. destruct n as [|c n]; cbn; auto. intros H. destruct c; auto. repeat (destruct p; auto). congruence. Qed.
Lemma add_plain_eq n s : plain n ->
  add_symbol n s = (r <- look_up_in (s_scope s) n ;;
    match r with
    | Some a => ret (Some a)
    | None => a <- sym_insert (under (s_scope s) n) (fresh (s_scope s) n) ;; ret (Some a)
    end) s.
Proof.
  intros (V & D & C & E & H & A). unfold add_symbol.
  rewrite (proj2 (Z.eqb_neq _ _) A).
  assert (hd0 n <> 43 /\ hd0 n <> 45 /\ hd0 n <> 64 /\ hd0 n <> 92) as (H1 & H2 & H3 & H4) by (cbn in H; intuition).
  assert (H5 : hd0 n <> 46) by (destruct n as [|c n]; [congruence|]; cbn; intros ->; apply D; left; auto).
  rewrite (proj2 (Z.eqb_neq _ _) H1), (proj2 (Z.eqb_neq _ _) H2). cbn [orb].
  rewrite (has_char_false _ _ D), (dot_head _ H5).
  unfold bind at 1, gets at 1. rewrite (proj2 (Z.eqb_neq _ _) H4), (proj2 (Z.eqb_neq _ _) H3).
  unfold bind at 1, gets at 1. destruct n as [|c n]; [congruence|]. rewrite (strip_colon_plain _ C).
  rewrite (proj2 (Z.eqb_neq _ _) H3). cbn [orb]. reflexivity.
Qed.

(** a record without its use counter *)
Definition untimed (o : option symbol) : option symbol :=
  option_map (fun y => mkSym (y_value y) 0 (y_init y) (y_mname y) (y_mparam y) (y_label y) (y_local y) (y_pm y) (y_var y)
                             (y_scope y) (y_name y) (y_full y) (y_macro y)) o.
Definition single (s : state) (k : cstr) : Prop := (length (recs s k) <= 1)%nat.

Lemma dl_bump s a y k : nth_error (s_syms s) a = Some y ->
  untimed (dl (set_syms (upd a (y_times_inc y) (s_syms s)) s) k) = untimed (dl s k).
Proof.
  intros H. unfold dl, dlookup. cbn [fst snd s_dict s_syms set_syms].
  destruct (dict_search (s_dict s) k) as [b|]; auto. destruct (Nat.eq_dec b a) as [->|Hn].
  - rewrite nth_upd_same by (apply nth_error_Some; congruence). rewrite H. reflexivity.
  - rewrite nth_upd_other by auto. reflexivity.
Qed.
Lemma recs_len_upd s a y k : length (recs (set_syms (upd a y (s_syms s)) s) k) = length (recs s k).
Proof. unfold recs, vals. cbn [s_dict s_syms set_syms]. rewrite !map_length. reflexivity. Qed.

Lemma recs_nil s k : table_ok s -> valids k -> dl s k = None -> recs s k = [].
Proof.
  intros T V H. rewrite (dl_recs _ _ T V) in H. pose proof (recs_some s k T) as F.
  destruct (recs s k); auto. inversion F as [|? ? [y Hy]]; subst. discriminate.
Qed.

Lemma add_plain_spec n s : table_ok s -> plain n -> (forall c, s_scope s = Some c -> valids c) ->
  let key := under (s_scope s) n in
  exists a s', add_symbol n s = Ok (Some a) s' /\ table_ok s' /\ s_scope s' = s_scope s /\
  (forall k, valids k -> single s k -> single s' k) /\
  match resolve s (s_scope s) n with
  | Some y => nth_error (s_syms s) a = Some y /\ forall k, untimed (dl s' k) = untimed (dl s k)
  | None => dl s' key = Some (fresh (s_scope s) n) /\ nth_error (s_syms s') a = Some (fresh (s_scope s) n) /\
            forall k, valids k -> fk k <> fk key -> single s k -> dl s' k = dl s k
  end.
Proof.
  intros T P Hsc key. rewrite (add_plain_eq _ _ P).
  destruct (look_up_in_spec (s_scope s) n s (proj1 T) (proj1 P) Hsc) as (r & s1 & E & Hr). unfold bind at 1. rewrite E.
  destruct r as [a|].
  - destruct Hr as (y & Hy & Hres & ->). rewrite Hres. exists a, (set_syms (upd a (y_times_inc y) (s_syms s)) s).
    split; [reflexivity|]. split; [split; [apply WF_upd; apply T|apply T]|]. split; [reflexivity|].
    split; [|split; [exact Hy|]].
    + intros k Hk. unfold single. now rewrite recs_len_upd.
    + intros k. apply dl_bump, Hy.
  - destruct Hr as [Hres ->]. rewrite Hres.
    assert (Vk : valids key) by (apply valids_under; [auto|apply P]).
    destruct (sym_insert_ok key (fresh (s_scope s) n) s T Vk) as (a & s' & E1).
    destruct (sym_insert_spec _ _ _ _ _ T Vk E1) as (T' & O & N).
    assert (Dk : dl s key = None).
    { unfold resolve in Hres. unfold key, under. destruct (s_scope s) as [c|]; auto. destruct (dl s (dotted c n)); congruence. }
    pose proof (recs_nil s key T Vk Dk) as R0. destruct (N R0) as [N1 N2].
    assert (San : sanitize_symbol (fresh (s_scope s) n) = fresh (s_scope s) n).
    { unfold sanitize_symbol, fresh, new_symbol. cbn [y_mparam y_scope y_name]. rewrite split_last_none by apply P.
      destruct (s_scope s); reflexivity. }
    rewrite San in *. exists a, s'. split; [unfold bind, ret; fold key; rewrite E1; reflexivity|]. split; [exact T'|].
    split; [apply sym_insert_inv in E1; destruct E1 as (d & h & y' & _ & _ & ->); reflexivity|].
    split; [|split; [|split; [exact N2|]]].
    + intros k Hk S. unfold single in *. destruct (list_eq_dec Z.eq_dec (fk k) (fk key)) as [Ek|Ek].
      * assert (recs s' k = recs s' key) as ->.
        { unfold recs, stackof. f_equal. apply filter_ext. intros e. unfold matches. now rewrite Ek. }
        rewrite N1. cbn. lia.
      * destruct (O k Ek) as [-> | ->]; [|rewrite rev_length]; auto.
    + rewrite (dl_recs _ _ T' Vk), N1. reflexivity.
    + intros k Hk Ek S. rewrite (dl_recs _ _ T' Hk), (dl_recs _ _ T Hk). unfold single in S.
      destruct (O k Ek) as [-> | ->]; auto. destruct (recs s k) as [|x [|]]; cbn in *; auto; lia.
Qed.

(** a dotted name splits in one way when the last part has no dot *)
Lemma tolower_46 c : tolower c = 46 -> c = 46.
Proof. unfold tolower. intros. if_lia. Qed.
Lemma fk_in46 n : In 46 (fk n) -> In 46 n.
Proof. unfold fk. intros H. apply in_map_iff in H. destruct H as (x & H & Hx). apply tolower_46 in H. now subst. Qed.
Lemma app_sep_inj {A} (x : A) a b a' b' : ~ In x b -> ~ In x b' -> a ++ x :: b = a' ++ x :: b' -> a = a' /\ b = b'.
Proof.
  intros H H'. revert a'. induction a as [|u a IH]; intros [|u' a'] E; cbn in E;
    [injection E as E2|injection E as E1 E2|injection E as E1 E2|injection E as E1 E2].
  - auto.
  - exfalso. apply H. rewrite E2. apply in_or_app. right; left; auto.
  - exfalso. apply H'. rewrite <- E2. apply in_or_app. right; left; auto.
  - destruct (IH _ E2) as [-> ->]. subst; auto.
Qed.
Lemma dotted_inj c n c' n' : ~ In 46 n -> ~ In 46 n' -> fk (dotted c n) = fk (dotted c' n') -> fk c = fk c' /\ fk n = fk n'.
Proof.
  intros H H' E. unfold dotted, fk in E. rewrite !map_app in E. cbn [map] in E. change (tolower 46) with 46 in E.
  apply app_sep_inj in E; auto; intros X; [apply H|apply H']; apply fk_in46; exact X.
Qed.
Lemma dotted_plain c n n' : ~ In 46 n' -> fk (dotted c n) <> fk n'.
Proof.
  intros H E. apply H, fk_in46. rewrite <- E. unfold dotted, fk. rewrite map_app. apply in_or_app. right; left; reflexivity.
Qed.

(** adding a plain name in the current scope *)
Lemma add_symbol_scopes n s a s' : table_ok s -> (forall k, valids k -> single s k) -> plain n ->
  (forall c, s_scope s = Some c -> valids c) -> add_symbol n s = Ok a s' ->
  table_ok s' /\ (forall k, valids k -> single s' k) /\
  resolve s' (s_scope s) n <> None /\
  (forall sc' n', valids n' -> ~ In 46 n' -> (forall c', sc' = Some c' -> valids c') ->
     (fk n' <> fk n \/ s_scope s <> None /\ option_map fk sc' <> option_map fk (s_scope s)) ->
     untimed (resolve s' sc' n') = untimed (resolve s sc' n')).
Proof.
  intros T S P Hsc E. destruct (add_plain_spec n s T P Hsc) as (a1 & s1 & E1 & T1 & _ & S1 & R).
  rewrite E in E1. injection E1 as -> ->. split; [exact T1|]. split; [auto|].
  destruct (resolve s (s_scope s) n) as [y|] eqn:Hres.
  - destruct R as [_ R]. 
    assert (RR : forall sc' n', untimed (resolve s1 sc' n') = untimed (resolve s sc' n')).
    { intros [c|] n'; cbn [resolve]; auto. pose proof (R (dotted c n')) as R1.
      destruct (dl s1 (dotted c n')), (dl s (dotted c n')); cbn in R1; try discriminate; auto. }
    split; auto. specialize (RR (s_scope s) n). rewrite Hres in RR.
    intros X. rewrite X in RR. discriminate.
  - destruct R as (R1 & _ & R). split.
    + destruct (s_scope s); cbn in *; rewrite R1; discriminate.
    + intros sc' n' V' D' Hsc' Hd.
      assert (G : dl s1 n' = dl s n' \/ s_scope s = None /\ fk n' = fk n).
      { destruct (s_scope s) as [c|] eqn:Es; cbn [under] in *.
        - left. apply R; auto. apply not_eq_sym. apply dotted_plain. exact D'.
        - destruct (list_eq_dec Z.eq_dec (fk n') (fk n)); [auto|]. left; apply R; auto. }
      destruct G as [G|[G1 G2]]; [|destruct Hd as [Hd|[Hd _]]; congruence].
      destruct sc' as [c'|]; cbn [resolve]; [|now rewrite G].
      assert (V2 : valids (dotted c' n')) by (apply valids_dotted; auto).
      assert (dl s1 (dotted c' n') = dl s (dotted c' n')) as ->; [|now rewrite G].
      apply R; auto. destruct (s_scope s) as [c|] eqn:Es; cbn [under].
      * intros X. apply dotted_inj in X; [|auto|apply P]. destruct X as [X1 X2].
        destruct Hd as [Hd|[_ Hd]]; [congruence|]. cbn in Hd. congruence.
      * apply dotted_plain, P.
Qed.
