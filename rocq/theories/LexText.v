(** The scanner finds the tokens of a text (proofs for C67). *)
From Coq Require Import String Lia.
From Verif Require Import Base BaseProofs Str CNum Opcodes State Lexer LexProofs ExprShape SrcText.
Open Scope string_scope.
Open Scope list_scope.
Open Scope Z_scope.

(** ** Literals *)
Lemma lit_fold v : forall w w', same_text w w' -> lit v w = lit v w'.
Proof.
  unfold same_text. induction v as [|a v IH]; intros [|c w] [|c' w'] H; cbn in *; try discriminate; auto.
  injection H; intros H1 H2. rewrite H2, (IH w w'); auto.
Qed.
(** what of [v] is left behind [d] *)
Fixpoint after (v d : cstr) : option cstr :=
  match d, v with
  | [], _ => Some v
  | c :: d, a :: v => if tolower a =? tolower c then after v d else None
  | _, [] => None
  end.
Definition ext (v d : cstr) : list Z := match after v d with Some (a :: _) => [tolower a] | _ => [] end.
Lemma lit_cut v : forall d rest, next_not (fun c => In (tolower c) (ext v d)) rest -> lit v (d ++ rest) = lit v d.
Proof.
  unfold ext. induction v as [|a v IH]; intros [|c d] rest H; cbn [lit app] in *; auto.
  - destruct rest as [|c r]; auto. cbn in H. cbn [after] in H. cbn. destruct (Z.eqb_spec (tolower a) (tolower c)); auto. exfalso. apply H. cbn. auto.
  - cbn [after] in H. destruct (tolower a =? tolower c); auto. now rewrite IH.
Qed.
Lemma lit_length v : forall s n, lit v s = Some n -> n = List.length v /\ (n <= List.length s)%nat.
Proof.
  induction v as [|a v IH]; intros s n H; cbn in H.
  - injection H; intros; subst. cbn. lia.
  - destruct s as [|c s]; [discriminate|]. destruct (tolower a =? tolower c); [|discriminate]. destruct (lit v s) as [k|] eqn:E; [|discriminate].
    injection H; intros; subst. apply IH in E as [E1 E2]. cbn. lia.
Qed.
Lemma lit_whole v : forall s, lit v s = Some (List.length s) -> same_text s v.
Proof.
  unfold same_text. induction v as [|a v IH]; intros s H; cbn in H.
  - destruct s; [reflexivity|discriminate].
  - destruct s as [|c s]; [discriminate|]. destruct (Z.eqb_spec (tolower a) (tolower c)); [|discriminate]. destruct (lit v s) as [k|] eqn:E; [|discriminate].
    injection H; intros ->. cbn. rewrite IH by auto. congruence.
Qed.
Lemma best_same rs : forall s s' n a, Forall (fun r : rule => fst r s = fst r s') rs -> best rs s n a = best rs s' n a.
Proof.
  induction rs as [|[m f] rs IH]; intros s s' n a H; [reflexivity|]. inversion H as [|? ? H1 H2]; subst. cbn [fst] in H1. cbn [best]. rewrite H1.
  destruct (m s'); [destruct (Nat.ltb n n0)|]; apply IH; auto.
Qed.
Lemma best_app r1 r2 s : forall n a, best (r1 ++ r2) s n a = let '(n', a') := best r1 s n a in best r2 s n' a'.
Proof. induction r1 as [|[m f] r1 IH]; intros n a; cbn [app best]; [reflexivity|]. destruct (m s); [destruct (Nat.ltb n n0)|]; apply IH. Qed.

(** the literals of the tables *)
Definition lits1 : list string := map fst op_table ++ map fst kw_table ++ [".WHILE"; ".DO"] ++ map fst kw_table2.
Definition lits2 : list string := [".IFDEF"; ".IFNDEF"] ++ map (fun w : string * string * kw => fst (fst w)) kw_table3.
Definition exts (d : cstr) : list Z := flat_map (fun v => ext (cs v) d) (lits1 ++ lits2).
Lemma not_ext d rest v : next_not (fun c => In (tolower c) (exts d)) rest -> In v (lits1 ++ lits2) -> lit (cs v) (d ++ rest) = lit (cs v) d.
Proof.
  intros H I. apply lit_cut. destruct rest as [|c r]; [exact Logic.I|]. unfold next_not in *. intros X. apply H. unfold exts. apply in_flat_map. exists v. auto.
Qed.
Definition nl2 (c : Z) : bool := (c =? 10) || (c =? 13).
(** the rules for words see the text [d] only *)
Lemma words_cut c d d' rest : same_text (c :: d) d' -> nl2 c = false -> nl2 (hd 0 d') = false ->
  next_not (fun c => In (tolower c) (exts d')) rest -> Forall (fun v => lit (cs v) d' = None) lits2 ->
  best rules_words ((c :: d) ++ rest) O bad = best rules_words d' O bad.
Proof.
  intros S N N' H H2.
  assert (L : forall v, In v (lits1 ++ lits2) -> lit (cs v) ((c :: d) ++ rest) = lit (cs v) d').
  { intros v I. rewrite <- (not_ext d' rest v H I). apply lit_fold. unfold same_text in *. rewrite !map_app. now rewrite S. }
  assert (L2 : forall v g, In v lits2 -> seq (lit (cs v)) g ((c :: d) ++ rest) = seq (lit (cs v)) g d').
  { intros v g I. pose proof H2 as H3. rewrite Forall_forall in H3. specialize (H3 v I). rewrite !seq_dead; auto. rewrite L; auto. apply in_or_app; auto. }
  assert (K : forall (X : Type) (T : list (string * X)) (A : X -> cstr -> act), incl (map fst T) (lits1 ++ lits2) ->
     Forall (fun r : rule => fst r ((c :: d) ++ rest) = fst r d') (map (fun w => (lit (cs (fst w)), A (snd w))) T)).
  { intros X T A I. apply Forall_forall. intros r Hr. apply in_map_iff in Hr as (w & <- & Hw). cbn [fst]. apply L, I. apply in_map, Hw. }
  apply best_same. unfold rules_words. repeat (apply Forall_app; split).
  - apply (K _ op_table (fun i _ => ATok (TkOp i))). unfold lits1. intros x Hx. apply in_or_app; left. apply in_or_app; auto.
  - constructor; [|constructor; [|constructor; [|constructor]]].
    + cbn [fst app one]. unfold nl2 in N, N'. rewrite N. destruct d' as [|c' d'']; [discriminate S|]. cbn [hd] in N'. cbn [one]. now rewrite N'.
    + cbn [fst ifdef_rule]. apply L2. left; reflexivity.
    + cbn [fst ifdef_rule]. apply L2. right; left; reflexivity.
  - apply (K _ kw_table (fun k _ => ATok (TkKw k))). unfold lits1. intros x Hx. apply in_or_app; left. apply in_or_app; right. apply in_or_app; auto.
  - constructor; [|constructor; [|constructor]]; cbn [fst]; apply L; apply in_or_app; left; unfold lits1; apply in_or_app; right; apply in_or_app; right; apply in_or_app; left; cbn; auto.
  - apply (K _ kw_table2 (fun k _ => ATok (TkKw k))). unfold lits1. intros x Hx. apply in_or_app; left. apply in_or_app; right. apply in_or_app; right. apply in_or_app; auto.
  - apply Forall_forall. intros r Hr. apply in_map_iff in Hr as (w & <- & Hw). cbn [fst]. apply L2. unfold lits2. apply in_or_app; right. apply in_map_iff. exists w. auto.
Qed.

(** ** The other rules *)
Lemma best_lt rs s m : Forall (fun r : rule => forall k, fst r s = Some k -> (k < m)%nat) rs -> forall n a, (n < m)%nat -> (fst (best rs s n a) < m)%nat.
Proof.
  induction 1 as [|[g f] rs H1 H2 IH]; intros n a H; cbn [best]; [exact H|]. cbn [fst] in H1. destruct (g s) as [k|] eqn:E; [|apply IH; auto].
  destruct (Nat.ltb n k); apply IH; auto.
Qed.
Lemma best_le rs s n : Forall (fun r : rule => forall k, fst r s = Some k -> (k <= n)%nat) rs -> forall a, best rs s n a = (n, a).
Proof.
  induction 1 as [|[g f] rs H1 H2 IH]; intros a; cbn [best]; [reflexivity|]. cbn [fst] in H1. destruct (g s) as [k|] eqn:E; [|apply IH].
  destruct (Nat.ltb_spec n k); [|apply IH]. specialize (H1 _ eq_refl). lia.
Qed.
Lemma one_off p c s : p c = false -> one p (c :: s) = None.
Proof. intros H. cbn [one]. now rewrite H. Qed.
Lemma plus_off p c s : p c = false -> plus p (c :: s) = None.
Proof. intros H. unfold plus. cbn [span]. now rewrite H. Qed.
Lemma lit_off1 a v c s : tolower a <> tolower c -> lit (a :: v) (c :: s) = None.
Proof. intros H. cbn [lit]. destruct (Z.eqb_spec (tolower a) (tolower c)); [contradiction|reflexivity]. Qed.
Lemma str_off c s : c <> 34 -> strvalue (c :: s) = None.
Proof. intros H. unfold strvalue. cbn [strvalues]. unfold strvalue1. rewrite seq_dead; [reflexivity|]. apply one_off. lia. Qed.
Definition symbc : matcher := seq symb (opt (ch 58)).
Lemma symbc_off c s : is_sym0 c = false -> c <> 64 -> symbc (c :: s) = None.
Proof.
  intros H N. unfold symbc, symb. apply seq_dead. unfold seq at 1, opt. rewrite one_off by lia. cbn [skipn]. unfold seq. now rewrite one_off.
Qed.
Ltac small := unfold is_pmc, is_ws, is_nl, is_hex, is_sym0, is_alpha, isxdigit, isdigit, tolower in *; cbn [existsb] in *; repeat match goal with |- context [if ?b then _ else _] => destruct b eqn:? end; lia.
Ltac off := first [apply one_off; small | apply plus_off; small | apply str_off; small | apply symbc_off; small | apply seq_dead; off
  | (apply lit_off1; small)].
(** heads of words *)
Definition head_ok (c : Z) : Prop := letter c \/ c = 95 \/ c = 64.
Definition rest1 : list rule := firstn 18 rules_rest.
Definition rest2 : list rule := skipn 21 rules_rest.
Definition name_act : cstr -> act := fun _ => AName.
Lemma rest_split : rules_rest = rest1 ++ [k_rule ("X", WX); k_rule ("Y", WY); (symbc, name_act)] ++ rest2.
Proof. reflexivity. Qed.
Lemma head_rest1 c s : head_ok c -> Forall (fun r : rule => fst r (c :: s) = None) rest1.
Proof.
  unfold head_ok, letter. intros H. unfold rest1, rules_rest. cbn [firstn].
  repeat (constructor; [cbn [fst k_rule]; try (change (cs ".C64") with [46; 67; 54; 52]); try (change (cs ".PRINT") with [46; 80; 82; 73; 78; 84]); off|]). constructor.
Qed.
Lemma head_rest2 c s : head_ok c -> Forall (fun r : rule => forall k, fst r (c :: s) = Some k -> (k <= 1)%nat) rest2.
Proof.
  unfold head_ok, letter. intros H. unfold rest2, rules_rest. cbn [skipn].
  assert (D : forall m : matcher, m (c :: s) = None -> forall k, m (c :: s) = Some k -> (k <= 1)%nat) by (intros m E k X; congruence).
  repeat (constructor; [cbn [fst]; first [apply D; try (change (cs "/*") with [47; 42]); try (change (cs "//") with [47; 47]); off
    |intros k; unfold notnl; cbn [one]; destruct (negb (is_nl c)); [intros [= <-]; lia|discriminate]]|]). constructor.
Qed.
Lemma best_nones rs s n a : Forall (fun r : rule => fst r s = None) rs -> best rs s n a = (n, a).
Proof. induction 1 as [|[g f] rs H1 H2 IH]; cbn [best]; [reflexivity|]. cbn [fst] in H1. now rewrite H1. Qed.
Lemma best_all s : best rules s O bad = let '(n, a) := best rules_words s O bad in best rules_rest s n a.
Proof. unfold rules. apply best_app. Qed.
Lemma rest_words c s n a : head_ok c -> best rules_rest (c :: s) n a = let '(n', a') := best [k_rule ("X", WX); k_rule ("Y", WY); (symbc, name_act)] (c :: s) n a in best rest2 (c :: s) n' a'.
Proof. intros H. rewrite rest_split, best_app, (best_nones rest1) by (apply head_rest1; auto). cbv iota. rewrite best_app. reflexivity. Qed.

(** ** Names *)
Lemma sym0_ok c : letter c \/ c = 95 -> is_sym0 c = true.
Proof. unfold letter, is_sym0, is_alpha. lia. Qed.
Lemma sym1_iff c : is_sym1 c = true <-> name_char c.
Proof. unfold name_char, letter, digit, is_sym1, is_sym0, is_alpha, isdigit. lia. Qed.
Lemma sym1_all r : Forall name_char r -> forallb is_sym1 r = true.
Proof. intros H. apply forallb_forall. intros c Hc. apply sym1_iff. rewrite Forall_forall in H. auto. Qed.
Lemma symb_name w rest : is_name w -> next_not name_char rest -> symb (w ++ rest) = Some (List.length w).
Proof.
  intros (a & c & r & -> & A & C & R) N.
  assert (S : seq (one is_sym0) (star is_sym1) ((c :: r) ++ rest) = Some (S (List.length r))).
  { unfold seq. cbn [app one]. rewrite (sym0_ok c C). cbn [skipn]. unfold star. rewrite span_app; [reflexivity|apply sym1_all, R|].
    destruct rest as [|x rest]; auto. cbn in N. destruct (is_sym1 x) eqn:E; auto. apply sym1_iff in E. contradiction. }
  unfold symb, opt. destruct A as [->| ->].
  - cbn [app]. unfold seq at 1. rewrite one_off by (unfold letter in C; lia). cbn [skipn]. cbn [app] in S. rewrite S. reflexivity.
  - cbn [app]. unfold seq at 1. cbn [one]. change (64 =? 64) with true. cbv iota. cbn [skipn]. cbn [app] in S. rewrite S. reflexivity.
Qed.
Lemma symbc_name w rest : is_name w -> next_not word_char rest -> symbc (w ++ rest) = Some (List.length w).
Proof.
  intros W N. unfold symbc, seq. rewrite symb_name; auto.
  - rewrite skipn_app_l. unfold opt. destruct rest as [|x r]; cbn [one]; [now rewrite Nat.add_0_r|]. cbn in N. unfold word_char in N.
    replace (x =? 58) with false by lia. now rewrite Nat.add_0_r.
  - destruct rest; cbn in *; auto. unfold word_char in N. tauto.
Qed.
Lemma symbc_colon w rest : is_name w -> symbc (w ++ [58] ++ rest) = Some (S (List.length w)).
Proof.
  intros W. unfold symbc, seq. rewrite symb_name; auto.
  - rewrite skipn_app_l. unfold opt. cbn. f_equal. lia.
  - cbn. unfold name_char, letter, digit. lia.
Qed.
Lemma name_head w : is_name w -> exists c r, w = c :: r /\ head_ok c.
Proof.
  intros (a & c & r & -> & [->| ->] & C & R); cbn; eexists _, _; (split; [reflexivity|]); unfold head_ok; tauto.
Qed.
Lemma lower_name a c : tolower a = tolower c -> is_sym1 a = true -> is_sym1 c = true.
Proof. unfold tolower, is_sym1, is_sym0, is_alpha, isdigit. intros H. repeat match type of H with context [if ?b then _ else _] => destruct b eqn:? end; lia. Qed.
Lemma lower_head a c : tolower a = tolower c -> head_ok c -> head_ok a.
Proof. unfold tolower, head_ok, letter. intros H. repeat match type of H with context [if ?b then _ else _] => destruct b eqn:? end; lia. Qed.
Definition alien (v : cstr) : bool := match v with a :: _ => negb (is_sym0 a || (a =? 64)) | [] => false end.
Lemma alien_off v c s : alien v = true -> head_ok c -> lit v (c :: s) = None.
Proof.
  destruct v as [|a v]; [discriminate|]. cbn [alien]. intros H C. apply lit_off1. intros E. apply (lower_head a c E) in C.
  unfold head_ok, letter in C. unfold is_sym0, is_alpha in H. lia.
Qed.
Definition wordy (v : cstr) : bool := forallb is_sym1 v.
Lemma after_in v : forall d v', after v d = Some v' -> incl v' v.
Proof.
  induction v as [|a v IH]; intros [|c d] v' H; cbn in H; try discriminate; try (injection H; intros; subst; apply incl_refl).
  destruct (tolower a =? tolower c); [|discriminate]. apply incl_tl. eauto.
Qed.
Lemma wordy_cut v d rest : wordy v = true -> next_not name_char rest -> lit v (d ++ rest) = lit v d.
Proof.
  intros H N. apply lit_cut. destruct rest as [|c r]; [exact I|]. unfold next_not in *. intros X. apply N. apply sym1_iff.
  unfold ext in X. destruct (after v d) as [[|a v']|] eqn:E; [destruct X| |destruct X]. destruct X as [X|[]]. apply (lower_name a c X).
  apply after_in in E. unfold wordy in H. rewrite forallb_forall in H. apply H, E. left. reflexivity.
Qed.
Lemma wordy_lit v w rest k : wordy v = true -> next_not name_char rest -> lit v (w ++ rest) = Some k ->
  (k < List.length w)%nat \/ (k = List.length w /\ same_text w v).
Proof.
  intros H N E. rewrite (wordy_cut v w rest H N) in E. pose proof (lit_length _ _ _ E) as [L1 L2].
  destruct (Nat.eq_dec k (List.length w)) as [->|]; [right|left; lia]. split; auto. apply lit_whole, E.
Qed.
Lemma op_wordy : forallb (fun x : string * Z => wordy (cs (fst x))) op_table = true. Proof. vm_compute. reflexivity. Qed.
Lemma kw_alien : forallb (fun x : string * kw => alien (cs (fst x)) || String.eqb (fst x) "NOT") kw_table = true. Proof. vm_compute. reflexivity. Qed.
Lemma kw2_alien : forallb (fun x : string * kw => alien (cs (fst x))) kw_table2 = true. Proof. vm_compute. reflexivity. Qed.
Lemma kw3_alien : forallb (fun x : string * string * kw => alien (cs (fst (fst x)))) kw_table3 = true. Proof. vm_compute. reflexivity. Qed.

(** literals in the text of a word [w] that is none of them are shorter *)
Lemma words_name c w rest m : head_ok c -> next_not name_char rest -> (List.length (c :: w) <= m)%nat ->
  (m = List.length (c :: w) -> ~ (exists v i, In (v, i) op_table /\ same_text (c :: w) (cs v)) /\ ~ same_text (c :: w) (cs "NOT")) ->
  Forall (fun r : rule => forall k, fst r ((c :: w) ++ rest) = Some k -> (k < m)%nat) rules_words.
Proof.
  intros C N LM R.
  assert (R0 : forall k v, (k < List.length (c :: w))%nat \/ (k = List.length (c :: w) /\ same_text (c :: w) (cs v)) ->
    (forall i, m = List.length (c :: w) -> same_text (c :: w) (cs v) -> In (v, i) op_table \/ v = "NOT" -> False) -> forall i, In (v, i) op_table \/ v = "NOT" -> (k < m)%nat).
  { intros k v [H|[H S]] G i I1; [lia|]. destruct (Nat.eq_dec m (List.length (c :: w))) as [E|E]; [|lia]. exfalso. eapply G; eauto. }
  assert (G : forall v i, m = List.length (c :: w) -> same_text (c :: w) (cs v) -> In (v, i) op_table \/ v = "NOT" -> False).
  { intros v i E S [I1| ->]; apply R in E as [E1 E2]; [apply E1; eauto|contradiction]. }
  assert (D : forall g : matcher, g ((c :: w) ++ rest) = None -> forall k, g ((c :: w) ++ rest) = Some k -> (k < m)%nat) by (intros g E k X; congruence).
  unfold rules_words. repeat (apply Forall_app; split).
  - apply Forall_forall. intros r Hr. apply in_map_iff in Hr as ([v i] & <- & Hw). cbn [fst]. intros k E.
    pose proof op_wordy as O. rewrite forallb_forall in O. pose proof (O _ Hw) as O1. cbn [fst] in O1. apply (R0 k v (wordy_lit _ _ _ _ O1 N E) (G v) i). auto.
  - constructor; [|constructor; [|constructor; [|constructor]]]; cbn [fst ifdef_rule]; apply D; [apply one_off; unfold head_ok, letter in C; lia|apply seq_dead, alien_off; auto|apply seq_dead, alien_off; auto].
  - apply Forall_forall. intros r Hr. apply in_map_iff in Hr as ([v i] & <- & Hw). cbn [fst k_rule]. intros k E.
    pose proof kw_alien as O. rewrite forallb_forall in O. pose proof (O _ Hw) as O1. cbn [fst] in O1. apply orb_true_iff in O1 as [O1|O1].
    + rewrite (alien_off (cs v) c (w ++ rest) O1 C : lit (cs v) ((c :: w) ++ rest) = None) in E. discriminate.
    + apply String.eqb_eq in O1. subst v. assert (W : wordy (cs "NOT") = true) by reflexivity. apply (R0 k _ (wordy_lit _ _ _ _ W N E) (G _) 0). auto.
  - constructor; [|constructor; [|constructor]]; cbn [fst]; apply D, alien_off; auto.
  - apply Forall_forall. intros r Hr. apply in_map_iff in Hr as (x & <- & Hw). cbn [fst k_rule]. apply D, alien_off; auto.
    pose proof kw2_alien as O. rewrite forallb_forall in O. exact (O _ Hw).
  - apply Forall_forall. intros r Hr. apply in_map_iff in Hr as (x & <- & Hw). cbn [fst k_rule]. apply D, seq_dead, alien_off; auto.
    pose proof kw3_alien as O. rewrite forallb_forall in O. exact (O _ Hw).
Qed.
(** the three rules for names *)
Lemma best_symb c w rest n a m : head_ok c -> next_not name_char rest -> (n < m)%nat -> (m = List.length (c :: w) -> ~ same_text (c :: w) (cs "X") /\ ~ same_text (c :: w) (cs "Y")) ->
  symbc ((c :: w) ++ rest) = Some m -> (List.length (c :: w) <= m)%nat -> best rules_rest ((c :: w) ++ rest) n a = (m, name_act).
Proof.
  intros C N L XY S LW. cbn [app] in *. rewrite (rest_words _ _ _ _ C).
  assert (B : exists n' a', best [k_rule ("X", WX); k_rule ("Y", WY)] (c :: w ++ rest) n a = (n', a') /\ (n' < m)%nat).
  { pose proof (best_lt [k_rule ("X", WX); k_rule ("Y", WY)] (c :: w ++ rest) m) as B. destruct (best _ _ n a) as [n' a'] eqn:E. exists n', a'. split; auto.
    replace n' with (fst (best [k_rule ("X", WX); k_rule ("Y", WY)] (c :: w ++ rest) n a)) by (rewrite E; reflexivity). apply B; auto.
    assert (G : forall v, wordy v = true -> (m = List.length (c :: w) -> ~ same_text (c :: w) v) -> forall k, lit v (c :: w ++ rest) = Some k -> (k < m)%nat).
    { intros v Hv NS k E1. destruct (wordy_lit v (c :: w) rest k Hv N E1) as [?|[ -> ?]]; [lia|]. destruct (Nat.eq_dec m (List.length (c :: w))) as [Q|Q]; [|lia]. destruct (NS Q); auto. }
    constructor; [|constructor; [|constructor]]; cbn [fst k_rule]; apply G; auto; intros E0; apply XY in E0; tauto. }
  destruct B as (n' & a' & B & L2).
  change [k_rule ("X", WX); k_rule ("Y", WY); (symbc, name_act)] with ([k_rule ("X", WX); k_rule ("Y", WY)] ++ [(symbc, name_act)]).
  rewrite best_app, B. cbv iota. rewrite (best_take _ _ _ _ _ _ m S L2). cbn [best]. cbv iota. apply best_le.
  pose proof (head_rest2 c (w ++ rest) C) as H2. revert H2. apply Forall_impl. intros r H k E. specialize (H k E). cbn [List.length] in LW. lia.
Qed.
Lemma next_name rest : next_not word_char rest -> next_not name_char rest.
Proof. destruct rest; cbn; auto. unfold word_char. tauto. Qed.
Lemma best_named c w rest m : head_ok c -> next_not name_char rest -> (List.length (c :: w) <= m)%nat -> symbc ((c :: w) ++ rest) = Some m ->
  (m = List.length (c :: w) -> ~ reserved (c :: w)) -> best rules ((c :: w) ++ rest) O bad = (m, name_act).
Proof.
  intros C N L S R. rewrite best_all. pose proof (best_lt rules_words ((c :: w) ++ rest) m) as B.
  destruct (best rules_words ((c :: w) ++ rest) 0 bad) as [n a] eqn:E. apply best_symb; auto.
  - replace n with (fst (best rules_words ((c :: w) ++ rest) 0 bad)) by (rewrite E; reflexivity). apply B; [|cbn [List.length] in L; lia]. apply words_name; auto.
    intros E1. apply R in E1. split; intros X; apply E1; [left; exact X|right; left; exact X].
  - intros E1. apply R in E1. split; intros X; apply E1; [right; right; left; exact X|right; right; right; exact X].
Qed.
Lemma best_name w rest : is_name w -> ~ reserved w -> next_not word_char rest -> best rules (w ++ rest) O bad = (List.length w, name_act).
Proof.
  intros W R N. pose proof (symbc_name w rest W N) as S. destruct (name_head w W) as (c & w' & -> & C). apply best_named; auto. apply next_name, N.
Qed.
Lemma best_colon w rest : is_name w -> best rules ((w ++ [58]) ++ rest) O bad = (List.length (w ++ [58]), name_act).
Proof.
  intros W. pose proof (symbc_colon w rest W) as SC. destruct (name_head w W) as (c & w' & -> & C). rewrite <- app_assoc.
  replace (List.length ((c :: w') ++ [58])) with (S (List.length (c :: w'))) by (rewrite app_length; cbn; lia).
  apply best_named; auto; [cbn; unfold name_char, letter, digit; lia|intros E; lia].
Qed.

(** ** Mnemonics and words *)
Lemma lits2_none d : forallb (fun v => match lit (cs v) d with None => true | Some _ => false end) lits2 = true -> Forall (fun v => lit (cs v) d = None) lits2.
Proof. intros H. rewrite forallb_forall in H. apply Forall_forall. intros v Hv. specialize (H v Hv). destruct (lit (cs v) d); [discriminate|reflexivity]. Qed.
Lemma exts_name d rest : forallb is_sym1 (exts d) = true -> next_not name_char rest -> next_not (fun c => In (tolower c) (exts d)) rest.
Proof.
  intros H N. destruct rest as [|c r]; [exact I|]. unfold next_not in *. intros X. apply N. rewrite forallb_forall in H. apply H in X.
  apply sym1_iff. apply (lower_name (tolower c) c); auto. unfold tolower. repeat match goal with |- context [if ?b then _ else _] => destruct b eqn:? end; lia.
Qed.
(** the longest word rule on the text of [d'] *)
Definition takes (d' : cstr) (t : act) : Prop := exists a, best rules_words d' O bad = (List.length d', a) /\ forall w, a w = t.
Definition fine (d' : cstr) : bool :=
  forallb is_sym1 (exts d') && forallb (fun v => match lit (cs v) d' with None => true | Some _ => false end) lits2 && negb (nl2 (hd 0 d')).
Lemma same_length w d : same_text w d -> List.length w = List.length d.
Proof. intros H. apply (f_equal (@List.length Z)) in H. now rewrite !map_length in H. Qed.
Lemma words_take c w d' rest t : fine d' = true -> takes d' t -> same_text (c :: w) d' -> nl2 c = false -> next_not name_char rest ->
  exists a, best rules_words ((c :: w) ++ rest) O bad = (List.length (c :: w), a) /\ forall x, a x = t.
Proof.
  unfold fine. rewrite !andb_true_iff. intros [[F1 F2] F3] (a & T1 & T2) S C N. exists a. split; [|exact T2].
  rewrite (words_cut c w d' rest S C); auto; [rewrite T1, (same_length _ _ S); reflexivity|now apply negb_true_iff|apply exts_name; auto|apply lits2_none, F2].
Qed.

(** *** Words that begin with a letter *)
Lemma op_takes : Forall (fun x : string * Z => takes (cs (fst x)) (ATok (TkOp (snd x)))) op_table.
Proof. unfold op_table. repeat (apply Forall_cons; [eexists; split; [vm_compute; reflexivity|reflexivity]|]). apply Forall_nil. Qed.
Lemma op_fine : forallb (fun x : string * Z => fine (cs (fst x)) && is_alpha (hd 0 (cs (fst x))) && negb (Nat.eqb (List.length (cs (fst x))) 0)) op_table = true.
Proof. vm_compute. reflexivity. Qed.
Lemma lower_alpha a c : tolower a = tolower c -> is_alpha a = true -> letter c.
Proof. unfold tolower, is_alpha, letter. intros H. repeat match type of H with context [if ?b then _ else _] => destruct b eqn:? end; lia. Qed.
Lemma lower_fix c : is_sym1 c = true -> name_char c. Proof. apply sym1_iff. Qed.
(** a word in the letters of [v] is a name in form *)
Lemma same_name w v : same_text w v -> is_alpha (hd 0 v) = true -> wordy v = true -> exists c r, w = c :: r /\ letter c /\ Forall name_char r /\ is_name w.
Proof.
  intros S A W. destruct v as [|a v]; [discriminate A|]. destruct w as [|c r]; [discriminate S|]. unfold same_text in S. cbn [map] in S. injection S as S1 S2.
  cbn [hd] in A. assert (C : letter c) by (apply (lower_alpha a c); auto).
  assert (R : Forall name_char r).
  { unfold wordy in W. cbn [forallb] in W. apply andb_true_iff in W as [_ W]. clear - S2 W. revert v S2 W. induction r as [|x r IH]; intros [|y v] S W; try discriminate; constructor; cbn [map forallb] in *; injection S as S1 S2; apply andb_true_iff in W as [W1 W2].
    - apply sym1_iff. apply (lower_name y x); auto.
    - apply (IH v); auto. }
  exists c, r. repeat split; auto. exists [], c, r. auto.
Qed.
Lemma letter_nl c : letter c -> nl2 c = false. Proof. unfold letter, nl2. lia. Qed.
Lemma best_word w v rest t : same_text w v -> is_alpha (hd 0 v) = true -> wordy v = true -> fine v = true -> takes v t -> next_not word_char rest ->
  (exists c r, w = c :: r /\ letter c) /\ exists a, best rules (w ++ rest) O bad = (List.length w, a) /\ forall x, a x = t.
Proof.
  intros S A W Fi Ta N. destruct (same_name w v S A W) as (c & r & -> & C & R & Nm). split; [eauto|].
  destruct (words_take c r v rest t Fi Ta S (letter_nl c C) (next_name _ N)) as (a & B & At). exists a. split; [|exact At].
  rewrite best_all, B. cbn [app]. rewrite (rest_words _ _ _ _ (or_introl C)).
  replace (best [k_rule ("X", WX); k_rule ("Y", WY); (symbc, name_act)] (c :: r ++ rest) (List.length (c :: r)) a) with (List.length (c :: r), a).
  - apply best_le. pose proof (head_rest2 c (r ++ rest) (or_introl C)) as H2. revert H2. apply Forall_impl. intros x H k E. specialize (H k E). cbn [List.length]. lia.
  - symmetry. apply best_le. constructor; [|constructor; [|constructor; [|constructor]]]; cbn [fst k_rule]; intros k E.
    + apply lit_length in E as [-> _]. cbn. lia.
    + apply lit_length in E as [-> _]. cbn. lia.
    + change (c :: r ++ rest) with ((c :: r) ++ rest) in E. rewrite symbc_name in E; auto. injection E as <-. apply Nat.le_refl.
Qed.
Lemma best_op w v i rest : In (v, i) op_table -> same_text w (cs v) -> next_not word_char rest ->
  (exists c r, w = c :: r /\ letter c) /\ exists a, best rules (w ++ rest) O bad = (List.length w, a) /\ forall x, a x = ATok (TkOp i).
Proof.
  intros I1 S N. pose proof op_fine as O. rewrite forallb_forall in O. specialize (O _ I1). cbn [fst] in O. rewrite !andb_true_iff in O. destruct O as [[O1 O2] _].
  pose proof op_wordy as W. rewrite forallb_forall in W. specialize (W _ I1). cbn [fst] in W.
  pose proof op_takes as T. rewrite Forall_forall in T. specialize (T _ I1). cbn [fst snd] in T. apply (best_word w (cs v)); auto.
Qed.
Lemma best_not w rest : same_text w (cs "NOT") -> next_not word_char rest ->
  (exists c r, w = c :: r /\ letter c) /\ exists a, best rules (w ++ rest) O bad = (List.length w, a) /\ forall x, a x = ATok (TkKw WNot).
Proof.
  intros S N. apply (best_word w (cs "NOT")); auto; try reflexivity. eexists. split; [vm_compute; reflexivity|reflexivity].
Qed.
(** X and Y *)
Lemma xy_none d : d = cs "X" \/ d = cs "Y" -> best rules_words d O bad = (O, bad) /\ forallb is_sym1 (exts d) = true /\
  forallb (fun v => match lit (cs v) d with None => true | Some _ => false end) lits2 = true /\ nl2 (hd 0 d) = false.
Proof. intros [->| ->]; (split; [|split; [|split]]); vm_compute; reflexivity. Qed.
Lemma best_reg w v k rest : (v, k) = ("X", WX) \/ (v, k) = ("Y", WY) -> same_text w (cs v) -> next_not word_char rest ->
  (exists c r, w = c :: r /\ letter c) /\ exists a, best rules (w ++ rest) O bad = (List.length w, a) /\ forall x, a x = ATok (TkKw k).
Proof.
  intros V S N.
  assert (D : cs v = cs "X" \/ cs v = cs "Y") by (destruct V as [[= -> ->]|[= -> ->]]; auto).
  destruct (xy_none (cs v) D) as (B0 & X1 & X2 & X3).
  assert (A : is_alpha (hd 0 (cs v)) = true /\ wordy (cs v) = true /\ List.length (cs v) = 1%nat) by (destruct D as [->| ->]; repeat split; reflexivity).
  destruct A as (A1 & A2 & A3). destruct (same_name w (cs v) S A1 A2) as (c & r & -> & C & R & Nm). split; [eauto|].
  pose proof (same_length _ _ S) as L. rewrite A3 in L. destruct r; [|discriminate L].
  assert (Hb : best rules_words ([c] ++ rest) O bad = (O, bad)).
  { rewrite (words_cut c [] (cs v) rest S (letter_nl c C) X3); auto; [apply exts_name; auto; apply next_name, N|apply lits2_none, X2]. }
  rewrite best_all, Hb. cbn [app]. rewrite (rest_words _ _ _ _ (or_introl C)).
  assert (Ht : forall a, best rest2 (c :: rest) 1 a = (1%nat, a)) by (intros a; apply best_le, head_rest2, or_introl, C).
  assert (Hs : symbc (c :: rest) = Some 1%nat) by (apply (symbc_name [c] rest); auto).
  unfold same_text in S. destruct V as [[= -> ->]|[= -> ->]]; cbn in S; injection S as S1.
  - eexists. cbn [best k_rule fst snd]. replace (lit (cs "X") (c :: rest)) with (Some 1%nat) by (cbn; rewrite S1; reflexivity). cbn [Nat.ltb Nat.leb].
    replace (lit (cs "Y") (c :: rest)) with (@None nat) by (cbn; rewrite S1; reflexivity). rewrite Hs. cbn [Nat.ltb Nat.leb]. rewrite Ht. split; reflexivity.
  - eexists. cbn [best k_rule fst snd]. replace (lit (cs "X") (c :: rest)) with (@None nat) by (cbn; rewrite S1; reflexivity).
    replace (lit (cs "Y") (c :: rest)) with (Some 1%nat) by (cbn; rewrite S1; reflexivity). cbn [Nat.ltb Nat.leb]. rewrite Hs. cbn [Nat.ltb Nat.leb]. rewrite Ht. split; reflexivity.
Qed.

(** *** Directives *)
Definition dots : list (string * kw) := Eval vm_compute in filter (fun x => (hd 0 (cs (fst x)) =? 46) && negb (String.eqb (fst x) ".C64")) words.
Lemma dots_takes : Forall (fun x : string * kw => takes (cs (fst x)) (ATok (TkKw (snd x)))) dots.
Proof. unfold dots. repeat (apply Forall_cons; [eexists; split; [vm_compute; reflexivity|reflexivity]|]). apply Forall_nil. Qed.
Definition plain (v : cstr) : bool :=
  wordy v && (hd 0 v =? 46) && match lit (cs ".PRINT") v with None => true | Some _ => false end && match lit (cs ".C64") v with None => true | Some _ => false end.
Lemma dots_fine : forallb (fun x : string * kw => fine (cs (fst x)) && plain (cs (fst x))) dots = true.
Proof. vm_compute. reflexivity. Qed.
Lemma dot_rest s n a : (1 <= n)%nat -> lit (cs ".PRINT") (46 :: s) = None -> lit (cs ".C64") (46 :: s) = None -> best rules_rest (46 :: s) n a = (n, a).
Proof.
  intros L P C. apply best_le. unfold rules_rest.
  assert (D : forall m : matcher, m (46 :: s) = None -> forall k, m (46 :: s) = Some k -> (k <= n)%nat) by (intros m E k X; congruence).
  repeat (constructor; [cbn [fst k_rule]; first [apply D; first [exact C|apply seq_dead; exact P|try (change (cs "X") with [88]); try (change (cs "Y") with [89]); try (change (cs "/*") with [47; 42]); try (change (cs "//") with [47; 47]); fold symbc; off]
    |intros k; unfold notnl; cbn [one]; destruct (negb (is_nl 46)); [intros [= <-]; lia|discriminate]]|]). constructor.
Qed.
Lemma lower_dot c : tolower c = 46 -> c = 46.
Proof. unfold tolower. destruct (_ && _) eqn:E; lia. Qed.
Lemma best_directive w v rest t : same_text w v -> plain v = true -> fine v = true -> takes v t -> next_not word_char rest ->
  (exists r, w = 46 :: r /\ Forall name_char r) /\ exists a, best rules (w ++ rest) O bad = (List.length w, a) /\ forall x, a x = t.
Proof.
  unfold plain. rewrite !andb_true_iff. intros S [[[W H] P] C] Fi Ta N. apply Z.eqb_eq in H.
  assert (Hw : exists r, w = 46 :: r /\ Forall name_char r).
  { destruct v as [|a v]; [discriminate H|]. cbn [hd] in H. subst a. destruct w as [|c r]; [discriminate S|]. unfold same_text in S. cbn [map] in S. injection S as S1 S2.
    change (tolower 46) with 46 in S1. apply lower_dot in S1. subst c. exists r. split; auto.
    unfold wordy in W. cbn [forallb] in W. apply andb_true_iff in W as [_ W]. clear - S2 W. revert v S2 W. induction r as [|x r IH]; intros [|y v] S W; try discriminate; constructor; cbn [map forallb] in *; injection S as S1 S2; apply andb_true_iff in W as [W1 W2].
    - apply sym1_iff. apply (lower_name y x); auto.
    - apply (IH v); auto. }
  split; [exact Hw|]. destruct Hw as (r & -> & R). destruct (words_take 46 r v rest t Fi Ta S eq_refl (next_name _ N)) as (a & B & At). exists a. split; [|exact At].
  assert (K : forall z, wordy (cs z) = true -> lit (cs z) v = None -> lit (cs z) (46 :: r ++ rest) = None).
  { intros z Wz Lz. change (46 :: r ++ rest) with ((46 :: r) ++ rest). rewrite (wordy_cut _ _ _ Wz (next_name _ N)). rewrite (lit_fold _ _ _ S). exact Lz. }
  rewrite best_all, B. cbn [app]. apply dot_rest; [cbn; lia|apply K; [reflexivity|]|apply K; [reflexivity|]].
  - destruct (lit (cs ".PRINT") v); [discriminate P|reflexivity].
  - destruct (lit (cs ".C64") v); [discriminate C|reflexivity].
Qed.
Lemma best_dots w v k rest : In (v, k) dots -> same_text w (cs v) -> next_not word_char rest ->
  (exists r, w = 46 :: r /\ Forall name_char r) /\ exists a, best rules (w ++ rest) O bad = (List.length w, a) /\ forall x, a x = ATok (TkKw k).
Proof.
  intros I1 S N. pose proof dots_fine as O. rewrite forallb_forall in O. specialize (O _ I1). cbn [fst] in O. apply andb_true_iff in O as [O1 O2].
  pose proof dots_takes as T. rewrite Forall_forall in T. specialize (T _ I1). cbn [fst snd] in T. apply (best_directive w (cs v)); auto.
Qed.
Lemma best_do w rest : same_text w (cs ".DO") -> next_not word_char rest ->
  (exists r, w = 46 :: r /\ Forall name_char r) /\ exists a, best rules (w ++ rest) O bad = (List.length w, a) /\ forall x, a x = ADo.
Proof. intros S N. apply (best_directive w (cs ".DO")); auto. eexists. split; [vm_compute; reflexivity|reflexivity]. Qed.
Lemma best_while w rest : same_text w (cs ".WHILE") -> next_not word_char rest ->
  (exists r, w = 46 :: r /\ Forall name_char r) /\ exists a, best rules (w ++ rest) O bad = (List.length w, a) /\ forall x, a x = AWhile.
Proof. intros S N. apply (best_directive w (cs ".WHILE")); auto. eexists. split; [vm_compute; reflexivity|reflexivity]. Qed.
Lemma best_c64 w rest : same_text w (cs ".C64") -> next_not word_char rest ->
  (exists r, w = 46 :: r /\ Forall name_char r) /\ exists a, best rules (w ++ rest) O bad = (List.length w, a) /\ forall x, a x = ATok (TkKw WC64).
Proof.
  intros S N.
  assert (B0 : best rules_words ((cs ".C64") ++ rest) O bad = (O, bad)).
  { change (cs ".C64") with (46 :: [67; 54; 52]). rewrite (words_cut 46 [67; 54; 52] (46 :: [67; 54; 52]) rest); [vm_compute; reflexivity|reflexivity|reflexivity|reflexivity| |].
    - apply exts_name; [vm_compute; reflexivity|apply next_name, N].
    - apply lits2_none. vm_compute. reflexivity. }
  pose proof (same_length _ _ S) as L. unfold same_text in S.
  assert (E : forall v, lit (cs v) (w ++ rest) = lit (cs v) (cs ".C64" ++ rest)) by (intros v; apply lit_fold; unfold same_text; rewrite !map_app, S; reflexivity).
  destruct w as [|c r]; [discriminate L|]. assert (Hc : c = 46) by (apply lower_dot; cbn [map] in S; injection S as S1 S2; exact S1). subst c.
  assert (R : Forall name_char r).
  { cbn [map] in S. injection S as S2. clear - S2. revert S2.
    destruct r as [|x [|y [|z [|? ?]]]]; cbn; intros S; try discriminate S. injection S as S1 S2 S3.
    constructor; [|constructor; [|constructor; [|constructor]]]; apply sym1_iff; [apply (lower_name 67 x)|apply (lower_name 54 y)|apply (lower_name 52 z)]; auto. }
  split; [eauto|].
  assert (B1 : best rules_words ((46 :: r) ++ rest) O bad = (O, bad)).
  { rewrite (words_cut 46 r (cs ".C64") rest); [vm_compute; reflexivity|exact S|reflexivity|reflexivity| |].
    - apply exts_name; [vm_compute; reflexivity|apply next_name, N].
    - apply lits2_none. vm_compute. reflexivity. }
  rewrite best_all, B1. change rules_rest with (k_rule (".C64", WC64) :: skipn 1 rules_rest). unfold k_rule at 1. cbn [fst snd].
  rewrite (best_take _ _ _ _ _ _ 4%nat); [|rewrite E; reflexivity|lia]. rewrite L. eexists. split; [|reflexivity]. cbn [app].
  assert (P : lit (cs ".PRINT") (46 :: r ++ rest) = None) by (change (46 :: r ++ rest) with ((46 :: r) ++ rest); rewrite E; reflexivity).
  clear - P. change (List.length (cs ".C64")) with 4%nat. apply best_le. unfold rules_rest. cbn [skipn].
  assert (D : forall m : matcher, m (46 :: r ++ rest) = None -> forall k, m (46 :: r ++ rest) = Some k -> (k <= 4)%nat) by (intros m E k X; congruence).
  repeat (constructor; [cbn [fst k_rule]; first [apply D; first [apply seq_dead; exact P|try (change (cs "X") with [88]); try (change (cs "Y") with [89]); try (change (cs "/*") with [47; 42]); try (change (cs "//") with [47; 47]); fold symbc; off]
    |intros k; unfold notnl; cbn [one]; destruct (negb (is_nl 46)); [intros [= <-]; lia|discriminate]]|]). constructor.
Qed.

(** ** Punctuation *)
Lemma lower_same c e : tolower c = e -> ~ (97 <= e <= 122) -> c = e.
Proof. unfold tolower. destruct (_ && _) eqn:E; lia. Qed.
Definition signs (d no : cstr) : bool :=
  forallb (fun e => negb ((97 <=? e) && (e <=? 122)) && existsb (Z.eqb e) no) (exts d) &&
  forallb (fun v => match lit (cs v) d with None => true | Some _ => false end) lits2 && negb (nl2 (hd 0 d)).
Lemma words_mark c d no rest : signs (c :: d) no = true -> next_not (fun c => In c no) rest ->
  best rules_words ((c :: d) ++ rest) O bad = best rules_words (c :: d) O bad.
Proof.
  unfold signs. rewrite !andb_true_iff. intros [[F1 F2] F3] N. cbn [hd] in F3. apply negb_true_iff in F3.
  apply words_cut; auto; [reflexivity| |apply lits2_none, F2].
  destruct rest as [|x rest]; [exact I|]. unfold next_not in *. intros X. rewrite forallb_forall in F1. pose proof (F1 _ X) as Y.
  apply andb_true_iff in Y as [Y1 Y2]. apply N. apply existsb_exists in Y2 as (z & Z1 & Z2). apply Z.eqb_eq in Z2. rewrite (lower_same x _ eq_refl) by lia. rewrite Z2. exact Z1.
Qed.
Definition mark_ok (v : cstr) (t : tok) (no : cstr) : Prop :=
  forall rest, next_not (fun c => In c no) rest -> exists a, best rules (v ++ rest) O bad = (List.length v, a) /\ a v = ATok t.
Lemma pmc_one rest : next_not (fun c => In c (cs "|+-")) rest -> span is_pmc rest = O.
Proof. destruct rest as [|c r]; [reflexivity|]. unfold next_not. cbn. unfold is_pmc. intros H. replace ((c =? 43) || (c =? 124) || (c =? 45)) with false by lia. reflexivity. Qed.
(** one character *)
Lemma mark_char c no : signs [c] no = true -> best rules_words [c] O bad = (O, bad) ->
  (forall rest, next_not (fun c => In c no) rest -> exists a, best rules_rest (c :: rest) O bad = (1%nat, a) /\ a [c] = ATok (TkCh c)) -> mark_ok [c] (TkCh c) no.
Proof.
  intros S B H rest N. rewrite best_all, (words_mark c [] no rest S N), B. apply H, N.
Qed.
Lemma mark_word c d t no n a : signs (c :: d) no = true -> best rules_words (c :: d) O bad = (n, a) -> n = List.length (c :: d) -> a (c :: d) = ATok t ->
  (forall rest, next_not (fun c => In c no) rest -> Forall (fun r : rule => forall k, fst r ((c :: d) ++ rest) = Some k -> (k <= n)%nat) rules_rest) -> mark_ok (c :: d) t no.
Proof.
  intros S B -> A H rest N. exists a. split; [|exact A]. rewrite best_all, (words_mark c d no rest S N), B. apply best_le, H, N.
Qed.
Ltac letters := try (change (cs "X") with [88]); try (change (cs "Y") with [89]); try (change (cs "/*") with [47; 42]); try (change (cs "//") with [47; 47]);
  try (change (cs ".C64") with [46; 67; 54; 52]); try (change (cs ".PRINT") with [46; 80; 82; 73; 78; 84]).
Ltac wide := unfold rules_rest; cbn [app];
  repeat (constructor; [cbn [fst k_rule]; intros k; first [match goal with |- ?m ?s = Some k -> _ => replace (m s) with (@None nat) by (symmetry; letters; fold symbc; off); discriminate end
    |unfold notnl; cbn [one]; match goal with |- (if ?b then _ else _) = _ -> _ => destruct b; [intros [= <-]; lia|discriminate] end|idtac]|]); try apply Forall_nil.
Ltac one_char k := apply (mark_char k); [vm_compute; reflexivity|vm_compute; reflexivity|]; intros rest N; eexists; unfold rules_rest, k_rule; cbn [fst snd]; nones.
Lemma marks_ok : Forall (fun x : string * tok * string => mark_ok (cs (fst (fst x))) (snd (fst x)) (cs (snd x))) marks.
Proof.
  unfold marks.
  constructor; [one_char 35; take 1%nat; nones; keep 1%nat; split; reflexivity|].
  constructor; [one_char 44; take 1%nat; nones; keep 1%nat; split; reflexivity|].
  constructor; [one_char 40; take 1%nat; nones; keep 1%nat; split; reflexivity|].
  constructor; [one_char 41; take 1%nat; nones; keep 1%nat; split; reflexivity|].
  constructor; [one_char 126; take 1%nat; nones; keep 1%nat; split; reflexivity|].
  constructor; [one_char 94; take 1%nat; nones; keep 1%nat; split; reflexivity|].
  constructor.
  { one_char 47. assert (X : lit (cs "/*") (47 :: rest) = None /\ lit (cs "//") (47 :: rest) = None).
    { destruct rest as [|x rest]; [split; reflexivity|]. unfold next_not in N. cbn in N.
      change (lit (cs "/*") (47 :: x :: rest)) with (option_map S (lit [42] (x :: rest))). change (lit (cs "//") (47 :: x :: rest)) with (option_map S (lit [47] (x :: rest))).
      rewrite !lit_off1; [split; reflexivity| |]; intros E; apply N; [left|right; left]; symmetry; apply (lower_same x _ (eq_sym E)); cbn; lia. }
    destruct X as [X1 X2]. rewrite best_none by exact X1. nones. rewrite best_none by (apply seq_dead; exact X2). nones. take 1%nat. nones. keep 1%nat. split; reflexivity. }
  constructor; [one_char 60; take 1%nat; nones; keep 1%nat; split; reflexivity|].
  constructor; [one_char 62; take 1%nat; nones; keep 1%nat; split; reflexivity|].
  constructor; [one_char 61; take 1%nat; nones; keep 1%nat; split; reflexivity|].
  repeat (constructor; [cbn [fst snd]; match goal with |- mark_ok (cs ?v) _ _ => let x := eval vm_compute in (cs v) in change (cs v) with x end;
    eapply mark_word; [vm_compute; reflexivity|vm_compute; reflexivity|reflexivity|reflexivity|]; intros rest N; wide|]); try apply Forall_nil.
  all: try (unfold plus; cbn; rewrite ?(pmc_one rest N); intros [= <-]; lia).
Qed.

(** ** One step of the scanner *)
Definition action (f : nat) (w rest : cstr) (last : option Z) (dc ln : Z) (a : act) : list ltok :=
  let c0 := hd 0 w in
  match a with
  | ATok t => LTok t ln :: scan f rest (Some c0) dc ln
  | APc => LTok (TkKw WPcAssign) ln :: LTok (TkCh 61) ln :: scan f rest (Some 61) dc ln
  | AWhile => if 0 <? dc then LTok (TkKw WEnddo) ln :: scan f rest (Some c0) (dc - 1) ln else LTok (TkKw WWhile) ln :: scan f rest (Some c0) dc ln
  | ADo => LTok (TkKw WDo) ln :: scan f rest (Some c0) (dc + 1) ln
  | AName => LTok (TkName w (match last with None => true | Some c => c =? 10 end)) ln :: scan f rest (Some c0) dc ln
  | APar => LTok (TkPar w) ln :: scan f rest (Some c0) dc ln
  | APm => (if match last with None => false | Some c => c =? 10 end then LTok (TkPm w true) ln else match w with [c] => LTok (TkCh c) ln | _ => LTok (TkPm w false) ln end)
           :: scan f rest (Some c0) dc ln
  | AComment => let '(r', k) := skip_comment rest in scan f r' (Some 42) dc (ln + k)
  | ANone => scan f rest last dc ln
  end.
Lemma scan_step f w rest last dc ln a : w <> [] -> best rules (w ++ rest) O bad = (List.length w, a) ->
  scan (S f) (w ++ rest) last dc ln = action f w rest last dc (ln + lines_in w) (a w).
Proof.
  intros W B. destruct w as [|c w]; [contradiction|]. cbn [app] in *. cbn [scan]. unfold bad in B. rewrite B. rewrite Nat.max_l by (cbn; lia).
  change (c :: w ++ rest) with ((c :: w) ++ rest). rewrite firstn_app_l, skipn_app_l. reflexivity.
Qed.
Lemma lines_none w : Forall (fun c => c <> 10) w -> lines_in w = 0.
Proof. induction 1 as [|c w C _ IH]; [reflexivity|]. cbn [lines_in]. rewrite IH. destruct (Z.eqb_spec c 10); [contradiction|reflexivity]. Qed.
Definition begins (w : cstr) : Prop := match w with c :: _ => c <> 10 | [] => False end.
(** after a token: the last character is no line feed *)
Definition inside (first : bool) (n : Z) (last : option Z) : Prop := if first then n = 0 /\ last = None \/ last = Some 10 else exists c, last = Some c /\ c <> 10.

(** ** Numbers, strings, signs *)
Lemma quoted_end cs rest : Forall (fun c => c <> 34 /\ c <> 92 /\ c <> 10) cs -> forall f, (List.length cs < f)%nat -> quoted f (cs ++ 34 :: rest) = Some (S (List.length cs)).
Proof.
  induction 1 as [|c cs (C1 & C2 & C3) _ IH]; intros [|f] L; try (cbn in L; lia); cbn [app quoted]; [reflexivity|].
  rewrite (eqb_f c 34 C1), (eqb_f c 10 C3), (eqb_f c 92 C2). rewrite IH by (cbn in L; lia). reflexivity.
Qed.
Lemma strvalue_end cs rest : Forall (fun c => c <> 34 /\ c <> 92 /\ c <> 10) cs -> next_not (fun c => c = 34) rest ->
  strvalue (34 :: cs ++ 34 :: rest) = Some (S (S (List.length cs))).
Proof.
  intros C N. unfold strvalue. cbn [strvalues].
  assert (E : strvalue1 (34 :: cs ++ 34 :: rest) = Some (S (S (List.length cs)))).
  { unfold strvalue1. rewrite (seq_ok _ _ _ 1%nat (S (List.length cs))); [reflexivity|reflexivity|]. cbn [skipn]. apply quoted_end; auto. cbn [List.length]. rewrite app_length. cbn. lia. }
  rewrite E. replace (skipn (S (S (List.length cs))) (34 :: cs ++ 34 :: rest)) with rest.
  - assert (X : strvalues (List.length (34 :: cs ++ 34 :: rest)) rest = None).
    { cbn [List.length strvalues]. replace (strvalue1 rest) with (@None nat); [reflexivity|]. unfold strvalue1. symmetry. apply seq_dead.
      destruct rest as [|x r]; [reflexivity|]. cbn in N. apply one_off. lia. }
    rewrite X. reflexivity.
  - symmetry. replace (34 :: cs ++ 34 :: rest) with ((34 :: cs ++ [34]) ++ rest) by (cbn [app]; rewrite <- app_assoc; reflexivity).
    replace (S (S (List.length cs))) with (List.length (34 :: cs ++ [34])) by (cbn [List.length]; rewrite app_length; cbn; lia). apply skipn_app_l.
Qed.
Lemma best_string cs rest : Forall (fun c => c <> 34 /\ c <> 92 /\ c <> 10) cs -> List.length cs <> 1%nat -> next_not (fun c => c = 34) rest ->
  exists a, best rules ((34 :: cs ++ [34]) ++ rest) O bad = (List.length (34 :: cs ++ [34]), a) /\ forall w, a w = ATok (TkStr w).
Proof.
  intros C L N. replace ((34 :: cs ++ [34]) ++ rest) with (34 :: cs ++ 34 :: rest) by (cbn [app]; rewrite <- app_assoc; reflexivity).
  replace (List.length (34 :: cs ++ [34])) with (S (S (List.length cs))) by (cbn [List.length]; rewrite app_length; cbn; lia).
  rewrite best_rules by reflexivity. unfold rules_rest, k_rule. cbn [fst snd]. nones.
  rewrite best_none.
  2:{ destruct cs as [|x [|y cs]]; cbn [app].
      - destruct rest as [|z r]; [reflexivity|]. cbn in N. unfold seq. cbn. rewrite (eqb_f z 34 N). reflexivity.
      - cbn in L. lia.
      - inversion C as [|? ? _ C']; subst. inversion C' as [|? ? (Y & _) _]; subst. unfold seq, notnl. cbn [one skipn]. change (34 =? 34) with true. cbv iota. cbn [one skipn].
        destruct (negb (is_nl x)); [|reflexivity]. cbn [one skipn]. rewrite (eqb_f y 34 Y). reflexivity. }
  rewrite best_none.
  2:{ destruct cs as [|x cs]; cbn [app]; [reflexivity|]. inversion C as [|? ? (_ & X & _) _]; subst. unfold seq. cbn [one skipn]. change (34 =? 34) with true. cbv iota. cbn [one skipn].
      rewrite (eqb_f x 92 X). reflexivity. }
  nones. rewrite (best_take _ _ _ _ _ _ _ (strvalue_end cs rest C N)) by lia. nones. keep 1%nat. eexists. split; reflexivity.
Qed.
Lemma best_dquote c rest : c <> 10 -> c <> 92 -> c <> 34 -> next_not (fun c => c = 34) rest ->
  best rules ([34; c; 34] ++ rest) O bad = (3%nat, chr_act).
Proof.
  intros H1 H2 H3 N. cbn [app]. rewrite best_rules by reflexivity. unfold rules_rest, k_rule. nones.
  rewrite (best_take _ _ _ _ _ _ 3%nat); [| |lia].
  2:{ unfold seq, notnl, one, is_nl. change (34 =? 34) with true. cbv iota. cbn [skipn]. rewrite (eqb_f c 10 H1).
      cbn [negb]. cbv iota. cbn [skipn]. change (34 =? 34) with true. reflexivity. }
  rewrite best_none by (unfold seq, one; change (34 =? 34) with true; cbv iota; cbn [skipn]; now rewrite (eqb_f c 92 H2)).
  nones. rewrite (best_keep _ _ _ _ _ _ 3%nat).
  - nones. keep 1%nat. reflexivity.
  - apply (strvalue_end [c] rest); auto.
  - lia.
Qed.
Lemma best_sign c rest : c = 43 \/ c = 45 -> next_not (fun c => In c (cs "|+-")) rest ->
  exists a, best rules ([c] ++ rest) O bad = (1%nat, a) /\ forall w, a w = APm.
Proof.
  intros C N. pose proof (pmc_one rest N) as P. cbn [app]. destruct C as [->| ->]; rewrite best_rules by reflexivity; unfold rules_rest, k_rule; cbn [fst snd]; nones;
  (rewrite (best_take _ _ _ _ _ _ 1%nat); [|unfold plus; cbn [span is_pmc]; rewrite P; reflexivity|lia]); nones; keep 1%nat; nones; keep 1%nat; eexists; split; reflexivity.
Qed.
Lemma ws_blank c : is_ws c = true <-> blank_ch c. Proof. unfold is_ws, blank_ch. lia. Qed.
Lemma ws_split rest : exists b r, rest = b ++ r /\ Forall blank_ch b /\ span is_ws rest = List.length b /\ next_not blank_ch r.
Proof.
  induction rest as [|c rest (b & r & -> & B & Sp & N)]; [exists [], []; repeat split; constructor|]. cbn [span]. destruct (is_ws c) eqn:E.
  - exists (c :: b), r. split; [reflexivity|]. split; [constructor; [apply ws_blank, E|exact B]|]. split; [rewrite Sp; reflexivity|exact N].
  - exists [], (c :: b ++ r). split; [reflexivity|]. split; [constructor|]. split; [reflexivity|]. unfold next_not. rewrite <- ws_blank. congruence.
Qed.
Lemma best_star rest : (forall b r, rest = b ++ r -> Forall blank_ch b -> next_not (fun c => c = 61 \/ c = 46) r) ->
  exists a, best rules ([42] ++ rest) O bad = (1%nat, a) /\ forall w, a w = ATok (TkCh (hd 0 w)).
Proof.
  intros H. destruct (ws_split rest) as (b & r & E & B & Sp & N). specialize (H b r E B). cbn [app]. rewrite best_rules by reflexivity. unfold rules_rest, k_rule. cbn [fst snd]. nones.
  assert (X : forall g : matcher, g r = None -> seq (ch 42) (seq (star is_ws) g) (42 :: rest) = None).
  { intros g G. unfold seq. cbn [one]. change (42 =? 42) with true. cbv iota. cbn [skipn]. unfold star. rewrite Sp, E, skipn_app_l, G. reflexivity. }
  rewrite best_none by (apply X; destruct r as [|c r']; [reflexivity|]; cbn in H; apply one_off; lia).
  rewrite best_none.
  2:{ apply X. destruct r as [|c r']; [reflexivity|]. cbn in H. apply (lit_off1 46 [69; 81; 85]). intros Q. change (tolower 46) with 46 in Q. apply H. right. apply (lower_same c 46); [auto|lia]. }
  nones. take 1%nat. nones. keep 1%nat. eexists. split; reflexivity.
Qed.
Lemma best_pcassign b rest : Forall blank_ch b -> exists a, best rules ((42 :: b ++ [61]) ++ rest) O bad = (List.length (42 :: b ++ [61]), a) /\ forall w, a w = APc.
Proof.
  intros B. replace ((42 :: b ++ [61]) ++ rest) with (42 :: b ++ 61 :: rest) by (cbn [app]; rewrite <- app_assoc; reflexivity).
  replace (List.length (42 :: b ++ [61])) with (S (List.length b + 1)) by (cbn [List.length]; rewrite app_length; reflexivity).
  assert (Sp : span is_ws (b ++ 61 :: rest) = List.length b).
  { apply span_app; [|reflexivity]. apply forallb_forall. intros c C. apply ws_blank. rewrite Forall_forall in B. auto. }
  rewrite best_rules by reflexivity. unfold rules_rest, k_rule. cbn [fst snd]. nones.
  assert (X : forall g : matcher, seq (ch 42) (seq (star is_ws) g) (42 :: b ++ 61 :: rest) = match g (61 :: rest) with Some k => Some (1 + (List.length b + k))%nat | None => None end).
  { intros g. unfold seq. cbn [one]. change (42 =? 42) with true. cbv iota. cbn [skipn]. unfold star. rewrite Sp, skipn_app_l. destruct (g (61 :: rest)); reflexivity. }
  rewrite (best_take _ _ _ _ _ _ (S (List.length b + 1))); [|rewrite X; reflexivity|lia].
  rewrite best_none by (rewrite X; reflexivity). nones. keep 1%nat. nones. keep 1%nat. eexists. split; reflexivity.
Qed.
Lemma best_par d ds rest : 49 <= d <= 57 -> Forall digit ds -> next_not digit rest ->
  exists a, best rules ((92 :: d :: ds) ++ rest) O bad = (List.length (92 :: d :: ds), a) /\ forall w, a w = APar.
Proof.
  intros D Ds N. cbn [app]. rewrite best_rules by reflexivity. unfold rules_rest, k_rule. cbn [fst snd]. nones.
  rewrite (best_take _ _ _ _ _ _ (List.length (92 :: d :: ds))); [| |cbn; lia].
  2:{ unfold seq. cbn [one]. change (92 =? 92) with true. cbv iota. cbn [skipn one]. replace (isdigit d && negb (d =? 48)) with true by (unfold isdigit; lia). cbn [skipn]. unfold star.
      rewrite span_app; [reflexivity| |].
      - apply forallb_forall. intros c C. rewrite Forall_forall in Ds. specialize (Ds c C). unfold digit in Ds. unfold isdigit. lia.
      - destruct rest as [|x r]; [exact I|]. cbn in N. unfold digit in N. unfold isdigit. lia. }
  nones. rewrite (best_keep _ _ _ _ _ _ 1%nat); [eexists; split; reflexivity|reflexivity|cbn; lia].
Qed.
Lemma star_nl cs rest : Forall (fun c => c <> 10) cs -> next_not (fun c => c <> 10) rest -> span (fun c => negb (is_nl c)) (cs ++ rest) = List.length cs.
Proof.
  intros C N. apply span_app.
  - apply forallb_forall. intros c H. rewrite Forall_forall in C. specialize (C c H). unfold is_nl. lia.
  - destruct rest as [|x r]; [exact I|]. cbn in N. unfold is_nl. lia.
Qed.
Lemma best_comment cs rest : Forall (fun c => c <> 10) cs -> next_not (fun c => c <> 10) rest ->
  exists a, best rules ((59 :: cs) ++ rest) O bad = (List.length (59 :: cs), a) /\ forall w, a w = ANone.
Proof.
  intros C N. cbn [app]. rewrite best_rules by reflexivity. unfold rules_rest, k_rule. cbn [fst snd]. nones.
  rewrite (best_take _ _ _ _ _ _ (List.length (59 :: cs))); [| |cbn; lia].
  2:{ unfold seq. cbn [one]. change (59 =? 59) with true. cbv iota. cbn [skipn]. unfold star. rewrite star_nl by auto. reflexivity. }
  nones. rewrite (best_keep _ _ _ _ _ _ 1%nat); [|reflexivity|cbn; lia]. nones. rewrite (best_keep _ _ _ _ _ _ 1%nat); [|reflexivity|cbn; lia]. eexists; split; reflexivity.
Qed.
Lemma best_slash cs rest : Forall (fun c => c <> 10) cs -> next_not (fun c => c <> 10) rest ->
  exists a, best rules ((47 :: 47 :: cs) ++ rest) O bad = (List.length (47 :: 47 :: cs), a) /\ forall w, a w = ANone.
Proof.
  intros C N. cbn [app]. rewrite best_rules by (vm_compute; reflexivity). unfold rules_rest, k_rule. cbn [fst snd]. nones.
  rewrite (best_take _ _ _ _ _ _ (List.length (47 :: 47 :: cs))); [| |cbn; lia].
  2:{ unfold seq. change (lit (Base.cs "//") (47 :: 47 :: cs ++ rest)) with (Some 2%nat). cbv iota. cbn [skipn]. unfold star. rewrite star_nl by auto. reflexivity. }
  nones. rewrite (best_keep _ _ _ _ _ _ 1%nat); [|reflexivity|cbn; lia]. nones. rewrite (best_keep _ _ _ _ _ _ 1%nat); [|reflexivity|cbn; lia]. eexists; split; reflexivity.
Qed.
Lemma best_blank c rest : blank_ch c -> exists a, best rules (c :: rest) O bad = (S (span is_ws rest), a) /\ forall w, a w = ANone.
Proof.
  intros [->| ->]; rewrite best_rules by reflexivity; unfold rules_rest, k_rule; cbn [fst snd]; nones; take (S (span is_ws rest)); keep 1%nat; eexists; split; reflexivity.
Qed.
Lemma best_eol rest : exists a, best rules ([10] ++ rest) O bad = (1%nat, a) /\ forall w, a w = ATok (TkKw WEol).
Proof.
  cbn [app]. rewrite best_all.
  assert (B : best rules_words (10 :: rest) O bad = (1%nat, fun _ => ATok (TkKw WEol))) by reflexivity.
  rewrite B. unfold rules_rest, k_rule. cbn [fst snd]. nones. try (keep 1%nat; nones). eexists; split; reflexivity.
Qed.

(** ** Texts *)
Lemma names_nl r : Forall name_char r -> Forall (fun c => c <> 10) r.
Proof. apply Forall_impl. intros c. unfold name_char, letter, digit. lia. Qed.
Lemma word_nl w v : same_text w v -> wordy v = true -> Forall (fun c => c <> 10) w.
Proof.
  unfold same_text, wordy. revert v. induction w as [|c w IH]; intros [|a v] S W; try discriminate; constructor; cbn [map forallb] in *; injection S as S1 S2; apply andb_true_iff in W as [W1 W2].
  - pose proof (lower_name a c (eq_sym S1) W1) as X. unfold is_sym1, is_sym0, is_alpha, isdigit in X. lia.
  - apply (IH v); auto.
Qed.
Lemma step_tok f w rest last dc ln a t : begins w -> Forall (fun c => c <> 10) w -> best rules (w ++ rest) O bad = (List.length w, a) -> a w = ATok t ->
  scan (S f) (w ++ rest) last dc ln = LTok t ln :: scan f rest (Some (hd 0 w)) dc ln.
Proof.
  intros W L B A. rewrite (scan_step f w rest last dc ln a) by (auto; intros ->; exact W). rewrite (lines_none w L), Z.add_0_r, A. reflexivity.
Qed.
Lemma cons_begins c w : Forall (fun c => c <> 10) (c :: w) -> begins (c :: w).
Proof. intros H. inversion H; subst. assumption. Qed.
Lemma begins_ne w : begins w -> w <> [].
Proof. intros B ->. exact B. Qed.
(** runs of + and - *)
Lemma best_run w rest : w <> [] -> Forall (fun c => c = 43 \/ c = 45) w -> next_not (fun c => In c (cs "|+-")) rest ->
  exists a, best rules (w ++ rest) O bad = (List.length w, a) /\ forall x, a x = APm.
Proof.
  intros Ne W N. destruct w as [|c w]; [contradiction|]. inversion W as [|? ? C Ws]; subst.
  assert (Sp : span is_pmc (w ++ rest) = List.length w).
  { clear - Ws N. induction Ws as [|x w X _ IH]; cbn [app]; [apply pmc_one, N|]. cbn [span List.length]. unfold is_pmc at 1. replace ((x =? 43) || (x =? 124) || (x =? 45)) with true by lia. now rewrite IH. }
  rewrite best_all. assert (B : best rules_words ((c :: w) ++ rest) O bad = (O, bad)).
  { change ((c :: w) ++ rest) with ([c] ++ w ++ rest).
    rewrite (words_cut c [] [c] (w ++ rest)).
    - destruct C as [->| ->]; vm_compute; reflexivity.
    - reflexivity.
    - unfold nl2. lia.
    - cbn [hd]. unfold nl2. lia.
    - replace (exts [c]) with (@nil Z) by (destruct C as [->| ->]; vm_compute; reflexivity). destruct (w ++ rest); [exact I|]. intros [].
    - apply lits2_none. destruct C as [->| ->]; vm_compute; reflexivity. }
  rewrite B. cbn [app]. unfold rules_rest, k_rule. cbn [fst snd].
  assert (Pm : plus is_pmc (c :: w ++ rest) = Some (S (List.length w))).
  { unfold plus. cbn [span]. unfold is_pmc at 1. replace ((c =? 43) || (c =? 124) || (c =? 45)) with true by lia. rewrite Sp. reflexivity. }
  eexists. split; [|intros x; exact (eq_refl APm)].
  destruct C as [->| ->]; nones; rewrite (best_take _ _ _ _ _ _ _ Pm) by lia; nones; keep 1%nat; nones; keep 1%nat; reflexivity.
Qed.
Lemma best_remark rest : exists a, best rules ([47; 42] ++ rest) O bad = (2%nat, a) /\ forall x, a x = AComment.
Proof.
  rewrite best_all. assert (B : best rules_words ([47; 42] ++ rest) O bad = (O, bad)).
  { rewrite (words_cut 47 [42] [47; 42] rest).
    - vm_compute; reflexivity.
    - reflexivity.
    - reflexivity.
    - reflexivity.
    - replace (exts [47; 42]) with (@nil Z) by (vm_compute; reflexivity). destruct rest; [exact I|]. intros [].
    - apply lits2_none. vm_compute; reflexivity. }
  rewrite B. cbn [app]. unfold rules_rest, k_rule. cbn [fst snd]. eexists. split; [|intros x; exact (eq_refl AComment)].
  nones. take 2%nat. nones. keep 1%nat. nones. keep 1%nat. reflexivity.
Qed.
Lemma remark_end cs : (forall a b, cs ++ [42; 47] = a ++ 42 :: 47 :: b -> b = []) -> forall rest, skip_comment (cs ++ 42 :: 47 :: rest) = (rest, lines_in cs).
Proof.
  induction cs as [|c cs IH]; intros H rest; [reflexivity|].
  assert (Hc : (c =? 42) && (match cs ++ 42 :: 47 :: rest with d :: _ => d =? 47 | [] => false end) = false).
  { apply andb_false_iff. destruct (Z.eqb_spec c 42) as [->|]; [right|left; reflexivity].
    destruct cs as [|d cs]; [reflexivity|]. cbn [app]. destruct (Z.eqb_spec d 47) as [->|]; [|reflexivity]. exfalso.
    specialize (H [] (cs ++ [42; 47]) eq_refl). destruct cs; discriminate. }
  cbn [app skip_comment lines_in]. rewrite Hc. rewrite IH.
  - destruct (c =? 10); reflexivity.
  - intros a b E. apply (H (c :: a) b). cbn [app]. rewrite E. reflexivity.
Qed.
Lemma after_name w b x : Forall (fun c => is_ws c = false) w -> b <> [] -> Forall blank_ch b -> is_name x -> after_ws (w ++ b ++ x) = x.
Proof.
  intros W Nb B X. unfold after_ws. destruct b as [|c b]; [contradiction|]. inversion B as [|? ? C Bs]; subst.
  assert (E1 : span (fun c => negb (is_ws c)) (w ++ (c :: b) ++ x) = List.length w).
  { apply span_app; [apply forallb_forall; intros y Hy; rewrite Forall_forall in W; rewrite (W y Hy); reflexivity|]. cbn [app]. apply ws_blank in C. rewrite C. reflexivity. }
  rewrite E1, skipn_app_l.
  assert (E2 : span is_ws ((c :: b) ++ x) = List.length (c :: b)).
  { apply span_app; [apply forallb_forall; intros y Hy; apply ws_blank; rewrite Forall_forall in B; apply B, Hy|].
    destruct (name_head x X) as (h & r & -> & H). unfold is_ws. unfold head_ok, letter in H. lia. }
  rewrite E2, skipn_app_l. reflexivity.
Qed.
Lemma best_ifdef w v neg b x rest : In (v, neg) [(".IFDEF", false); (".IFNDEF", true)] -> same_text w (cs v) -> b <> [] -> Forall blank_ch b -> is_name x -> next_not name_char rest ->
  (exists r, w = 46 :: r /\ Forall name_char r) /\ exists a, best rules ((w ++ b ++ x) ++ rest) O bad = (List.length (w ++ b ++ x), a) /\ a (w ++ b ++ x) = ATok (TkKw (WIfdef neg x)).
Proof.
  intros V Sw Nb B X N. set (T := (w ++ b ++ x) ++ rest).
  assert (ET : T = w ++ (b ++ x ++ rest)) by (unfold T; rewrite <- !app_assoc; reflexivity).
  assert (Ad : cs v = cs ".IFDEF" \/ cs v = cs ".IFNDEF") by (destruct V as [[= <- <-]|[[= <- <-]|[]]]; auto).
  assert (Hw : exists r, w = 46 :: r /\ Forall name_char r).
  { assert (Wv : wordy (cs v) = true /\ exists v', cs v = 46 :: v') by (destruct Ad as [->| ->]; (split; [reflexivity|eexists; reflexivity])). destruct Wv as [Wv (v' & Ev)]. rewrite Ev in *. clear - Sw Wv.
    destruct w as [|c r]; [discriminate Sw|]. unfold same_text in Sw. cbn [map] in Sw. injection Sw as S1 S2. apply lower_dot in S1. subst c. exists r. split; auto.
    unfold wordy in Wv. cbn [forallb] in Wv. apply andb_true_iff in Wv as [_ W]. revert v' S2 W. induction r as [|y r IH]; intros [|z v] S W; try discriminate; constructor; cbn [map forallb] in *; injection S as S1 S2; apply andb_true_iff in W as [W1 W2].
    - apply sym1_iff. apply (lower_name z y); auto.
    - apply (IH v); auto. }
  split; [exact Hw|].
  assert (Nx : next_not name_char (b ++ x ++ rest)).
  { destruct b as [|c b']; [contradiction|]. inversion B as [|? ? C _]; subst. cbn. unfold blank_ch in C. unfold name_char, letter, digit. lia. }
  assert (L : forall z, In z (lits1 ++ lits2) -> lit (cs z) T = lit (cs z) (cs v)).
  { intros z Iz. rewrite ET. rewrite <- (not_ext (cs v) (b ++ x ++ rest) z); auto.
    - apply lit_fold. unfold same_text in *. rewrite !map_app, Sw. reflexivity.
    - apply exts_name; auto. destruct Ad as [->| ->]; vm_compute; reflexivity. }
  set (m := List.length (w ++ b ++ x)).
  assert (Lm : (List.length (cs v) < m)%nat).
  { unfold m. rewrite !app_length. rewrite <- (same_length _ _ Sw). destruct b; [contradiction|]. cbn [List.length]. lia. }
  assert (L1 : forall z k, In z (lits1 ++ lits2) -> lit (cs z) T = Some k -> (k < m)%nat).
  { intros z k Iz E. rewrite (L z Iz) in E. apply lit_length in E as [_ E]. lia. }
  assert (Hs : seq (plus is_ws) symb (b ++ x ++ rest) = Some (List.length (b ++ x))).
  { rewrite app_length. apply seq_ok; [|rewrite skipn_app_l; apply symb_name; auto].
    unfold plus. rewrite span_app.
    - destruct b; [contradiction|]. reflexivity.
    - apply forallb_forall. intros y Hy. apply ws_blank. rewrite Forall_forall in B. apply B, Hy.
    - destruct (name_head x X) as (h & r & -> & H). cbn [app]. unfold is_ws. unfold head_ok, letter in H. lia. }
  assert (Hm : seq (lit (cs v)) (seq (plus is_ws) symb) T = Some m).
  { unfold m. rewrite app_length, (same_length _ _ Sw). apply seq_ok.
    - rewrite L by (destruct V as [[= <- <-]|[[= <- <-]|[]]]; unfold lits1, lits2; rewrite !in_app_iff; cbn; auto 20). destruct Ad as [->| ->]; reflexivity.
    - rewrite ET, <- (same_length _ _ Sw), skipn_app_l. exact Hs.
    }
  destruct Hw as (r & Er & _).
  set (A := map (fun w : string * Z => (lit (cs (fst w)), fun _ : cstr => ATok (TkOp (snd w)))) op_table).
  set (Bs := map k_rule kw_table ++ [(lit (cs ".WHILE"), fun _ : cstr => AWhile); (lit (cs ".DO"), fun _ : cstr => ADo)] ++ map k_rule kw_table2 ++
    map (fun w : string * string * kw => (seq (lit (cs (fst (fst w)))) (seq (star is_ws) (lit (cs (snd (fst w))))), fun _ : cstr => ATok (TkKw (snd w)))) kw_table3).
  assert (Sp : rules_words = A ++ [(one (fun c => (c =? 10) || (c =? 13)), fun _ => ATok (TkKw WEol)); ifdef_rule ".IFDEF" false; ifdef_rule ".IFNDEF" true] ++ Bs) by reflexivity.
  assert (K : forall (Y : Type) (Tb : list (string * Y)) (g : Y -> cstr -> act), incl (map fst Tb) (lits1 ++ lits2) ->
     Forall (fun r : rule => forall k, fst r T = Some k -> (k < m)%nat) (map (fun w => (lit (cs (fst w)), g (snd w))) Tb)).
  { intros Y Tb g I1. apply Forall_forall. intros q Hq. apply in_map_iff in Hq as (y & <- & Hy). cbn [fst]. intros k. apply L1, I1. apply in_map, Hy. }
  assert (FA : Forall (fun r : rule => forall k, fst r T = Some k -> (k < m)%nat) A).
  { apply (K _ op_table (fun i _ => ATok (TkOp i))). unfold lits1. intros y Hy. rewrite !in_app_iff. auto. }
  assert (FB : Forall (fun r : rule => forall k, fst r T = Some k -> (k < m)%nat) Bs).
  { unfold Bs. repeat (apply Forall_app; split).
    - apply (K _ kw_table (fun k _ => ATok (TkKw k))). unfold lits1. intros y Hy. rewrite !in_app_iff. auto.
    - constructor; [|constructor; [|constructor]]; cbn [fst]; intros k; apply L1; unfold lits1; rewrite !in_app_iff; cbn; auto 20.
    - apply (K _ kw_table2 (fun k _ => ATok (TkKw k))). unfold lits1. intros y Hy. rewrite !in_app_iff. auto 10.
    - apply Forall_forall. intros q Hq. apply in_map_iff in Hq as (y & <- & Hy). cbn [fst]. intros k E.
      rewrite seq_dead in E; [discriminate|]. rewrite L by (unfold lits2; rewrite !in_app_iff; right; right; apply (in_map (fun w : string * string * kw => fst (fst w))), Hy).
      clear - Hy Ad. assert (Q : forallb (fun y : string * string * kw => match lit (cs (fst (fst y))) (cs v) with None => true | Some _ => false end) kw_table3 = true) by (destruct Ad as [->| ->]; vm_compute; reflexivity).
      rewrite forallb_forall in Q. specialize (Q _ Hy). destruct (lit _ (cs v)); [discriminate|reflexivity]. }
  assert (FR : forall a, best rules_rest T m a = (m, a)).
  { intros a. rewrite ET, Er. cbn [app]. apply dot_rest; [lia| |].
    - change (46 :: r ++ b ++ x ++ rest) with ((46 :: r) ++ (b ++ x ++ rest)). rewrite <- Er. rewrite (wordy_cut (cs ".PRINT") _ _ eq_refl Nx). rewrite (lit_fold _ _ _ Sw). destruct Ad as [->| ->]; reflexivity.
    - change (46 :: r ++ b ++ x ++ rest) with ((46 :: r) ++ (b ++ x ++ rest)). rewrite <- Er. rewrite (wordy_cut (cs ".C64") _ _ eq_refl Nx). rewrite (lit_fold _ _ _ Sw). destruct Ad as [->| ->]; reflexivity. }
  pose proof (best_lt A T m FA O bad ltac:(lia)) as BA. rewrite best_all, Sp, best_app. destruct (best A T 0 bad) as [n0 a0]. cbn [fst] in BA.
  assert (Fl : Forall (fun r : rule => forall k, fst r T = Some k -> (k <= m)%nat) Bs) by (revert FB; apply Forall_impl; intros q Hq k E; specialize (Hq k E); lia).
  assert (Aw : after_ws (w ++ b ++ x) = x).
  { apply after_name; auto. rewrite Er. constructor; [reflexivity|]. clear - Sw Ad Er. assert (Wv : wordy (cs v) = true) by (destruct Ad as [->| ->]; reflexivity). subst w. unfold same_text in Sw. unfold wordy in Wv. revert Sw Wv.
    clear Ad. destruct (cs v) as [|a u]; [discriminate|]. cbn [map forallb]. intros S W. injection S as _ S2. apply andb_true_iff in W as [_ W]. revert u S2 W. induction r as [|y r IH]; intros [|z u] S W; try discriminate; constructor; cbn [map forallb] in *; injection S as S1 S2; apply andb_true_iff in W as [W1 W2].
    - pose proof (lower_name z y (eq_sym S1) W1) as Q. unfold is_sym1, is_sym0, is_alpha, isdigit in Q. unfold is_ws. lia.
    - apply (IH u); auto. }
  cbn [app]. rewrite best_none by (rewrite ET, Er; reflexivity).
  destruct V as [[= <- <-]|[[= <- <-]|[]]].
  - unfold ifdef_rule at 1. rewrite (best_take _ _ _ _ _ _ m Hm) by lia. unfold ifdef_rule at 1.
    rewrite best_none by (apply seq_dead; rewrite L by (unfold lits2; rewrite !in_app_iff; cbn; auto); reflexivity).
    rewrite (best_le Bs T m Fl). rewrite FR. eexists. split; [reflexivity|]. cbv beta. rewrite Aw. reflexivity.
  - unfold ifdef_rule at 1. rewrite best_none by (apply seq_dead; rewrite L by (unfold lits2; rewrite !in_app_iff; cbn; auto); reflexivity).
    unfold ifdef_rule at 1. rewrite (best_take _ _ _ _ _ _ m Hm) by lia. rewrite (best_le Bs T m Fl). rewrite FR. eexists. split; [reflexivity|]. cbv beta. rewrite Aw. reflexivity.
Qed.
Lemma words_in v k : In (v, k) words -> (v, k) = ("NOT", WNot) \/ (v, k) = ("X", WX) \/ (v, k) = ("Y", WY) \/ (v, k) = (".C64", WC64) \/ In (v, k) dots.
Proof. unfold words, dots. cbn [In]. intros H. intuition auto. Qed.
Lemma dots_wordy v k : In (v, k) dots -> wordy (cs v) = true.
Proof. intros I1. pose proof dots_fine as O. rewrite forallb_forall in O. specialize (O _ I1). cbn [fst] in O. apply andb_true_iff in O as [_ O]. unfold plain in O. rewrite !andb_true_iff in O. apply O. Qed.
Lemma dot_begins r : begins (46 :: r). Proof. cbn. lia. Qed.
Lemma lexeme_scan first rest w t : lexeme first rest w t -> forall n last, inside first n last -> begins w /\
  forall f d, scan (S f) (w ++ rest) last d n = LTok t n :: scan f rest (Some (hd 0 w)) d n.
Proof.
  intros H n last Li. destruct H as [cs ds W V N|cs ds W V N|cs ds W E V N|c C1 C2 C3|c C1 C2 C3 C4 N|w v i I1 S N|w W R N|w W|w v k I1 S N|v t no I1 N|c F C N|w F W2 W N|w v neg b x V Sw Nb B X N|N|d ds D Ds N|cs C L N].
  - split; [cbn; lia|]. intros. rewrite (scan_hex f cs ds); auto. rewrite as_int_fits by (split; [apply (positional_pos 16 cs); auto; lia|auto]). reflexivity.
  - split; [cbn; lia|]. intros. rewrite (scan_bin f cs ds); auto. rewrite as_int_fits by (split; [apply (positional_pos 2 cs); auto; lia|auto]). reflexivity.
  - inversion W as [|c d cs' ds' [W1 W2] W3]; subst; [contradiction|]. split; [cbn; unfold digit_is in W1; lia|]. intros. rewrite (scan_dec f c cs' d ds'); auto.
    rewrite as_int_fits by (split; [apply (positional_pos 10 (c :: cs')); auto; lia|auto]). reflexivity.
  - split; [cbn; lia|]. intros. apply scan_char; auto.
  - split; [cbn; lia|]. intros. apply (step_tok f [34; c; 34] rest last d n chr_act); [cbn; lia|repeat constructor; lia|apply best_dquote; auto|].
    unfold chr_act. rewrite one_byte_char by lia. rewrite Z.mod_small; auto.
  - destruct (best_op w v i rest I1 S N) as ((c & r & -> & C) & a & B & A). pose proof op_wordy as O. rewrite forallb_forall in O. pose proof (O _ I1) as O1.
    pose proof (word_nl _ _ S O1) as L. split; [apply cons_begins, L|]. intros. apply (step_tok f _ rest last d n a); auto. apply cons_begins, L.
  - pose proof (best_name w rest W R N) as B. destruct W as (a & c & r & -> & A & C & Rr).
    assert (L : Forall (fun c => c <> 10) (a ++ c :: r)).
    { apply Forall_app. split; [destruct A as [->| ->]; repeat constructor; lia|]. constructor; [unfold letter in C; lia|apply names_nl, Rr]. }
    assert (Bg : begins (a ++ c :: r)) by (destruct A as [->| ->]; cbn [app]; apply cons_begins, L). split; [exact Bg|]. intros.
    rewrite (scan_step f _ rest last d n _ (begins_ne _ Bg) B). rewrite (lines_none _ L), Z.add_0_r. unfold name_act, action.
    unfold inside in Li. destruct first; [destruct Li as [[_ ->]| ->]; reflexivity|destruct Li as (x & -> & X); rewrite (eqb_f x 10 X); reflexivity].
  - pose proof (best_colon w rest W) as B. destruct W as (a & c & r & -> & A & C & Rr).
    assert (L : Forall (fun c => c <> 10) ((a ++ c :: r) ++ [58])).
    { apply Forall_app. split; [|repeat constructor; lia]. apply Forall_app. split; [destruct A as [->| ->]; repeat constructor; lia|]. constructor; [unfold letter in C; lia|apply names_nl, Rr]. }
    assert (Bg : begins ((a ++ c :: r) ++ [58])) by (destruct A as [->| ->]; cbn [app]; apply cons_begins, L). split; [exact Bg|]. intros.
    rewrite (scan_step f _ rest last d n _ (begins_ne _ Bg) B). rewrite (lines_none _ L), Z.add_0_r. unfold name_act, action.
    unfold inside in Li. destruct first; [destruct Li as [[_ ->]| ->]; reflexivity|destruct Li as (x & -> & X); rewrite (eqb_f x 10 X); reflexivity].
  - destruct (words_in v k I1) as [V|[V|[V|[V|V]]]].
    + injection V as -> ->. destruct (best_not w rest S N) as ((c & r & -> & C) & a & B & A). pose proof (word_nl _ _ S eq_refl) as L.
      split; [apply cons_begins, L|]. intros. apply (step_tok f _ rest last d n a); auto. apply cons_begins, L.
    + destruct (best_reg w v k rest (or_introl V) S N) as ((c & r & -> & C) & a & B & A). injection V as -> ->. pose proof (word_nl _ _ S eq_refl) as L.
      split; [apply cons_begins, L|]. intros. apply (step_tok f _ rest last d n a); auto. apply cons_begins, L.
    + destruct (best_reg w v k rest (or_intror V) S N) as ((c & r & -> & C) & a & B & A). injection V as -> ->. pose proof (word_nl _ _ S eq_refl) as L.
      split; [apply cons_begins, L|]. intros. apply (step_tok f _ rest last d n a); auto. apply cons_begins, L.
    + injection V as -> ->. destruct (best_c64 w rest S N) as ((r & -> & C) & a & B & A). pose proof (word_nl _ _ S eq_refl) as L.
      split; [apply cons_begins, L|]. intros. apply (step_tok f _ rest last d n a); auto. apply cons_begins, L.
    + destruct (best_dots w v k rest V S N) as ((r & -> & C) & a & B & A). pose proof (word_nl _ _ S (dots_wordy v k V)) as L.
      split; [apply cons_begins, L|]. intros. apply (step_tok f _ rest last d n a); auto. apply cons_begins, L.
  - pose proof marks_ok as M. rewrite Forall_forall in M. specialize (M _ I1). cbn [fst snd] in M. destruct (M rest N) as (a & B & A).
    assert (L : Forall (fun c => c <> 10) (cs v) /\ begins (cs v)).
    { clear - I1. assert (X : forallb (fun x : string * tok * string => forallb (fun c => negb (c =? 10)) (cs (fst (fst x))) && match cs (fst (fst x)) with [] => false | _ => true end) marks = true) by reflexivity.
      rewrite forallb_forall in X. specialize (X _ I1). cbn [fst] in X. apply andb_true_iff in X as [X1 X2]. destruct (cs v) as [|c r]; [discriminate|].
      assert (L : Forall (fun c => c <> 10) (c :: r)). { apply Forall_forall. intros x Hx. rewrite forallb_forall in X1. specialize (X1 x Hx). lia. }
      split; [exact L|apply cons_begins, L]. }
    destruct L as [L Bg]. split; [exact Bg|]. intros. apply (step_tok f _ rest last d n a); auto.
  - subst first. destruct (best_sign c rest C N) as (a & B & A). split; [cbn; lia|]. intros. destruct Li as (x & -> & X).
    rewrite (scan_step f [c] rest (Some x) d n a) by (auto; discriminate). rewrite (lines_none [c]) by (repeat constructor; lia). rewrite Z.add_0_r, A. unfold action. rewrite (eqb_f x 10 X). reflexivity.
  - subst first. assert (Ne : w <> []) by (intros ->; cbn in W2; lia). destruct (best_run w rest Ne W N) as (a & B & A).
    assert (Bg : begins w) by (destruct w as [|c w']; [contradiction|inversion W; subst; cbn; lia]). split; [exact Bg|]. intros. destruct Li as (x & -> & X).
    rewrite (scan_step f w rest (Some x) d n a) by auto. rewrite (lines_none w) by (revert W; apply Forall_impl; lia). rewrite Z.add_0_r, A. unfold action. rewrite (eqb_f x 10 X).
    destruct w as [|c1 [|c2 w']]; [contradiction|cbn in W2; lia|reflexivity].
  - destruct (best_ifdef w v neg b x rest V Sw Nb B X N) as ((r & -> & R) & a & Ba & A).
    assert (L : Forall (fun c => c <> 10) ((46 :: r) ++ b ++ x)).
    { apply Forall_app. split; [constructor; [lia|apply names_nl, R]|]. apply Forall_app. split; [revert B; apply Forall_impl; unfold blank_ch; lia|].
      destruct X as (a1 & c & r1 & -> & Aa & C & Rr). apply Forall_app. split; [destruct Aa as [->| ->]; repeat constructor; lia|]. constructor; [unfold letter in C; lia|apply names_nl, Rr]. }
    split; [cbn; lia|]. intros. apply (step_tok f _ rest last d n a); auto. cbn; lia.
  - destruct (best_star rest N) as (a & B & A). split; [cbn; lia|]. intros. apply (step_tok f [42] rest last d n a); auto; [cbn; lia|repeat constructor; lia|]. rewrite A. reflexivity.
  - destruct (best_par d ds rest D Ds N) as (a & B & A). split; [cbn; lia|]. intros.
    rewrite (scan_step f _ rest last _ _ a) by (auto; discriminate). rewrite (lines_none (92 :: d :: ds)).
    + rewrite Z.add_0_r, A. reflexivity.
    + constructor; [lia|]. constructor; [lia|]. revert Ds. apply Forall_impl. unfold digit. lia.
  - destruct (best_string cs rest C L N) as (a & B & A). split; [cbn; lia|]. intros. apply (step_tok f _ rest last d n a); auto; [cbn; lia|].
    constructor; [lia|]. apply Forall_app. split; [revert C; apply Forall_impl; tauto|repeat constructor; lia].
Qed.

Lemma hd_inside w n : begins w -> inside false n (Some (hd 0 w)).
Proof. destruct w as [|c w]; [intros []|]. cbn. intros H. exists c. auto. Qed.
Lemma lexed_scan first d n ts s : lexed first d n ts s -> 0 <= n -> forall last, inside first n last -> forall f, (List.length s < f)%nat -> scan f s last d n = ts.
Proof.
  induction 1 as [f d n|f d n ts c rest C H IH|f d n ts cs rest C N H IH|f d n ts cs rest C N H IH|f d n ts cs rest C H IH|f d n ts rest H IH|f d n ts w t rest Lx H IH|d n ts w rest P Ne W N H IH|f d n ts b rest B H IH
    |f d n ts w rest S N H IH|f d n ts w rest S N D H IH|f d n ts w rest S N D H IH]; intros Np last Li fu Fu.
  - destruct fu; reflexivity.
  - destruct fu as [|fu]; [lia|]. cbn [List.length] in Fu.
    assert (St : forall c0 r0 fu0 last0, blank_ch c0 -> scan (S fu0) (c0 :: r0) last0 d n = scan fu0 (skipn (span is_ws r0) r0) last0 d n).
    { intros c0 r0 fu0 last0 C0. destruct (best_blank c0 r0 C0) as (a & B & A). cbn [scan]. unfold bad in B. rewrite B, A. rewrite Nat.max_l by lia. cbn [skipn].
      replace (n + lines_in (firstn (S (span is_ws r0)) (c0 :: r0))) with n; [reflexivity|]. rewrite lines_none; [lia|]. cbn [firstn]. constructor; [unfold blank_ch in C0; lia|].
      clear. induction r0 as [|x r0 IHr]; cbn [span firstn]; [constructor|]. destruct (is_ws x) eqn:E; cbn [firstn]; [|constructor]. constructor; [unfold is_ws in E; lia|exact IHr]. }
    rewrite (St c rest fu last C). destruct rest as [|x rest].
    + cbn [span skipn]. apply IH; auto. cbn. lia.
    + destruct (is_ws x) eqn:E.
      * rewrite <- (IH Np last Li (S fu)) by lia. rewrite (St x rest fu last) by (apply ws_blank, E). cbn [span]. rewrite E. reflexivity.
      * cbn [span]. rewrite E. cbn [skipn]. apply IH; auto. lia.
  - destruct fu as [|fu]; [lia|]. destruct (best_comment cs rest C N) as (a & B & A). change (59 :: cs ++ rest) with ((59 :: cs) ++ rest) in *.
    rewrite (scan_step fu _ rest last d n a) by (auto; discriminate). rewrite (lines_none (59 :: cs)) by (constructor; [lia|exact C]). rewrite Z.add_0_r, A. cbn [action]. apply IH; auto. rewrite app_length in Fu. cbn in Fu. lia.
  - destruct fu as [|fu]; [lia|]. destruct (best_slash cs rest C N) as (a & B & A). change (47 :: 47 :: cs ++ rest) with ((47 :: 47 :: cs) ++ rest) in *.
    rewrite (scan_step fu _ rest last d n a) by (auto; discriminate). rewrite (lines_none (47 :: 47 :: cs)) by (constructor; [lia|]; constructor; [lia|exact C]). rewrite Z.add_0_r, A. cbn [action]. apply IH; auto. rewrite app_length in Fu. cbn in Fu. lia.
  - destruct fu as [|fu]; [lia|]. destruct (best_remark (cs ++ 42 :: 47 :: rest)) as (a & B & A). change (47 :: 42 :: cs ++ 42 :: 47 :: rest) with ([47; 42] ++ cs ++ 42 :: 47 :: rest) in *.
    rewrite (scan_step fu _ _ last d n a) by (auto; discriminate). rewrite A. unfold action. rewrite (remark_end cs C). change (lines_in [47; 42]) with 0. rewrite Z.add_0_r.
    assert (Lp : 0 <= lines_in cs) by (clear; induction cs as [|x cs IH]; cbn [lines_in]; [lia|destruct (x =? 10); lia]).
    apply IH; [lia|exists 42; split; [reflexivity|lia]|]. rewrite !app_length in Fu. cbn in Fu. lia.
  - destruct fu as [|fu]; [lia|]. destruct (best_eol rest) as (a & B & A). change (10 :: rest) with ([10] ++ rest) in *.
    rewrite (scan_step fu [10] rest last d n a) by (auto; discriminate). rewrite A. unfold action. cbn [lines_in hd]. change (10 =? 10) with true. cbv iota. rewrite Z.add_0_r. f_equal.
    apply IH; [lia|right; reflexivity|]. cbn in Fu. lia.
  - destruct (lexeme_scan _ _ _ _ Lx n last Li) as [Bg E]. destruct fu as [|fu]; [lia|]. rewrite E. f_equal. apply IH; [lia|apply hd_inside, Bg|]. rewrite app_length in Fu. destruct w; [destruct Bg|]. cbn in Fu. lia.
  - destruct fu as [|fu]; [lia|]. destruct (best_run w rest Ne W N) as (a & B & A). rewrite (scan_step fu w rest last d n a) by auto.
    rewrite (lines_none w) by (revert W; apply Forall_impl; lia). rewrite Z.add_0_r, A. unfold action. destruct Li as [[-> _]| ->]; [lia|]. change (10 =? 10) with true. cbv iota. f_equal.
    assert (Bg : begins w) by (destruct w as [|c w']; [contradiction|inversion W; subst; cbn; lia]).
    apply IH; [lia|apply hd_inside, Bg|]. rewrite app_length in Fu. destruct w; [contradiction|]. cbn in Fu. lia.
  - destruct fu as [|fu]; [lia|]. destruct (best_pcassign b rest B) as (a & Ba & A). replace (42 :: b ++ 61 :: rest) with ((42 :: b ++ [61]) ++ rest) in * by (cbn [app]; rewrite <- app_assoc; reflexivity).
    rewrite (scan_step fu _ rest last d n a) by (auto; discriminate). rewrite (lines_none (42 :: b ++ [61])).
    + rewrite Z.add_0_r, A. unfold action. do 2 f_equal. apply IH; [lia|exists 61; split; [reflexivity|lia]|]. rewrite app_length in Fu. cbn in Fu. lia.
    + constructor; [lia|]. apply Forall_app. split; [revert B; apply Forall_impl; unfold blank_ch; lia|repeat constructor; lia].
  - destruct fu as [|fu]; [lia|]. destruct (best_do w rest S N) as ((r & -> & _) & a & B & A). pose proof (word_nl _ _ S eq_refl) as L.
    rewrite (scan_step fu _ rest last d n a) by (auto; discriminate). rewrite (lines_none _ L), Z.add_0_r, A. unfold action. f_equal. apply IH; [lia|apply hd_inside, cons_begins, L|]. rewrite app_length in Fu. cbn in Fu. lia.
  - destruct fu as [|fu]; [lia|]. destruct (best_while w rest S N) as ((r & -> & _) & a & B & A). pose proof (word_nl _ _ S eq_refl) as L.
    rewrite (scan_step fu _ rest last d n a) by (auto; discriminate). rewrite (lines_none _ L), Z.add_0_r, A. unfold action. replace (0 <? d) with false by lia. f_equal. apply IH; [lia|apply hd_inside, cons_begins, L|]. rewrite app_length in Fu. cbn in Fu. lia.
  - destruct fu as [|fu]; [lia|]. destruct (best_while w rest S N) as ((r & -> & _) & a & B & A). pose proof (word_nl _ _ S eq_refl) as L.
    rewrite (scan_step fu _ rest last d n a) by (auto; discriminate). rewrite (lines_none _ L), Z.add_0_r, A. unfold action. replace (0 <? d) with true by lia. f_equal. apply IH; [lia|apply hd_inside, cons_begins, L|]. rewrite app_length in Fu. cbn in Fu. lia.
Qed.
Theorem lexed_tokens ts s : lexed true 0 0 ts s -> tokens s = ts.
Proof. intros H. apply (lexed_scan _ _ _ _ _ H); [lia|left; auto|lia]. Qed.
