(** Number literals in the scanner (proofs for C45). *)
From Coq Require Import String Lia.
From Verif Require Import Base BaseProofs Str CNum Opcodes Lexer.
Ltac Zify.zify_post_hook ::= Z.div_mod_to_equations.
Open Scope string_scope.
Open Scope list_scope.
Open Scope Z_scope.

(** ** Specification *)
(** the digit meant by a character *)
Definition digit_is (c d : Z) : Prop :=
  (48 <= c <= 57 /\ d = c - 48) \/ (97 <= c <= 102 /\ d = c - 87) \/ (65 <= c <= 70 /\ d = c - 55).
(** the text [cs] writes the digits [ds] of the given base *)
Definition writes (base : Z) (cs : cstr) (ds : list Z) : Prop :=
  Forall2 (fun c d => digit_is c d /\ d < base) cs ds.
Fixpoint positional (base : Z) (ds : list Z) : Z :=
  match ds with [] => 0 | d :: r => d * base ^ Z.of_nat (List.length r) + positional base r end.
(** the next character is none of those *)
Definition next_not (p : Z -> Prop) (rest : cstr) : Prop := match rest with [] => True | c :: _ => ~ p c end.

(** ** The conversion *)
Lemma hexval_digit c d : digit_is c d -> isxdigit c = true /\ hexval c = d.
Proof.
  unfold digit_is, isxdigit, hexval, isdigit, tolower. intros H.
  destruct H as [[H ->]|[[H ->]|[H ->]]].
  - replace ((48 <=? c) && (c <=? 57)) with true by (symmetry; apply andb_true_iff; lia). auto.
  - replace ((48 <=? c) && (c <=? 57)) with false by (symmetry; apply andb_false_iff; lia).
    replace ((65 <=? c) && (c <=? 70)) with false by (symmetry; apply andb_false_iff; lia).
    replace ((97 <=? c) && (c <=? 102)) with true by (symmetry; apply andb_true_iff; lia).
    replace ((65 <=? c) && (c <=? 90)) with false by (symmetry; apply andb_false_iff; lia). split; [reflexivity|lia].
  - replace ((48 <=? c) && (c <=? 57)) with false by (symmetry; apply andb_false_iff; lia).
    replace ((65 <=? c) && (c <=? 70)) with true by (symmetry; apply andb_true_iff; lia).
    replace ((65 <=? c) && (c <=? 90)) with true by (symmetry; apply andb_true_iff; lia). split; [reflexivity|lia].
Qed.
Lemma digit_pos c d : digit_is c d -> 0 <= d <= 15.
Proof. unfold digit_is; lia. Qed.
Lemma number_acc base cs ds : writes base cs ds -> forall acc tail,
  next_not (fun c => exists d, digit_is c d) tail ->
  number base (cs ++ tail) acc = acc * base ^ Z.of_nat (List.length ds) + positional base ds.
Proof.
  induction 1 as [|c d cs ds (Hc & Hd) HF IH]; intros acc tail HT.
  - cbn [app]. destruct tail as [|c t]; cbn [number positional List.length]; [lia|].
    destruct (isxdigit c) eqn:E; cbn [andb]; [|lia]. exfalso. apply HT.
    unfold isxdigit, isdigit in E. apply orb_true_iff in E as [E|E]; [apply orb_true_iff in E as [E|E]|];
      apply andb_true_iff in E; unfold digit_is; eexists; [left|right;right|right;left]; (split; [lia|reflexivity]).
  - cbn [app number positional List.length]. destruct (hexval_digit _ _ Hc) as (H1 & H2). rewrite H1, H2.
    replace (d <? base) with true by lia. cbn [andb]. rewrite IH by auto. rewrite Nat2Z.inj_succ, Z.pow_succ_r by lia.
    ring.
Qed.
Lemma positional_pos base cs ds : 0 <= base -> writes base cs ds -> 0 <= positional base ds.
Proof.
  intros Hb. induction 1 as [|c d cs ds (Hc & Hd) HF IH]; cbn [positional]; [lia|].
  apply digit_pos in Hc. pose proof (Z.pow_nonneg base (Z.of_nat (List.length ds)) Hb). nia.
Qed.
Definition as_int (v : Z) : Z := i32 (Z.min v (2 ^ 63 - 1)).
Lemma int_of_writes base cs ds : writes base cs ds -> int_of base cs = as_int (positional base ds).
Proof.
  intros H. unfold int_of, as_int. rewrite <- (app_nil_r cs), (number_acc base cs ds H) by exact I.
  now rewrite Z.mul_0_l.
Qed.
Lemma int_of_quote base cs ds : writes base cs ds -> int_of base (cs ++ [39]) = as_int (positional base ds).
Proof.
  intros H. unfold int_of, as_int. rewrite (number_acc base cs ds H); [now rewrite Z.mul_0_l|].
  cbn. intros (d & Hd). unfold digit_is in Hd. lia.
Qed.
Lemma as_int_fits v : 0 <= v < 2 ^ 31 -> as_int v = v.
Proof. intros H. unfold as_int. rewrite Z.min_l by lia. unfold i32. lia. Qed.

(** ** The longest match *)
Definition dead (c : Z) (r : rule) : Prop := forall s, fst r (c :: s) = None.
Lemma best_dead c rs rs' : Forall (dead c) rs -> forall s n a, best (rs ++ rs') (c :: s) n a = best rs' (c :: s) n a.
Proof.
  induction 1 as [|[m f] rs H HF IH]; intros s n a; cbn [app best]; auto. specialize (H s). cbn [fst] in H. rewrite H. apply IH.
Qed.
Lemma best_none m f rs s n a : m s = None -> best ((m, f) :: rs) s n a = best rs s n a.
Proof. intros H. cbn [best]. now rewrite H. Qed.
Lemma best_take m f rs s n a k : m s = Some k -> (n < k)%nat -> best ((m, f) :: rs) s n a = best rs s k f.
Proof. intros H Hk. cbn [best]. rewrite H. apply Nat.ltb_lt in Hk. now rewrite Hk. Qed.
Lemma best_keep m f rs s n a k : m s = Some k -> (k <= n)%nat -> best ((m, f) :: rs) s n a = best rs s n a.
Proof. intros H Hk. cbn [best]. rewrite H. apply Nat.ltb_ge in Hk. now rewrite Hk. Qed.

(** literals that begin with another character *)
Definition lit_off (c : Z) (w : string) : bool :=
  match cs w with x :: _ => negb (tolower x =? tolower c) | [] => false end.
Lemma lit_off_dead c w s : lit_off c w = true -> lit (cs w) (c :: s) = None.
Proof.
  unfold lit_off. destruct (cs w) as [|x l]; [discriminate|]. cbn [lit]. intros H.
  apply negb_true_iff in H. now rewrite H.
Qed.
Lemma seq_ok (a b : matcher) s n m : a s = Some n -> b (skipn n s) = Some m -> seq a b s = Some (n + m)%nat.
Proof. unfold seq. intros -> ->. reflexivity. Qed.
Lemma seq_dead a b s : a s = None -> seq a b s = None.
Proof. unfold seq. now intros ->. Qed.

Definition lits_off (c : Z) : bool :=
  forallb (fun w : string * Z => lit_off c (fst w)) op_table && negb (c =? 10) && negb (c =? 13) &&
  lit_off c "." && forallb (fun w : string * kw => lit_off c (fst w)) kw_table &&
  forallb (fun w : string * kw => lit_off c (fst w)) kw_table2 &&
  forallb (fun w : string * string * kw => lit_off c (fst (fst w))) kw_table3.
Lemma lit_dot c w s : lit_off c "." = true -> lit (46 :: w) (c :: s) = None.
Proof.
  unfold lit_off. change (cs ".") with [46]. cbv iota beta. intros H. apply negb_true_iff in H. cbn [lit]. now rewrite H.
Qed.
Lemma lits_off_dead c : lits_off c = true -> Forall (dead c) rules_words.
Proof.
  unfold lits_off. rewrite !andb_true_iff. intros ((((((H1 & H2) & H3) & H4) & H5) & H6) & H7).
  apply negb_true_iff in H2, H3. unfold rules_words. apply Forall_app; split; [|apply Forall_app; split; [|apply Forall_app; split; [|apply Forall_app; split; [|apply Forall_app; split]]]].
  - apply Forall_map, Forall_forall. intros w Hw s. apply lit_off_dead. rewrite forallb_forall in H1. auto.
  - constructor; [|constructor; [|constructor; [|constructor]]]; intros s; cbn [fst].
    + unfold one. now rewrite H2, H3.
    + unfold ifdef_rule. cbn [fst]. apply seq_dead. apply lit_dot. exact H4.
    + unfold ifdef_rule. cbn [fst]. apply seq_dead. apply lit_dot. exact H4.
  - apply Forall_map, Forall_forall. intros w Hw s. apply lit_off_dead. rewrite forallb_forall in H5. auto.
  - constructor; [|constructor; [|constructor]]; intros s; apply lit_dot; exact H4.
  - apply Forall_map, Forall_forall. intros w Hw s. apply lit_off_dead. rewrite forallb_forall in H6. auto.
  - apply Forall_map, Forall_forall. intros w Hw s. cbn [fst]. apply seq_dead, lit_off_dead. rewrite forallb_forall in H7. auto.
Qed.

Definition bad : cstr -> act := fun _ => ATok TkBad.
Ltac nones := repeat (rewrite best_none by reflexivity).

Lemma best_rules c s : lits_off c = true -> best rules (c :: s) O bad = best rules_rest (c :: s) O bad.
Proof. intros H. apply best_dead, lits_off_dead, H. Qed.
Ltac take k := rewrite (best_take _ _ _ _ _ _ k); [|reflexivity|lia].
Ltac keep k := rewrite (best_keep _ _ _ _ _ _ k); [|reflexivity|lia].

Definition hex_act : cstr -> act := fun w => ATok (TkInt (int_of 16 (skipn 1 w))).
Definition bin_act : cstr -> act := fun w => ATok (TkInt (int_of 2 (skipn 1 w))).
Definition dec_act : cstr -> act := fun w => ATok (TkInt (int_of 10 w)).
Lemma best_dollar s : best rules (36 :: s) O bad = (S (span is_hex s), hex_act).
Proof.
  rewrite best_rules by reflexivity. unfold rules_rest, k_rule. nones. take (S (span is_hex s)). nones. keep 1%nat. reflexivity.
Qed.
Lemma best_percent s : best rules (37 :: s) O bad = (S (span is_bin s), bin_act).
Proof.
  rewrite best_rules by reflexivity. unfold rules_rest, k_rule. nones. take (S (span is_bin s)). nones. keep 1%nat. reflexivity.
Qed.
Lemma digit_cases (P : Z -> Prop) : P 48 -> P 49 -> P 50 -> P 51 -> P 52 -> P 53 -> P 54 -> P 55 -> P 56 -> P 57 ->
  forall c, 48 <= c <= 57 -> P c.
Proof.
  intros. assert (HX : c = 48 \/ c = 49 \/ c = 50 \/ c = 51 \/ c = 52 \/ c = 53 \/ c = 54 \/ c = 55 \/ c = 56 \/ c = 57) by lia.
  decompose [or] HX; subst; assumption.
Qed.
Definition is_b (c : Z) : Prop := c = 98 \/ c = 66.
Lemma not_b s : next_not is_b s -> one (fun c => tolower c =? 98) s = None.
Proof.
  destruct s as [|c s]; cbn [next_not one]; auto. intros H. unfold tolower, is_b in *.
  destruct ((65 <=? c) && (c <=? 90)) eqn:E; destruct (_ =? 98) eqn:F; auto; exfalso; apply H; lia.
Qed.
Lemma best_digit c s : 48 <= c <= 57 -> next_not is_b s ->
  best rules (c :: s) O bad = (S (span isdigit s), dec_act).
Proof.
  intros Hc Hs. revert c Hc. apply digit_cases; rewrite best_rules by reflexivity; unfold rules_rest, k_rule; nones;
    take (S (span isdigit s)); nones; try (keep 1%nat; reflexivity).
  rewrite best_none; [nones; keep 1%nat; reflexivity|].
  pose proof (not_b s Hs) as N. unfold seq. cbn [one]. change (48 =? 48) with true. cbv iota. cbn [skipn]. now rewrite N.
Qed.

(** ** One literal *)
Lemma span_app p a b : forallb p a = true -> match b with [] => True | c :: _ => p c = false end ->
  span p (a ++ b) = List.length a.
Proof.
  induction a as [|c a IH]; cbn [app forallb]; intros H1 H2.
  - destruct b; cbn; auto. now rewrite H2.
  - apply andb_true_iff in H1 as [H1 H3]. cbn [span List.length]. rewrite H1. f_equal. auto.
Qed.
Lemma firstn_app_l {A} (a b : list A) : firstn (List.length a) (a ++ b) = a.
Proof. rewrite firstn_app, Nat.sub_diag, firstn_all. cbn. apply app_nil_r. Qed.
Lemma skipn_app_l {A} (a b : list A) : skipn (List.length a) (a ++ b) = b.
Proof. rewrite skipn_app, Nat.sub_diag, skipn_all. reflexivity. Qed.

(** a token whose rule takes exactly [w] *)
Lemma scan_tok f c w rest last dc ln t a :
  best rules ((c :: w) ++ rest) O bad = (S (List.length w), a) -> a (c :: w) = ATok t ->
  scan (S f) ((c :: w) ++ rest) last dc ln =
  LTok t (ln + lines_in (c :: w)) :: scan f rest (Some c) dc (ln + lines_in (c :: w)).
Proof.
  intros H1 H2. cbn [app] in *. cbn [scan]. unfold bad in H1. rewrite H1.
  rewrite Nat.max_l by lia.
  change (S (List.length w)) with (List.length (c :: w)). change (c :: w ++ rest) with ((c :: w) ++ rest).
  rewrite firstn_app_l, skipn_app_l, H2. reflexivity.
Qed.
Lemma writes_hex cs ds : writes 16 cs ds -> forallb is_hex cs = true.
Proof.
  induction 1 as [|c d cs ds (Hc & _) HF IH]; cbn [forallb]; auto. apply hexval_digit in Hc as (H & _).
  unfold is_hex. now rewrite H.
Qed.
Lemma writes_dec cs ds : writes 10 cs ds -> forallb isdigit cs = true.
Proof.
  induction 1 as [|c d cs ds (Hc & Hd) HF IH]; cbn [forallb]; auto. rewrite IH, andb_true_r.
  unfold isdigit, digit_is in *. lia.
Qed.
Lemma writes_bin cs ds : writes 2 cs ds -> forallb is_bin cs = true.
Proof.
  induction 1 as [|c d cs ds (Hc & Hd) HF IH]; cbn [forallb]; auto. rewrite IH, andb_true_r.
  unfold is_bin, digit_is in *. lia.
Qed.
Lemma no_nl p cs : forallb p cs = true -> p 10 = false -> lines_in cs = 0.
Proof.
  intros H N. induction cs as [|c cs IH]; cbn [lines_in forallb] in *; auto. apply andb_true_iff in H as [H1 H2].
  destruct (c =? 10) eqn:E; [apply Z.eqb_eq in E; subst; congruence|]. rewrite IH by auto. reflexivity.
Qed.

Lemma scan_hex f cs ds rest last dc ln : writes 16 cs ds -> next_not (fun c => exists d, digit_is c d) rest ->
  scan (S f) ((36 :: cs) ++ rest) last dc ln = LTok (TkInt (as_int (positional 16 ds))) ln :: scan f rest (Some 36) dc ln.
Proof.
  intros H HR. pose proof (writes_hex _ _ H) as HH.
  rewrite (scan_tok f 36 cs rest last dc ln (TkInt (as_int (positional 16 ds))) hex_act).
  - cbn [lines_in]. change (36 =? 10) with false. cbv iota. rewrite (no_nl is_hex cs HH eq_refl). now rewrite Z.add_0_r.
  - cbn [app]. rewrite best_dollar. rewrite span_app; auto. destruct rest as [|c r]; auto. cbn in HR.
    destruct (is_hex c) eqn:E; auto. exfalso. apply HR. unfold is_hex, isxdigit, isdigit in E. unfold digit_is.
    apply orb_true_iff in E as [E|E]; [apply orb_true_iff in E as [E|E]|]; apply andb_true_iff in E; eexists;
      [left|right;right|right;left]; (split; [lia|reflexivity]).
  - unfold hex_act. cbn [skipn]. now rewrite (int_of_writes _ _ _ H).
Qed.
Lemma scan_bin f cs ds rest last dc ln : writes 2 cs ds -> next_not (fun c => c = 48 \/ c = 49) rest ->
  scan (S f) ((37 :: cs) ++ rest) last dc ln = LTok (TkInt (as_int (positional 2 ds))) ln :: scan f rest (Some 37) dc ln.
Proof.
  intros H HR. pose proof (writes_bin _ _ H) as HH.
  rewrite (scan_tok f 37 cs rest last dc ln (TkInt (as_int (positional 2 ds))) bin_act).
  - cbn [lines_in]. change (37 =? 10) with false. cbv iota. rewrite (no_nl is_bin cs HH eq_refl). now rewrite Z.add_0_r.
  - cbn [app]. rewrite best_percent. rewrite span_app; auto. destruct rest as [|c r]; auto. cbn in HR.
    unfold is_bin. lia.
  - unfold bin_act. cbn [skipn]. now rewrite (int_of_writes _ _ _ H).
Qed.
Lemma scan_dec f c cs d ds rest last dc ln : writes 10 (c :: cs) (d :: ds) ->
  next_not (fun x => 48 <= x <= 57 \/ is_b x) rest ->
  scan (S f) ((c :: cs) ++ rest) last dc ln =
  LTok (TkInt (as_int (positional 10 (d :: ds)))) ln :: scan f rest (Some c) dc ln.
Proof.
  intros H HR. pose proof (writes_dec _ _ H) as HH. pose proof HH as HA. cbn [forallb] in HA.
  apply andb_true_iff in HA as [H1 H2]. unfold isdigit in H1.
  rewrite (scan_tok f c cs rest last dc ln (TkInt (as_int (positional 10 (d :: ds)))) dec_act).
  - rewrite (no_nl isdigit (c :: cs) HH eq_refl). now rewrite Z.add_0_r.
  - cbn [app]. rewrite best_digit; [|lia|].
    + rewrite span_app; auto. destruct rest as [|x r]; auto. cbn in HR. unfold isdigit. lia.
    + destruct cs as [|x cs]; cbn [app].
      * destruct rest as [|x r]; cbn in *; auto.
      * cbn [forallb] in H2. apply andb_true_iff in H2 as [H2 _]. unfold isdigit in H2. cbn. unfold is_b. lia.
  - unfold dec_act. now rewrite (int_of_writes _ _ _ H).
Qed.

(** character literals *)
Definition chr_act : cstr -> act := fun w => ATok (one_byte w).
Lemma eqb_f a b : a <> b -> (a =? b) = false. Proof. lia. Qed.
Lemma best_quote c rest : c <> 10 -> c <> 92 ->
  best rules (39 :: c :: 39 :: rest) O bad = (3%nat, chr_act).
Proof.
  intros H1 H2. rewrite best_rules by reflexivity. unfold rules_rest, k_rule. nones.
  rewrite (best_take _ _ _ _ _ _ 3%nat); [| |lia].
  2:{ unfold seq, notnl, one, is_nl. change (39 =? 39) with true. cbv iota. cbn [skipn]. rewrite (eqb_f c 10 H1).
      cbn [negb]. cbv iota. cbn [skipn]. change (39 =? 39) with true. reflexivity. }
  rewrite best_none by (unfold seq, one; change (39 =? 39) with true; cbv iota; cbn [skipn]; now rewrite (eqb_f c 92 H2)).
  nones.
  rewrite best_none by (unfold seq, one; change (39 =? 39) with true; cbv iota; cbn [skipn]; now rewrite (eqb_f c 92 H2)).
  nones.
  rewrite best_none by (unfold seq, one; change (39 =? 39) with true; cbv iota; cbn [skipn]; now rewrite (eqb_f c 92 H2)).
  nones. keep 1%nat. reflexivity.
Qed.
Lemma one_byte_char q c : c <> 92 -> q <> 92 -> one_byte [q; c; q] = TkInt (c mod 256).
Proof.
  intros H Q. unfold one_byte, sanitize_string. cbn [List.length san]. change BSL with 92.
  rewrite !(eqb_f q 92 Q), (eqb_f c 92 H). reflexivity.
Qed.
Lemma scan_char f c rest last dc ln : c <> 10 -> c <> 92 -> 0 <= c < 256 ->
  scan (S f) ([39; c; 39] ++ rest) last dc ln = LTok (TkInt c) ln :: scan f rest (Some 39) dc ln.
Proof.
  intros H1 H2 H3. rewrite (scan_tok f 39 [c; 39] rest last dc ln (TkInt c) chr_act).
  - cbn [lines_in]. change (39 =? 10) with false. rewrite (eqb_f c 10 H1). cbv iota. now rewrite !Z.add_0_r.
  - cbn [app List.length]. apply best_quote; auto.
  - unfold chr_act. rewrite one_byte_char by lia. now rewrite Z.mod_small.
Qed.

(** escapes in a character literal; the values of the C escapes *)
Definition c_escapes : list (Z * Z) :=
  [(110, 10); (116, 9); (114, 13); (97, 7); (98, 8); (102, 12); (118, 11); (92, 92); (39, 39); (34, 34)].
Lemma scan_escape f c v rest last dc ln : In (c, v) c_escapes ->
  scan (S f) ([39; 92; c; 39] ++ rest) last dc ln = LTok (TkInt v) ln :: scan f rest (Some 39) dc ln.
Proof.
  intros H.
  assert (B : best rules ((39 :: [92; c; 39]) ++ rest) O bad = (4%nat, chr_act) /\ one_byte [39; 92; c; 39] = TkInt v /\
              c <> 10).
  { cbn [app].
    unfold c_escapes in H; cbn [In] in H; decompose [or] H; clear H; try contradiction; match goal with E : (_, _) = _ |- _ => inversion E; subst; clear E end;
      (split; [|split; [reflexivity|discriminate]]); rewrite best_rules by reflexivity; unfold rules_rest, k_rule; nones;
      try (take 3%nat; nones); take 4%nat; nones; keep 1%nat; reflexivity. }
  destruct B as (B1 & B2 & B3).
  rewrite (scan_tok f 39 [92; c; 39] rest last dc ln (TkInt v) chr_act); auto.
  - cbn [lines_in]. rewrite (eqb_f c 10 B3). change (39 =? 10) with false. change (92 =? 10) with false. cbv iota.
    now rewrite !Z.add_0_r.
  - unfold chr_act. now rewrite B2.
Qed.

Definition bin2_act : cstr -> act := fun w => ATok (TkInt (int_of 2 (skipn 2 w))).
Lemma best_0b b s : is_b b -> best rules (48 :: b :: s) O bad = (S (S (span is_bin s)), bin2_act).
Proof.
  intros [->| ->]; rewrite best_rules by reflexivity; unfold rules_rest, k_rule; nones; take 1%nat; nones;
    take (S (S (span is_bin s))); nones; keep 1%nat; reflexivity.
Qed.
Lemma scan_0b f b cs ds rest last dc ln : is_b b -> writes 2 cs ds -> next_not (fun c => c = 48 \/ c = 49) rest ->
  scan (S f) ((48 :: b :: cs) ++ rest) last dc ln =
  LTok (TkInt (as_int (positional 2 ds))) ln :: scan f rest (Some 48) dc ln.
Proof.
  intros Hb H HR. pose proof (writes_bin _ _ H) as HH.
  rewrite (scan_tok f 48 (b :: cs) rest last dc ln (TkInt (as_int (positional 2 ds))) bin2_act).
  - cbn [lines_in]. change (48 =? 10) with false. rewrite (no_nl is_bin cs HH eq_refl).
    destruct Hb as [->| ->]; cbn; now rewrite Z.add_0_r.
  - cbn [app]. rewrite best_0b by auto. rewrite span_app; auto. destruct rest as [|c r]; auto. cbn in HR.
    unfold is_bin. lia.
  - unfold bin2_act. cbn [skipn]. now rewrite (int_of_writes _ _ _ H).
Qed.
Definition hexq_act : cstr -> act := fun w => ATok (TkInt (int_of 16 (skipn 3 w))).
Lemma scan_hexchar f x c cs d ds rest last dc ln : x = 120 \/ x = 88 -> writes 16 (c :: cs) (d :: ds) ->
  scan (S f) ((39 :: [92; x] ++ (c :: cs) ++ [39]) ++ rest) last dc ln =
  LTok (TkInt (as_int (positional 16 (d :: ds)))) ln :: scan f rest (Some 39) dc ln.
Proof.
  intros Hx H. pose proof (writes_hex _ _ H) as HH.
  assert (SP : forall r, span is_hex ((c :: cs) ++ 39 :: r) = List.length (c :: cs)) by (intros; apply span_app; auto).
  assert (HM : seq (plus is_hex) (ch 39) ((c :: cs) ++ 39 :: rest) = Some (S (List.length (c :: cs)))).
  { unfold seq, plus. rewrite SP. cbn [List.length]. cbv iota.
    change (S (List.length cs)) with (List.length (c :: cs)). rewrite skipn_app_l. unfold one.
    change (39 =? 39) with true. cbv iota. now rewrite Nat.add_1_r. }
  assert (C0 : (c =? 39) = false).
  { inversion H as [|? ? ? ? (Hc & _)]; subst. unfold digit_is in Hc. lia. }
  rewrite (scan_tok f 39 ([92; x] ++ (c :: cs) ++ [39]) rest last dc ln (TkInt (as_int (positional 16 (d :: ds)))) hexq_act).
  - assert (L : lines_in ((c :: cs) ++ [39]) = 0).
    { apply (no_nl (fun z => is_hex z || (z =? 39))); [|reflexivity]. rewrite forallb_app.
      apply andb_true_iff; split; [|reflexivity]. rewrite forallb_forall in *. intros z Hz. now rewrite HH. }
    destruct Hx as [->| ->]; cbn [app lines_in] in *; cbn [Z.eqb Pos.eqb]; rewrite L; now rewrite !Z.add_0_r.
  - replace ((39 :: [92; x] ++ (c :: cs) ++ [39]) ++ rest) with (39 :: 92 :: x :: ((c :: cs) ++ 39 :: rest)).
    2:{ cbn [app]. now rewrite <- app_assoc. }
    replace (S (List.length ([92; x] ++ (c :: cs) ++ [39]))) with (4 + List.length (c :: cs))%nat.
    2:{ rewrite !app_length. cbn [List.length]. lia. }
    rewrite best_rules by reflexivity. unfold rules_rest, k_rule.
    assert (N2 : seq (ch 39) (seq (ch 92) (seq notnl (ch 39))) (39 :: 92 :: x :: ((c :: cs) ++ 39 :: rest)) = None).
    { destruct Hx as [->| ->]; cbn; now rewrite C0. }
    assert (N3 : seq (ch 39) (seq (ch 92) (seq (one (fun c0 => tolower c0 =? 120)) (seq (plus is_hex) (ch 39))))
              (39 :: 92 :: x :: ((c :: cs) ++ 39 :: rest)) = Some (4 + List.length (c :: cs))%nat).
    { change (4 + List.length (c :: cs))%nat with (1 + (1 + (1 + S (List.length (c :: cs)))))%nat.
      apply seq_ok; [reflexivity|]. apply seq_ok; [reflexivity|]. apply seq_ok; [|exact HM].
      destruct Hx as [->| ->]; reflexivity. }
    destruct Hx as [->| ->]; nones; rewrite best_none by exact N2; nones;
      (rewrite (best_take _ _ _ _ _ _ _ N3); [|lia]); nones; keep 1%nat; reflexivity.
  - unfold hexq_act. cbn [skipn app]. change (c :: cs ++ [39]) with ((c :: cs) ++ [39]).
    now rewrite (int_of_quote _ _ _ H).
Qed.

(** a whole text *)
Lemma tokens_scan s : tokens s = scan (S (List.length s)) s None 0 0.
Proof. reflexivity. Qed.
