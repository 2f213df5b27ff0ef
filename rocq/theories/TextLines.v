(** The numbers of the lines of a parsed text. *)
From Coq Require Import String Lia.
From Verif Require Import Base BaseProofs Str CNum Opcodes State Build Lexer Parser LexProofs File FileProofs List ListLines Frag ListAsm.
Open Scope string_scope.
Open Scope list_scope.
Open Scope Z_scope.

(** ** The parser reads from the left *)
Definition suf (r l : toks) : Prop := exists a, l = a ++ r.
Lemma suf_refl l : suf l l. Proof. exists []. reflexivity. Qed.
Lemma suf_cons x r l : suf r l -> suf r (x :: l). Proof. intros (a & ->). exists (x :: a). reflexivity. Qed.
Lemma suf_trans a b c : suf a b -> suf b c -> suf a c.
Proof. intros (x & ->) (y & ->). exists (y ++ x). rewrite app_assoc. reflexivity. Qed.
Lemma suf_tail x r l : suf (x :: r) l -> suf r l.
Proof. intros H. apply (suf_trans _ (x :: r)); [apply suf_cons, suf_refl|exact H]. Qed.

Ltac cut := repeat match goal with
  | H : Some _ = Some _ |- _ => injection H; clear H; intros; subst
  | H : None = Some _ |- _ => discriminate H
  | H : match ?x with _ => _ end = Some _ |- _ => let E := fresh "E" in destruct x eqn:E
  | H : (let '(_, _) := ?x in _) = Some _ |- _ => let E := fresh "E" in destruct x eqn:E
  | x : (_ * _)%type |- _ => destruct x
  end.
Ltac sufs := repeat first [apply suf_refl | assumption | apply suf_cons | match goal with H : suf (_ :: _) ?l |- suf _ ?l => apply suf_tail in H end
  | match goal with H : suf ?b ?c |- suf ?a ?c => apply (suf_trans a b c); [|exact H] end].

Lemma expr_suf f : (forall lev l e r, p_expr f lev l = Some (e, r) -> suf r l) /\ (forall lev e0 l e r, p_more f lev e0 l = Some (e, r) -> suf r l) /\
  (forall l e r, p_prim f l = Some (e, r) -> suf r l).
Proof.
  induction f as [|f (I1 & I2 & I3)]; [repeat split; intros; discriminate|]. split; [|split].
  - intros lev l e r H. cbn [p_expr] in H. destruct (p_prim f l) as [[e1 r1]|] eqn:E; [|discriminate]. apply I3 in E. apply I2 in H. exact (suf_trans _ _ _ H E).
  - intros lev e0 l e r H. cbn [p_more] in H. destruct l as [|[t n] l]; [cut; sufs|]. destruct (binop t) as [[o p]|]; [|cut; sufs]. destruct (lev <=? p); [|cut; sufs].
    destruct (p_expr f (p + 1) l) as [[e2 r2]|] eqn:E; [|discriminate]. apply I1 in E. apply I2 in H. apply suf_cons. exact (suf_trans _ _ _ H E).
  - intros l e r H. cbn [p_prim] in H. destruct l as [|[t n] l]; [discriminate|]. apply suf_cons. cut; repeat match goal with E : p_expr _ _ _ = Some _ |- _ => apply I1 in E end; sufs.
Qed.
Lemma sub_suf l e r : p_sub l = Some (e, r) -> suf r l.
Proof. apply expr_suf. Qed.
Lemma item_suf l i r : p_item l = Some (i, r) -> suf r l.
Proof. unfold p_item. intros H. cut; repeat match goal with E : p_sub _ = Some _ |- _ => apply sub_suf in E end; sufs. Qed.
Lemma items_suf f : forall l i r, p_items f l = Some (i, r) -> suf r l.
Proof.
  induction f as [|f IH]; intros l i r H; [discriminate|]. cbn [p_items] in H. destruct (p_item l) as [[i0 r0]|] eqn:E; [|discriminate]. apply item_suf in E.
  cut; repeat match goal with E : p_items _ _ = Some _ |- _ => apply IH in E end; sufs.
Qed.
Lemma list_suf l i r : p_list l = Some (i, r) -> suf r l.
Proof. apply items_suf. Qed.
Lemma ch_suf c l r : p_ch c l = Some r -> suf r l.
Proof. unfold p_ch. intros H. cut; sufs. Qed.
Lemma eol_suf l n r : p_eol l = Some (n, r) -> l = LTok (TkKw WEol) n :: r.
Proof. unfold p_eol. intros H. cut; reflexivity. Qed.
Lemma asg_suf l r : p_asg l = Some r -> suf r l.
Proof. unfold p_asg. intros H. cut; sufs. Qed.
Lemma name_suf l s r : p_name l = Some (s, r) -> suf r l.
Proof. unfold p_name. intros H. cut; sufs. Qed.
Lemma kw_suf k l u r : p_kw k l = Some (u, r) -> suf r l.
Proof. unfold p_kw. intros H. cut; sufs. Qed.
Ltac known := repeat match goal with
  | E : p_sub _ = Some _ |- _ => apply sub_suf in E
  | E : p_list _ = Some _ |- _ => apply list_suf in E
  | E : p_ch _ _ = Some _ |- _ => apply ch_suf in E
  | E : p_asg _ = Some _ |- _ => apply asg_suf in E
  | E : p_name _ = Some _ |- _ => apply name_suf in E
  | E : p_kw _ _ = Some _ |- _ => apply kw_suf in E
  end.
Lemma abs_suf l o r : p_abs l = Some (o, r) -> suf r l.
Proof. unfold p_abs, p_indexed. intros H. cut; known; sufs. Qed.
Lemma operand_suf l o r : p_operand l = Some (o, r) -> suf r l.
Proof. unfold p_operand. intros H. cut; repeat match goal with E : p_abs _ = Some _ |- _ => apply abs_suf in E end; known; sufs. Qed.
Lemma vars_suf f : forall l v r, p_vars f l = Some (v, r) -> suf r l.
Proof.
  induction f as [|f IH]; intros l v r H; [discriminate|]. cbn [p_vars] in H. cut; repeat match goal with E : p_vars _ _ = Some _ |- _ => apply IH in E end; known; sufs.
Qed.
Ltac chain := repeat match goal with
  | |- suf ?a ?a => apply suf_refl
  | H : suf ?r ?x |- suf ?r ?l => apply (suf_trans r x l H); clear H
  | H : suf (_ :: ?r) ?x |- suf ?r ?l => apply (suf_trans r x l (suf_tail _ _ _ H)); clear H
  | H : suf (_ :: _ :: ?r) ?x |- suf ?r ?l => apply (suf_trans r x l (suf_tail _ _ _ (suf_tail _ _ _ H))); clear H
  | |- suf ?a (_ :: _) => apply suf_cons
  end.
Lemma bindp_some (A B : Type) (m : pres A) (k : A -> toks -> pres B) x : bindp m k = Some x -> exists a r, m = Some (a, r) /\ k a r = Some x.
Proof. destruct m as [[a r]|]; [|discriminate]. intros H. exists a, r. auto. Qed.
Lemma stmt_suf f : (forall l st r, p_stmt f l = Some (st, r) -> suf r l) /\ (forall l b r, p_body f l = Some (b, r) -> suf r l).
Proof.
  induction f as [|f [I1 I2]]; [split; intros; discriminate|]. split.
  - intros l st r H. cbn [p_stmt] in H. destruct l as [|[t n] l]; [discriminate|].
    repeat first [
      match goal with H : bindp _ _ = Some _ |- _ => apply bindp_some in H as (? & ? & ? & H) end |
      match goal with
      | H : Some _ = Some _ |- _ => injection H; clear H; intros; subst
      | H : None = Some _ |- _ => discriminate H
      | H : match ?x with _ => _ end = Some _ |- _ => let E := fresh "E" in destruct x eqn:E; try discriminate H
      | H : (if ?x then _ else _) = Some _ |- _ => let E := fresh "E" in destruct x eqn:E; try discriminate H
      | x : (_ * _)%type |- _ => destruct x
      end];
    repeat match goal with E : p_body _ _ = Some _ |- _ => apply I2 in E | E : p_operand _ = Some _ |- _ => apply operand_suf in E | E : p_vars _ _ = Some _ |- _ => apply vars_suf in E end; known; chain.
  - intros l b r H. cbn [p_body] in H. destruct (p_stmt f l) as [[st r1]|] eqn:E1; [|discriminate]. apply I1 in E1. destruct (p_eol r1) as [[n r2]|] eqn:E2; [|discriminate].
    apply eol_suf in E2. subst r1. apply suf_tail in E1. destruct (ends_body r2); [cut; sufs|]. destruct (p_body f r2) as [[b' r3]|] eqn:E3; [|discriminate]. apply I2 in E3. cut. sufs.
Qed.

(** ** Lines of a file *)
Definition eolt (n : Z) : ltok := LTok (TkKw WEol) n.
Lemma stmt_eol_suf l st n r : stmt_eol l = Some (st, n, r) -> exists a, l = a ++ eolt n :: r.
Proof.
  unfold stmt_eol. destruct (p_stmt _ l) as [[st' r1]|] eqn:E; [|discriminate]. apply stmt_suf in E as (a & ->). destruct (p_eol r1) as [[n' r2]|] eqn:E2; [|discriminate].
  apply eol_suf in E2. subst r1. intros [= <- <- <-]. exists a. reflexivity.
Qed.
Definition fine (x : sline) : Prop := exists l, x = SrcLine l /\ t_stmt l <> SBad.
Lemma top_suf l x r : p_top l = (x, r) -> fine x -> exists a tl, x = SrcLine tl /\ l = a ++ eolt (t_line tl) :: r.
Proof.
  assert (P : forall m x r, (match stmt_eol m with Some (st, n, r) => (SrcLine (mkLine n None st None), r) | None => (let '(n, r) := skip_line m in (SrcLine (mkLine n None SBad None), r)) end) = (x, r) ->
    fine x -> exists a tl, x = SrcLine tl /\ m = a ++ eolt (t_line tl) :: r).
  { intros m y q H Y. destruct (stmt_eol m) as [[[st n] r1]|] eqn:E.
    - apply stmt_eol_suf in E as (a & ->). injection H as <- <-. exists a. eexists. split; reflexivity.
    - destruct (skip_line m). injection H as <- <-. destruct Y as (tl & [= <-] & Y). cbn [t_stmt] in Y. congruence. }
  intros H X. unfold p_top in H.
  assert (Q : forall s t n m, l = LTok t n :: m ->
    (match p_asg m with
     | Some _ => (match stmt_eol l with Some (st, n, r) => (SrcLine (mkLine n None st None), r) | None => (let '(n, r) := skip_line l in (SrcLine (mkLine n None SBad None), r)) end)
     | None => match stmt_eol m, args_eol m with
        | Some (st, n, r2), a => (SrcLine (mkLine n (Some s) st (option_map (fun x => fst (fst x)) a)), r2)
        | None, Some (a, n, r2) => (SrcLine (mkLine n (Some s) SBad (Some a)), r2)
        | None, None => let '(n, r2) := skip_line m in (SrcLine (mkLine n (Some s) SBad None), r2)
        end
     end) = (x, r) -> exists a tl, x = SrcLine tl /\ l = a ++ eolt (t_line tl) :: r).
  { intros s t n m El H'. destruct (p_asg m); [exact (P l x r H' X)|]. destruct (stmt_eol m) as [[[st n'] r1]|] eqn:E.
    - apply stmt_eol_suf in E as (a & ->). injection H' as <- <-. exists (LTok t n :: a). eexists. split; [reflexivity|exact El].
    - destruct X as (tl & -> & X). destruct (args_eol m) as [[[a n'] r2]|]; [|destruct (skip_line m)]; injection H' as E1 E2; rewrite <- E1 in X; cbn [t_stmt] in X; congruence. }
  destruct l as [|[t n] m]; [exact (P [] x r H X)|]. destruct t as [v|i|s first|s|s lab|raw|k|c|]; try (apply P; [exact H|exact X]).
  - exact (Q _ _ _ _ eq_refl H).
  - destruct lab; [exact (Q _ _ _ _ eq_refl H)|apply P; [exact H|exact X]].
  - destruct k; try (apply P; [exact H|exact X]); injection H as <- <-; destruct X as (tl & X & _); discriminate X.
Qed.
(** the tokens are those of the lines, each up to its EOL *)
Inductive cuts : list tline -> toks -> Prop :=
| cuts_nil : cuts [] []
| cuts_cons tl ls a r : cuts ls r -> cuts (tl :: ls) (a ++ eolt (t_line tl) :: r).
Lemma file_cuts f : forall l ls, (List.length l < f)%nat -> p_file f l = map SrcLine ls -> Forall (fun tl => t_stmt tl <> SBad) ls -> cuts ls l.
Proof.
  induction f as [|f IH]; intros l ls L H G; [lia|]. cbn [p_file] in H. destruct l as [|t l]; [destruct ls; [constructor|discriminate]|].
  destruct (p_top (t :: l)) as [x r] eqn:E. destruct ls as [|tl ls]; [discriminate|]. cbn [map] in H. injection H as -> H. inversion G as [|? ? G1 G2]; subst.
  destruct (top_suf _ _ _ E) as (a & tl' & [= <-] & El); [exists tl; auto|]. rewrite El. constructor. apply IH; auto. apply (f_equal (@List.length ltok)) in El. rewrite app_length in El. cbn [List.length] in *. lia.
Qed.

(** ** The scanner *)
Definition off10 (s : cstr) : Prop := Forall (fun c => c <> 10) s.
Definition nonl (m : matcher) : Prop := forall s n, m s = Some n -> off10 (firstn n s).
Lemma off10_app a b : off10 (a ++ b) <-> off10 a /\ off10 b. Proof. apply Forall_app. Qed.
Lemma firstn_plus (A : Type) n m (s : list A) : firstn (n + m) s = firstn n s ++ firstn m (skipn n s).
Proof. revert s. induction n as [|n IH]; intros [|c s]; cbn; rewrite ?firstn_nil; try reflexivity. rewrite IH. reflexivity. Qed.
Lemma tolower10 a : tolower a = 10 -> a = 10.
Proof. unfold tolower. destruct (_ && _) eqn:E; [lia|auto]. Qed.
Lemma nonl_lit w : off10 w -> nonl (lit w).
Proof.
  intros W s n. revert s n. induction W as [|a w A W IH]; intros [|c s] n H; cbn [lit] in H; try discriminate; try (injection H as <-; constructor).
  destruct (tolower a =? tolower c) eqn:E; [|discriminate]. destruct (lit w s) as [k|] eqn:E2; [|discriminate]. injection H as <-. cbn [firstn]. constructor; [|apply (IH _ _ E2)].
  intros ->. apply Z.eqb_eq in E. change (tolower 10) with 10 in E. apply A, tolower10, E.
Qed.
Lemma nonl_one p : p 10 = false -> nonl (one p).
Proof. intros P [|c s] n H; cbn in H; [discriminate|]. destruct (p c) eqn:E; [|discriminate]. injection H as <-. cbn. constructor; [|constructor]. intros ->. congruence. Qed.
Lemma off10_span p s : p 10 = false -> off10 (firstn (span p s) s).
Proof. intros P. induction s as [|c s IH]; cbn [span]; [constructor|]. destruct (p c) eqn:E; cbn [firstn]; constructor; [intros ->; congruence|exact IH]. Qed.
Lemma nonl_star p : p 10 = false -> nonl (star p).
Proof. intros P s n [= <-]. apply off10_span. exact P. Qed.
Lemma nonl_plus p : p 10 = false -> nonl (plus p).
Proof. intros P s n H. unfold plus in H. pose proof (off10_span p s P) as O. destruct (span p s); [discriminate|]. injection H as <-. exact O. Qed.
Lemma nonl_seq a b : nonl a -> nonl b -> nonl (seq a b).
Proof.
  intros A B s n H. unfold seq in H. destruct (a s) as [i|] eqn:E1; [|discriminate]. destruct (b (skipn i s)) as [j|] eqn:E2; [|discriminate]. injection H as <-.
  rewrite firstn_plus. apply off10_app. split; [exact (A _ _ E1)|exact (B _ _ E2)].
Qed.
Lemma nonl_opt a : nonl a -> nonl (opt a).
Proof. intros A s n H. unfold opt in H. destruct (a s) as [i|] eqn:E; injection H as <-; [exact (A _ _ E)|constructor]. Qed.
Lemma nonl_alt a b : nonl a -> nonl b -> nonl (alt a b).
Proof.
  intros A B s n H. unfold alt in H. destruct (a s) as [i|] eqn:E1.
  - destruct (b s) as [j|] eqn:E2; injection H as <-; [|exact (A _ _ E1)]. destruct (Nat.max_spec i j) as [[_ ->]|[_ ->]]; [exact (B _ _ E2)|exact (A _ _ E1)].
  - exact (B _ _ H).
Qed.
Ltac nonls := repeat first [apply nonl_seq | apply nonl_opt | apply nonl_alt | apply nonl_star; reflexivity | apply nonl_plus; reflexivity | apply nonl_one; reflexivity
  | apply nonl_lit; repeat constructor; discriminate].
Lemma nonl_es : nonl es. Proof. unfold es. nonls. Qed.
Lemma nonl_symb : nonl symb. Proof. unfold symb. nonls. Qed.
Lemma nonl_quoted f : nonl (quoted f).
Proof.
  induction f as [|f IH]; intros s n H; [discriminate|]. cbn [quoted] in H. destruct s as [|c s]; [discriminate|]. destruct (c =? 34) eqn:E1; [injection H as <-; apply Z.eqb_eq in E1; subst; repeat constructor; discriminate|].
  destruct (c =? 10) eqn:E2; [discriminate|]. destruct (c =? 92) eqn:E3.
  - destruct (es (c :: s)) as [k|] eqn:E4; [|discriminate]. destruct (quoted f (skipn k (c :: s))) as [j|] eqn:E5; [|discriminate]. injection H as <-. rewrite firstn_plus. apply off10_app.
    split; [exact (nonl_es _ _ E4)|exact (IH _ _ E5)].
  - destruct (quoted f s) as [j|] eqn:E5; [|discriminate]. injection H as <-. cbn [firstn]. constructor; [intros ->; discriminate|exact (IH _ _ E5)].
Qed.
Lemma nonl_str1 : nonl strvalue1.
Proof. intros s n H. unfold strvalue1 in H. revert H. apply nonl_seq; [nonls|apply nonl_quoted]. Qed.
Lemma nonl_strs f : nonl (strvalues f).
Proof.
  induction f as [|f IH]; intros s n H; [discriminate|]. cbn [strvalues] in H. destruct (strvalue1 s) as [k|] eqn:E1; [|discriminate]. destruct (strvalues f (skipn k s)) as [j|] eqn:E2; injection H as <-.
  - rewrite firstn_plus. apply off10_app. split; [exact (nonl_str1 _ _ E1)|exact (IH _ _ E2)].
  - exact (nonl_str1 _ _ E1).
Qed.
Lemma nonl_strvalue : nonl strvalue. Proof. intros s n H. exact (nonl_strs _ _ _ H). Qed.

Definition calm (r : rule) : Prop := nonl (fst r) /\ forall w, snd r w <> ATok (TkKw WEol) /\ snd r w <> AComment.
Definition eol_rule : rule := (one (fun c => (c =? 10) || (c =? 13)), fun _ => ATok (TkKw WEol)).
Definition comment_rule : rule := (lit (cs "/*"), fun _ => AComment).
Definition punct_rule : rule := (one (fun c => existsb (fun x => x =? c) [45; 60; 62; 61; 43; 42; 47; 35; 44; 40; 41; 59; 10]), fun s => ATok (TkCh (hd 0 s))).
Lemma calm_k w : forallb (fun c => negb (c =? 10)) (cs (fst w)) = true -> snd w <> WEol -> calm (k_rule w).
Proof.
  intros H N. split; [|intros v; cbn; split; [intros [= X]; exact (N X)|discriminate]]. apply nonl_lit. apply Forall_forall. intros c C. apply (proj1 (forallb_forall _ _) H) in C. intros ->. discriminate.
Qed.
Lemma calm_ks t : forallb (fun w : string * kw => forallb (fun c => negb (c =? 10)) (cs (fst w)) && match snd w with WEol => false | _ => true end) t = true -> Forall calm (map k_rule t).
Proof.
  intros H. rewrite Forall_map. apply Forall_forall. intros w W. apply (proj1 (forallb_forall _ _) H) in W. apply andb_true_iff in W as [W1 W2]. apply calm_k; [exact W1|].
  intros X. rewrite X in W2. discriminate.
Qed.
Definition one_byte_calm w : one_byte w <> TkKw WEol.
Proof. unfold one_byte. destruct (sanitize_string w) as [[|a [|b l]] e| |]; discriminate. Qed.
Ltac calms := repeat (apply Forall_cons; [split; [cbn [fst]; unfold ifdef_rule, k_rule; cbn [fst]; try apply nonl_strvalue; repeat first [apply nonl_seq | apply nonl_symb | apply nonl_opt | apply nonl_star; reflexivity
    | apply nonl_plus; reflexivity | apply nonl_one; reflexivity | apply nonl_lit; repeat constructor; discriminate]
  |intros w; cbn [snd]; split; try discriminate; intros [= X]; exact (one_byte_calm w X)]|]); apply Forall_nil.
Lemma rules_shape : exists A B C D, rules = A ++ eol_rule :: B ++ comment_rule :: C ++ punct_rule :: D /\ Forall calm A /\ Forall calm B /\ Forall calm C /\ Forall calm D.
Proof.
  exists (map (fun w : string * Z => (lit (cs (fst w)), fun _ => ATok (TkOp (snd w)))) op_table).
  exists ([ifdef_rule ".IFDEF" false; ifdef_rule ".IFNDEF" true] ++ map k_rule kw_table ++ [(lit (cs ".WHILE"), fun _ => AWhile); (lit (cs ".DO"), fun _ => ADo)] ++
    map k_rule kw_table2 ++ map (fun w : string * string * kw => (seq (lit (cs (fst (fst w)))) (seq (star is_ws) (lit (cs (snd (fst w))))), fun _ => ATok (TkKw (snd w)))) kw_table3 ++
    firstn 21 rules_rest).
  exists (firstn 3 (skipn 22 rules_rest)), (skipn 26 rules_rest).
  split; [|split; [|split; [|split]]].
  - unfold rules, rules_words. rewrite <- !app_assoc. cbn [app]. reflexivity.
  - rewrite Forall_map. assert (X : forallb (fun w : string * Z => forallb (fun c => negb (c =? 10)) (cs (fst w))) op_table = true) by (vm_compute; reflexivity).
    apply Forall_forall. intros w W. apply (proj1 (forallb_forall _ _) X) in W. split; [|intros v; cbn; split; discriminate]. apply nonl_lit. apply Forall_forall. intros c C.
    apply (proj1 (forallb_forall _ _) W) in C. intros ->. discriminate.
  - apply Forall_app; split; [calms|]. apply Forall_app; split; [apply calm_ks; vm_compute; reflexivity|]. apply Forall_app; split; [calms|].
    apply Forall_app; split; [apply calm_ks; vm_compute; reflexivity|]. apply Forall_app; split; [unfold kw_table3; cbn [map fst snd]; calms|].
    unfold rules_rest; cbn [firstn]. calms.
  - unfold rules_rest; cbn [firstn skipn]. calms.
  - unfold rules_rest; cbn [firstn skipn]. calms.
Qed.
Lemma best_in rs s : forall n a k f, best rs s n a = (k, f) -> (k = n /\ f = a) \/ exists r, In r rs /\ fst r s = Some k /\ snd r = f.
Proof.
  induction rs as [|[m g] rs IH]; intros n a k f H; cbn [best] in H; [injection H as <- <-; auto|].
  assert (K : forall n' a', best rs s n' a' = (k, f) -> (k = n' /\ f = a') \/ exists r, In r ((m, g) :: rs) /\ fst r s = Some k /\ snd r = f).
  { intros n' a' H'. destruct (IH _ _ _ _ H') as [X|(r & X1 & X2)]; [auto|]. right. exists r. split; [right; exact X1|exact X2]. }
  destruct (m s) as [j|] eqn:E; [destruct (Nat.ltb n j)|]; auto.
  destruct (K _ _ H) as [[-> ->]|X]; [|auto]. right. exists (m, g). cbn. auto.
Qed.
Lemma best_app a b s n f : best (a ++ b) s n f = let '(k, g) := best a s n f in best b s k g.
Proof. revert n f. induction a as [|[m h] a IH]; intros n f; cbn [app best]; [reflexivity|]. destruct (m s) as [j|]; [destruct (Nat.ltb n j)|]; apply IH. Qed.
Lemma best_calm rs s n f : Forall calm rs -> best rs (10 :: s) n f = (n, f).
Proof.
  intros H. revert n f. induction H as [|[m h] rs [C _] H IH]; intros n f; cbn [best]; [reflexivity|]. destruct (m (10 :: s)) as [j|] eqn:E; [|apply IH].
  cbn [fst] in C. apply C in E. destruct j as [|j]; [apply IH|]. cbn [firstn] in E. inversion E; congruence.
Qed.
Lemma best_newline s : best rules (10 :: s) O (fun _ => ATok TkBad) = (1%nat, snd eol_rule).
Proof.
  destruct rules_shape as (A & B & C & D & -> & HA & HB & HC & HD). rewrite best_app, best_calm by exact HA. change (eol_rule :: ?x) with ([eol_rule] ++ x). rewrite best_app.
  change (best [eol_rule] (10 :: s) 0 (fun _ => ATok TkBad)) with (1%nat, snd eol_rule). cbv beta iota. rewrite best_app, best_calm by exact HB. change (comment_rule :: ?x) with ([comment_rule] ++ x). rewrite best_app.
  change (best [comment_rule] (10 :: s) 1 (snd eol_rule)) with (1%nat, snd eol_rule). cbv beta iota. rewrite best_app, best_calm by exact HC.
  change (punct_rule :: ?x) with ([punct_rule] ++ x). rewrite best_app. change (best [punct_rule] (10 :: s) 1 (snd eol_rule)) with (1%nat, snd eol_rule). cbv beta iota. apply best_calm. exact HD.
Qed.
Lemma one_len p s n : one p s = Some n -> n = 1%nat.
Proof. destruct s as [|c s]; cbn [one]; [discriminate|]. destruct (p c); [|discriminate]. intros [= <-]. reflexivity. Qed.
Lemma tolower_is a c : tolower a = c -> c < 97 -> a = c.
Proof. unfold tolower. destruct (_ && _) eqn:E; lia. Qed.
Lemma lit_comment s n : lit (cs "/*") s = Some n -> n = 2%nat /\ exists s', s = 47 :: 42 :: s'.
Proof.
  change (cs "/*") with [47; 42]. destruct s as [|c [|d s]]; cbn [lit]; change (tolower 47) with 47; change (tolower 42) with 42; [discriminate|destruct (47 =? tolower c); discriminate|].
  destruct (47 =? tolower c) eqn:E1; [|discriminate]. destruct (42 =? tolower d) eqn:E2; [|discriminate]. intros [= <-]. apply Z.eqb_eq in E1, E2. symmetry in E1, E2.
  apply tolower_is in E1; [|lia]. apply tolower_is in E2; [|lia]. subst. split; [reflexivity|]. exists s. reflexivity.
Qed.
(** the word taken from a text that does not start with a line end *)
Lemma best_other c s n a : c <> 10 -> c <> 13 -> best rules (c :: s) O (fun _ => ATok TkBad) = (n, a) ->
  off10 (firstn (Nat.max n 1) (c :: s)) /\ (forall w, a w <> ATok (TkKw WEol)) /\ ((exists w, a w = AComment) -> n = 2%nat /\ exists s', c :: s = 47 :: 42 :: s').
Proof.
  intros N1 N2 H. assert (O1 : off10 [c]) by (repeat constructor; exact N1).
  destruct (best_in _ _ _ _ _ _ H) as [[-> ->]|([m f] & I & E & <-)]; [split; [exact O1|]; split; [discriminate|intros (w & W); discriminate]|]. cbn [fst snd] in *.
  destruct rules_shape as (A & B & C & D & Er & HA & HB & HC & HD). rewrite Er in I.
  assert (K : calm (m, f) \/ (m, f) = eol_rule \/ (m, f) = comment_rule \/ (m, f) = punct_rule).
  { rewrite Forall_forall in *. apply in_app_or in I as [I|[I|I]]; [auto|auto|]. apply in_app_or in I as [I|[I|I]]; [auto|auto|]. apply in_app_or in I as [I|[I|I]]; auto. }
  destruct K as [[K1 K2]|[K|[K|K]]].
  - cbn [fst snd] in *. split; [|split; [intros w; apply (K2 w)|intros (w & W); destruct (proj2 (K2 w) W)]]. apply K1 in E. destruct n as [|n]; [exact O1|]. rewrite Nat.max_l by lia. exact E.
  - injection K as -> ->. unfold one in E. destruct ((c =? 10) || (c =? 13)) eqn:X; [|discriminate]. apply orb_true_iff in X as [X|X]; apply Z.eqb_eq in X; congruence.
  - injection K as Em Ef. subst f. rewrite Em in E. change (lit (cs "/*") (c :: s) = Some n) in E. destruct (lit_comment _ _ E) as (-> & s' & Es). rewrite Es. split; [repeat constructor; discriminate|].
    split; [discriminate|]. intros _. split; [reflexivity|]. eexists. reflexivity.
  - pose proof (f_equal fst K) as Em. pose proof (f_equal snd K) as Ef. change (m = fst punct_rule) in Em. change (f = snd punct_rule) in Ef. rewrite Em in E. pose proof (one_len (fun c => existsb (fun x => x =? c) [45; 60; 62; 61; 43; 42; 47; 35; 44; 40; 41; 59; 10]) (c :: s) n E) as ->. rewrite Ef. split; [exact O1|]. split; [discriminate|intros (w & W); discriminate].
Qed.

(** ** Comments *)
(** every /* is closed *)
Definition closed (s : cstr) : Prop := forall a b, s = a ++ 47 :: 42 :: b -> exists c d, b = c ++ 42 :: 47 :: d.
Lemma closed_app a b : closed (a ++ b) -> closed b.
Proof. intros H x y ->. apply (H (a ++ x)). rewrite app_assoc. reflexivity. Qed.
Lemma lines_app a b : lines_in (a ++ b) = lines_in a + lines_in b.
Proof. induction a as [|c a IH]; cbn [app lines_in]; [lia|]. rewrite IH. lia. Qed.
Lemma lines_off w : off10 w -> lines_in w = 0.
Proof. induction 1 as [|c w C W IH]; [reflexivity|]. cbn [lines_in]. rewrite IH. destruct (c =? 10) eqn:E; [apply Z.eqb_eq in E; congruence|reflexivity]. Qed.
Lemma lines_pos s : 0 <= lines_in s.
Proof. induction s as [|c s IH]; cbn [lines_in]; [lia|]. destruct (c =? 10); lia. Qed.
Lemma skip_spec : forall d c, exists x r, skip_comment (c ++ 42 :: 47 :: d) = (r, lines_in x) /\ c ++ 42 :: 47 :: d = x ++ 42 :: 47 :: r.
Proof.
  intros d. induction c as [|e c IH]; [exists [], d; split; reflexivity|]. destruct IH as (x & r & E1 & E2).
  cbn [app skip_comment]. destruct ((e =? 42) && match c ++ 42 :: 47 :: d with [] => false | f :: _ => f =? 47 end) eqn:E.
  - apply andb_true_iff in E as [E3 E4]. apply Z.eqb_eq in E3. subst e. rewrite E2 in *. destruct x as [|f x]; cbn [app] in *.
    + discriminate E4.
    + apply Z.eqb_eq in E4. subst f. exists [], (x ++ 42 :: 47 :: r). split; reflexivity.
  - rewrite E1. exists (e :: x), r. split; [reflexivity|]. rewrite E2. reflexivity.
Qed.
(** ** What the scanner yields *)
Fixpoint climbs (v : Z) (l : list ltok) : Prop :=
  match l with [] => True | LTok t n :: l => v <= n /\ (t = TkKw WEol -> v < n) /\ climbs n l end.
Definition ends (s : cstr) : Prop := exists a, s = a ++ [10].
Lemma ends_app w r : off10 w -> ends (w ++ r) -> ends r.
Proof.
  induction 1 as [|c w C W IH]; [auto|]. intros (a & E). destruct a as [|d a]; cbn [app] in E; injection E as -> E; [congruence|]. apply IH. exists a. exact E.
Qed.
Lemma ends_tail c s : ends (c :: s) -> s = [] /\ c = 10 \/ ends s.
Proof. intros (a & E). destruct a as [|d a]; cbn [app] in E; injection E as -> E; [auto|]. right. exists a. exact E. Qed.
Lemma ends_suffix a b : ends (a ++ b) -> b = [] \/ ends b.
Proof. induction a as [|c a IH]; cbn [app]; [auto|]. intros H. destruct (ends_tail _ _ H) as [[E _]|E]; [apply app_eq_nil in E as [_ ->]; auto|auto]. Qed.
Definition no13 (s : cstr) : Prop := Forall (fun c => c <> 13) s.
Lemma scan_climbs f : forall s last dc ln, (List.length s < f)%nat -> no13 s -> closed s -> ends s ->
  climbs ln (scan f s last dc ln) /\ exists a, scan f s last dc ln = a ++ [eolt (ln + lines_in s)].
Proof.
  induction f as [|f IH]; intros s last dc ln L N C E; [lia|]. destruct s as [|c0 s]; [destruct E as ([|? ?] & E); discriminate|].
  inversion N as [|? ? N1 N2]; subst. cbn [scan]. destruct (Z.eq_dec c0 10) as [->|Nl].
  - rewrite best_newline. change (Nat.max 1 1) with 1%nat. cbn [firstn skipn snd eol_rule]. change (lines_in [10]) with 1. cbn [lines_in]. change (10 =? 10) with true. cbv iota.
    destruct (ends_tail _ _ E) as [[-> _]|E'].
    + destruct f; cbn [scan climbs lines_in]; (split; [repeat split; lia|exists []; cbn [app]; unfold eolt; f_equal; f_equal; lia]).
    + destruct (IH s (Some 10) dc (ln + 1)) as [K1 (a & K2)]; [cbn [List.length] in L; lia|exact N2|exact (closed_app [10] _ C)|exact E'|].
      split; [cbn [climbs]; repeat split; auto; lia|]. rewrite K2. exists (LTok (TkKw WEol) (ln + 1) :: a). cbn [app]. rewrite Z.add_assoc. reflexivity.
  - destruct (best rules (c0 :: s) 0 (fun _ => ATok TkBad)) as [n a] eqn:B. destruct (best_other _ _ _ _ Nl N1 B) as (O & A1 & A2).
    set (w := firstn (Nat.max n 1) (c0 :: s)) in *. set (r := skipn (Nat.max n 1) (c0 :: s)). assert (Ew : c0 :: s = w ++ r) by (symmetry; apply firstn_skipn).
    rewrite (lines_off w O), Z.add_0_r. rewrite Ew, lines_app, (lines_off w O), Z.add_0_l.
    assert (Hr : (List.length r < f)%nat). { unfold r. rewrite skipn_length. cbn [List.length] in *. lia. }
    assert (Nr : no13 r). { rewrite Ew in N. apply Forall_app in N. apply N. }
    assert (Cr : closed r). { rewrite Ew in C. apply (closed_app _ _ C). }
    assert (Er : ends r). { rewrite Ew in E. exact (ends_app _ _ O E). }
    assert (K : forall t last dc, t <> TkKw WEol -> climbs ln (LTok t ln :: scan f r last dc ln) /\ exists a, LTok t ln :: scan f r last dc ln = a ++ [eolt (ln + lines_in r)]).
    { intros t l d T. destruct (IH r l d ln Hr Nr Cr Er) as [K1 (x & K2)]. split; [cbn [climbs]; repeat split; auto; [lia|congruence]|]. exists (LTok t ln :: x). rewrite K2. reflexivity. }
    specialize (A1 w). destruct (a w) as [t| | | | | | | |] eqn:Ea.
    + apply K. congruence.
    + destruct (K (TkCh 61) (Some 61) dc ltac:(discriminate)) as [K1 (x & K2)]. split; [cbn [climbs] in *; repeat split; try tauto; try lia; discriminate|]. rewrite K2. exists (LTok (TkKw WPcAssign) ln :: x). reflexivity.
    + destruct (0 <? dc); apply K; discriminate.
    + apply K. discriminate.
    + apply K. discriminate.
    + assert (X : exists t, t <> TkKw WEol /\ (if match last with Some c => c =? 10 | None => false end then LTok (TkPm w true) ln else match w with [c] => LTok (TkCh c) ln | _ => LTok (TkPm w false) ln end) = LTok t ln).
      { destruct (match last with Some c => c =? 10 | None => false end); [eexists; split; [|reflexivity]; discriminate|]. destruct w as [|x [|y w']]; eexists; (split; [|reflexivity]); discriminate. }
      destruct X as (t & T & X). rewrite X. apply K. exact T.
    + apply K. discriminate.
    + destruct (A2 (ex_intro _ w Ea)) as (-> & s' & Es). assert (Er' : r = s') by (unfold r; rewrite Es; reflexivity).
      destruct (C [] s' Es) as (c1 & d1 & Ec). destruct (skip_spec d1 c1) as (x & r' & S1 & S2). rewrite Er', Ec, S1.
      assert (Rr : r = (x ++ [42; 47]) ++ r') by (rewrite Er', Ec, S2, <- app_assoc; reflexivity).
      assert (Lx : lines_in (c1 ++ 42 :: 47 :: d1) = lines_in x + lines_in r') by (rewrite S2, lines_app; reflexivity).
      rewrite Lx, Z.add_assoc. assert (En : ends r').
      { destruct (ends_suffix (x ++ [42; 47]) r') as [X|X]; [rewrite <- Rr; exact Er| |exact X]. exfalso. subst r'. rewrite app_nil_r in Rr. rewrite Rr in Er. destruct Er as (q & Q).
        change [42; 47] with ([42] ++ [47]) in Q. rewrite app_assoc in Q. apply app_inj_tail in Q as [_ Q]. discriminate. }
      destruct (IH r' (Some 42) dc (ln + lines_in x)) as [K1 K2]; auto.
      * rewrite Rr, !app_length in Hr. lia.
      * rewrite Rr in Nr. apply Forall_app in Nr. apply Nr.
      * rewrite Rr in Cr. exact (closed_app _ _ Cr).
      * split; [|exact K2]. revert K1. generalize (scan f r' (Some 42) dc (ln + lines_in x)) as l. intros [|[t m] l]; cbn [climbs]; [auto|]. pose proof (lines_pos x). intros (Y1 & Y2 & Y3). repeat split; auto; try lia.
    + destruct (IH r last dc ln Hr Nr Cr Er) as [K1 K2]. split; assumption.
Qed.

(** ** The lines the statements stand on *)
Lemma climbs_cut a : forall v n r, climbs v (a ++ eolt n :: r) -> v < n /\ climbs n r.
Proof.
  induction a as [|[t m] a IH]; intros v n r; cbn [app climbs eolt].
  - intros (H1 & H2 & H3). split; [apply H2; reflexivity|exact H3].
  - intros (H1 & H2 & H3). destruct (IH _ _ _ H3) as [K1 K2]. split; [lia|exact K2].
Qed.
Lemma cuts_rise ls l : cuts ls l -> forall v, climbs v l -> rises (v + 1) ls.
Proof.
  induction 1 as [|tl ls a r H IH]; intros v C; [exact I|]. apply climbs_cut in C as [C1 C2]. cbn [rises]. split; [lia|].
  eapply rises_weak; [|apply IH; exact C2]. lia.
Qed.
Lemma cuts_none ls l : cuts ls l -> l = [] -> ls = [].
Proof. intros [|tl ls' a r H] E; [reflexivity|]. apply app_eq_nil in E as [_ E]. discriminate. Qed.
Lemma cuts_last ls l : cuts ls l -> forall a n v, l = a ++ [eolt n] -> last_line v ls = n.
Proof.
  induction 1 as [|tl ls a r H IH]; intros b n v E; [destruct b; discriminate|]. rewrite last_line_cons.
  destruct r as [|y r].
  - rewrite (cuts_none _ _ H eq_refl). apply app_inj_tail in E as [_ E]. injection E as E. exact E.
  - destruct (exists_last (l := y :: r)) as (r' & x & Er); [discriminate|]. rewrite Er in *.
    change (a ++ eolt (t_line tl) :: r' ++ [x]) with (a ++ (eolt (t_line tl) :: r') ++ [x]) in E. rewrite app_assoc in E. apply app_inj_tail in E as [_ ->].
    eapply IH. reflexivity.
Qed.
Lemma rises_all ls : forall v, rises v ls -> Forall (fun l => t_line l <= last_line v ls) ls.
Proof.
  induction ls as [|l ls IH]; intros v; [constructor|]. cbn [rises]. intros [H1 H2]. rewrite last_line_cons. constructor; [apply rises_last; exact H2|apply IH; exact H2].
Qed.
(** a text of lines *)
Definition text (ts : list cstr) : cstr := concat (map nl ts).
Definition text_ok (ts : list cstr) : Prop :=
  Forall (fun l => Forall (fun x => x <> 10 /\ x <> 13) l /\ Z.of_nat (length l) < 2047) ts /\ closed (text ts).
Lemma text_ends ts : ts <> [] -> ends (text ts).
Proof.
  intros H. destruct (exists_last H) as (a & x & ->). unfold text. rewrite map_app, concat_app. cbn [map concat]. rewrite app_nil_r. unfold nl. exists (concat (map nl a) ++ x). rewrite <- app_assoc. reflexivity.
Qed.
Lemma text_count ts : Forall (fun l => Forall (fun x => x <> 10 /\ x <> 13) l /\ Z.of_nat (length l) < 2047) ts -> lines_in (text ts) = Z.of_nat (length ts).
Proof.
  induction 1 as [|l ts [H _] _ IH]; [reflexivity|]. unfold text in *. cbn [map concat]. unfold nl at 1. rewrite !lines_app, IH. rewrite lines_off; [|revert H; apply Forall_impl; tauto].
  change (lines_in [10]) with 1. cbn [length]. lia.
Qed.
Lemma text_no13 ts : Forall (fun l => Forall (fun x => x <> 10 /\ x <> 13) l /\ Z.of_nat (length l) < 2047) ts -> no13 (text ts).
Proof.
  induction 1 as [|l ts [H _] _ IH]; [constructor|]. unfold text in *. cbn [map concat]. unfold nl at 1. apply Forall_app. split; [|exact IH]. apply Forall_app. split; [revert H; apply Forall_impl; tauto|]. constructor; [discriminate|constructor].
Qed.
Lemma number_length ls : forall n, length (FileProofs.number n ls) = length ls.
Proof. induction ls as [|l ls IH]; intros n; [reflexivity|]. cbn [FileProofs.number length]. rewrite IH. reflexivity. Qed.
Lemma text_in_step rd n ts ls : rd n = Some (text ts) -> text_ok ts -> parse_text (text ts) = map SrcLine ls -> Forall (fun tl => t_stmt tl <> SBad) ls -> in_step rd n ls.
Proof.
  intros Er [H C] Ep B. assert (N : Z.of_nat (length (text_lines rd n)) = Z.of_nat (length ts)).
  { unfold text_lines. rewrite Er. unfold text. rewrite read_file_text; [|revert H; apply Forall_impl; intros l [K1 K2]; split; [revert K1; apply Forall_impl; tauto|exact K2]].
    rewrite number_length, map_length. reflexivity. }
  unfold in_step. rewrite N. apply file_cuts in Ep; [|lia|exact B]. destruct ts as [|t ts].
  { change (tokens (text [])) with (@nil ltok) in Ep. rewrite (cuts_none _ _ Ep eq_refl). repeat split; [constructor|]. unfold last_line. cbn. lia. }
  destruct (scan_climbs (S (length (text (t :: ts)))) (text (t :: ts)) None 0 0) as [K1 (a & K2)]; [lia|apply text_no13; exact H|exact C|apply text_ends; discriminate|].
  rewrite text_count, Z.add_0_l in K2 by exact H. pose proof (cuts_rise _ _ Ep 0 K1) as R. change (0 + 1) with 1 in R.
  pose proof (cuts_last _ _ Ep a _ 1 K2) as L1. pose proof (cuts_last _ _ Ep a _ 0 K2) as L0.
  split; [exact R|]. split; [|rewrite L0; apply Z.le_succ_diag_r]. pose proof (rises_all _ _ R) as Q. rewrite L1 in Q. exact Q.
Qed.

From Verif Require Import Layout LineTwo LineFour FragPass.
Lemma src_inj a b : map SrcLine a = map SrcLine b -> a = b.
Proof. revert b. induction a as [|x a IH]; intros [|y b] H; try discriminate; [reflexivity|]. cbn [map] in H. injection H as -> H. rewrite (IH _ H). reflexivity. Qed.
Lemma okl_bad c02 ill F l : okl c02 ill F l -> t_stmt l <> SBad.
Proof. unfold okl, move_of, okline. intros H E. rewrite E in H. destruct (t_label l); destruct H as [H _]; exact H. Qed.
Lemma texts_step rd c02 ill F cfg txt names : forall ls,
  (forall n, g_files cfg n = option_map parse_text (rd n)) -> (forall n, In n names -> rd n = Some (text (txt n)) /\ text_ok (txt n)) ->
  all_lines cfg names ls -> Forall (okl c02 ill F) ls -> forall n l, In n names -> g_files cfg n = Some (map SrcLine l) -> in_step rd n l.
Proof.
  induction names as [|m names IH]; intros ls G R A O n l X E; [destruct X|]. cbn [all_lines] in A. destruct A as (l1 & l2 & G1 & A & ->). apply Forall_app in O as [O1 O2].
  destruct X as [<-|X]; [|apply (IH l2 G (fun k K => R k (or_intror K)) A O2 n l X E)].
  rewrite G1 in E. injection E as E. apply src_inj in E as ->. destruct (R m (or_introl eq_refl)) as [R1 R2]. rewrite G, R1 in G1. injection G1 as G1.
  apply (text_in_step rd m (txt m)); auto. revert O1. apply Forall_impl. intros x. apply okl_bad.
Qed.
Lemma text_numbers rd n ts : rd n = Some (text ts) -> text_ok ts -> text_lines rd n = FileProofs.number 1 (map nl ts).
Proof. intros E [H _]. unfold text_lines. rewrite E. apply read_file_text. revert H. apply Forall_impl. intros l [K1 K2]. split; [revert K1; apply Forall_impl; tauto|exact K2]. Qed.
