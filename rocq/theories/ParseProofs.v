(** The expression parser follows the declared grouping (proofs for C17). *)
From Coq Require Import Lia.
From Verif Require Import Base BaseProofs State Lexer Parser ExprShape.
Open Scope list_scope.
Open Scope Z_scope.

(** more fuel gives the same result *)
Lemma p_mono f :
  (forall lev l x, p_expr f lev l = Some x -> forall f', (f <= f')%nat -> p_expr f' lev l = Some x) /\
  (forall lev e l x, p_more f lev e l = Some x -> forall f', (f <= f')%nat -> p_more f' lev e l = Some x) /\
  (forall l x, p_prim f l = Some x -> forall f', (f <= f')%nat -> p_prim f' l = Some x).
Proof.
  induction f as [|f (IE & IM & IP)]; [repeat split; cbn; discriminate|].
  repeat split; intros *; intros H [|f'] Hf; try lia; cbn [p_expr p_more p_prim] in *.
  - destruct (p_prim f l) as [[e r]|] eqn:E; [|discriminate].
    rewrite (IP _ _ E) by lia. apply (IM _ _ _ _ H). lia.
  - destruct l as [|[t n] r]; auto. destruct (binop t) as [[o p]|]; auto. destruct (lev <=? p); auto.
    destruct (p_expr f (p + 1) r) as [[e2 r2]|] eqn:E; [|discriminate].
    rewrite (IE _ _ _ E) by lia. apply (IM _ _ _ _ H). lia.
  - destruct l as [|[t n] r]; auto. destruct (prefix t) as [o|].
    + destruct (p_expr f 0 r) as [[e2 r2]|] eqn:E; [|discriminate]. rewrite (IE _ _ _ E) by lia. auto.
    + destruct t; auto. destruct (c =? 45).
      * destruct r as [|[t2 n2] r2]; auto. destruct t2; auto. destruct (c0 =? 40); auto.
        destruct (p_expr f 0 r2) as [[e3 r3]|] eqn:E; [|discriminate]. rewrite (IE _ _ _ E) by lia. auto.
      * destruct (c =? 43); auto. destruct (c =? 42); auto. destruct (c =? 40); auto.
        destruct (p_expr f 0 r) as [[e3 r3]|] eqn:E; [|discriminate]. rewrite (IE _ _ _ E) by lia. auto.
Qed.

Lemma binop_spell o p : level o = Some p -> binop (spell o) = Some (o, p).
Proof. destruct o; cbn; intros [=]; subst; reflexivity. Qed.
Lemma prefix_spell o : is_prefix o -> prefix (spell o) = Some o.
Proof. intros [<-|[<-|[<-|[<-|[]]]]]; reflexivity. Qed.
Lemma binop_inv t o p : binop t = Some (o, p) -> level o = Some p /\ t = spell o.
Proof.
  destruct t; cbn; try discriminate.
  - destruct k; intros [=]; subst; split; reflexivity.
  - repeat match goal with |- context [if ?b then _ else _] => destruct b eqn:? end; intros [=]; subst;
      repeat match goal with H : (_ =? _) = true |- _ => apply Z.eqb_eq in H; subst end; split; reflexivity.
Qed.
Lemma follow_binop t : may_follow t -> binop t = None.
Proof.
  intros (H & _). destruct (binop t) as [[o p]|] eqn:E; auto. apply binop_inv in E as [E ->].
  exfalso. eapply H; eauto.
Qed.

(** the head of [rest] does not extend [t] *)
Definition stops (q : option Z) (rest : toks) : Prop :=
  match rest with
  | [] => True
  | LTok t _ :: _ =>
      (forall v, t <> TkInt v) /\ t <> TkCh 40 /\
      match binop t with
      | Some (_, p) => match q with Some q => p <= q | None => False end
      | None => True
      end
  end.
Definition top (t : tree) : Z := match t with TBin o _ _ => match level o with Some p => p | None => 9 end | _ => 9 end.
Fixpoint endb (t : tree) : bool := match t with TPre _ _ => false | TBin _ _ r => endb r | _ => true end.
Lemma endb_ended t : ended t -> endb t = true.
Proof. induction t; cbn; auto; contradiction. Qed.
Definition lim (t : tree) : option Z := if endb t then Some (top t) else None.

Lemma stops_none q rest : stops None rest -> stops q rest.
Proof.
  unfold stops. destruct rest as [|[t n] r]; auto. intros (H1 & H2 & H3); repeat split; auto.
  destruct (binop t) as [[o p]|]; auto. contradiction.
Qed.
Lemma stops_le q q' rest : q <= q' -> stops (Some q) rest -> stops (Some q') rest.
Proof.
  unfold stops. destruct rest as [|[t n] r]; auto. intros H (H1 & H2 & H3); repeat split; auto.
  destruct (binop t) as [[o p]|]; auto. lia.
Qed.
Lemma more_stops f lev e rest q : stops (Some q) rest -> q < lev -> p_more (S f) lev e rest = Some (e, rest).
Proof.
  unfold stops. destruct rest as [|[t n] r]; cbn [p_more]; auto. intros (_ & _ & H) Hl.
  destruct (binop t) as [[o p]|]; auto. destruct (lev <=? p) eqn:E; auto. lia.
Qed.
Lemma more_none f lev e rest : stops None rest -> p_more (S f) lev e rest = Some (e, rest).
Proof.
  unfold stops. destruct rest as [|[t n] r]; cbn [p_more]; auto. intros (_ & _ & H).
  destruct (binop t) as [[o p]|]; auto. contradiction.
Qed.
Lemma binop_level t o p : binop t = Some (o, p) -> 1 <= p <= 5.
Proof. intros H. apply binop_inv in H as [H _]. destruct o; cbn in H; inversion H; lia. Qed.
Lemma level_range o p : level o = Some p -> 1 <= p <= 5.
Proof. destruct o; cbn; intros [=]; lia. Qed.

Lemma text_cons l t r : text l = t :: r -> exists n l', l = LTok t n :: l' /\ text l' = r.
Proof. destruct l as [|[t' n] l']; cbn; [discriminate|]. intros [= <- <-]. eauto. Qed.
Lemma text_nil l : text l = [] -> l = [].
Proof. destruct l; [auto|discriminate]. Qed.
Lemma text_app l a b : text l = a ++ b -> exists x y, l = x ++ y /\ text x = a /\ text y = b.
Proof. unfold text. intros H. apply map_eq_app in H as (x & y & -> & <- & <-). eauto. Qed.

Lemma p_expr_step f lev l e r x : p_prim f l = Some (e, r) -> p_more f lev e r = Some x -> p_expr (S f) lev l = Some x.
Proof. intros H1 H2. cbn [p_expr]. now rewrite H1. Qed.

Lemma top_pos t : 0 <= top t.
Proof. destruct t; cbn; try lia. destruct (level o) as [p|] eqn:E; [apply level_range in E|]; lia. Qed.
Lemma stops_lim t rest : stops None rest -> stops (lim t) rest.
Proof. destruct (lim t); auto using stops_none. Qed.

Definition parses (t : tree) : Prop :=
  forall l rest lev x f f', text l = flat t -> lev <= top t -> stops (lim t) rest ->
  p_more f lev (meant t) rest = Some x -> (f + 2 * List.length l <= f')%nat -> p_expr f' lev (l ++ rest) = Some x.

Ltac one_tok :=
  let H := fresh in let n := fresh "n" in let l' := fresh "l" in
  match goal with E : text ?l = _ :: _ |- _ =>
    apply text_cons in E as (n & l' & -> & E) end.

(** an operand read by p_prim *)
Lemma prim_parses t l rest lev x f f' k :
  (forall g, (k <= g)%nat -> p_prim g l = Some (meant t, rest)) ->
  p_more f lev (meant t) rest = Some x -> (S (max k f) <= f')%nat -> p_expr f' lev l = Some x.
Proof.
  intros H1 H2 Hf. destruct f' as [|g]; [lia|]. eapply p_expr_step; [apply H1; lia|].
  destruct (p_mono f) as (_ & M & _). apply (M _ _ _ _ H2). lia.
Qed.
Lemma one_more f lev e rest x : p_more f lev e rest = Some x -> (1 <= f)%nat.
Proof. destruct f; [discriminate|lia]. Qed.

Ltac shuffle := cbn [app] in *; repeat rewrite <- app_assoc; cbn [app List.length] in *; rewrite ?app_length in *; cbn [List.length] in *.

Lemma grouped_parses t : grouped t -> parses t.
Proof.
  induction t; intros G l rest lev x f f' HT HL HS HM HF; cbn [flat grouped meant] in *;
    pose proof (one_more _ _ _ _ _ HM) as H1.
  - one_tok. apply text_nil in HT. subst. shuffle.
    apply (prim_parses (TInt v) _ rest lev x f f' 1); auto; [|lia].
    intros [|g] Hg; [lia|]. reflexivity.
  - one_tok. one_tok. apply text_nil in HT. subst. shuffle.
    apply (prim_parses (TNeg v) _ rest lev x f f' 1); auto; [|lia].
    intros [|g] Hg; [lia|]. reflexivity.
  - one_tok. apply text_nil in HT. subst. shuffle.
    apply (prim_parses (TName s first) _ rest lev x f f' 1); auto; [|lia].
    intros [|g] Hg; [lia|]. reflexivity.
  - one_tok. apply text_nil in HT. subst. shuffle.
    apply (prim_parses (TPar s) _ rest lev x f f' 1); auto; [|lia].
    intros [|g] Hg; [lia|]. reflexivity.
  - one_tok. apply text_nil in HT. subst. shuffle.
    apply (prim_parses (TPm s) _ rest lev x f f' 1); auto; [|lia].
    intros [|g] Hg; [lia|]. reflexivity.
  - one_tok. apply text_nil in HT. subst. shuffle.
    apply (prim_parses TMinus _ rest lev x f f' 1); auto; [|lia].
    intros [|g] Hg; [lia|]. cbn [app p_prim prefix]. change (45 =? 126) with false. change (45 =? 60) with false.
    change (45 =? 62) with false. change (45 =? 45) with true. cbv iota.
    destruct rest as [|[t n'] r]; auto. cbn in HS. destruct HS as (K1 & K2 & _).
    destruct t; auto; [exfalso; eapply K1; eauto|]. destruct (c =? 40) eqn:E; auto.
    apply Z.eqb_eq in E. subst. now destruct K2.
  - one_tok. apply text_nil in HT. subst. shuffle.
    apply (prim_parses TPlus _ rest lev x f f' 1); auto; [|lia].
    intros [|g] Hg; [lia|]. reflexivity.
  - one_tok. apply text_nil in HT. subst. shuffle.
    apply (prim_parses TPc _ rest lev x f f' 1); auto; [|lia].
    intros [|g] Hg; [lia|]. reflexivity.
  - (* ( t ) *)
    one_tok. apply text_app in HT as (a & b & -> & HT & Hb). one_tok. apply text_nil in Hb. subst. shuffle.
    assert (HC : stops None (LTok (TkCh 41) n0 :: rest)) by (cbn; repeat split; try discriminate; intros; discriminate).
    assert (P : forall g, (2 * List.length a + 2 <= g)%nat ->
                p_expr g 0 (a ++ LTok (TkCh 41) n0 :: rest) = Some (meant t, LTok (TkCh 41) n0 :: rest)).
    { intros g Hg. apply (IHt G a _ 0 _ 1%nat g HT (top_pos t) (stops_lim t _ HC)); [apply more_none; auto|lia]. }
    apply (prim_parses (TParen t) _ rest lev x f f'
              (2 * List.length a + 3)); auto; [|cbn [List.length] in *; rewrite ?app_length in *; cbn [List.length] in *; lia].
    intros [|g] Hg; [lia|]. shuffle. cbn [p_prim prefix]. change (40 =? 126) with false. change (40 =? 60) with false.
    change (40 =? 62) with false. change (40 =? 45) with false. change (40 =? 43) with false.
    change (40 =? 42) with false. change (40 =? 40) with true. cbv iota. rewrite P by lia. reflexivity.
  - (* -( t ) *)
    one_tok. one_tok. apply text_app in HT as (a & b & -> & HT & Hb). one_tok. apply text_nil in Hb. subst. shuffle.
    assert (HC : stops None (LTok (TkCh 41) n1 :: rest)) by (cbn; repeat split; try discriminate; intros; discriminate).
    assert (P : forall g, (2 * List.length a + 2 <= g)%nat ->
                p_expr g 0 (a ++ LTok (TkCh 41) n1 :: rest) = Some (meant t, LTok (TkCh 41) n1 :: rest)).
    { intros g Hg. apply (IHt G a _ 0 _ 1%nat g HT (top_pos t) (stops_lim t _ HC)); [apply more_none; auto|lia]. }
    apply (prim_parses (TNegParen t) _ rest lev x f f'
              (2 * List.length a + 3)); auto; [|cbn [List.length] in *; rewrite ?app_length in *; cbn [List.length] in *; lia].
    intros [|g] Hg; [lia|]. shuffle. cbn [p_prim prefix]. change (45 =? 126) with false. change (45 =? 60) with false.
    change (45 =? 62) with false. change (45 =? 45) with true.
    change (40 =? 40) with true. cbv iota. rewrite P by lia. reflexivity.
  - (* prefix operator *)
    destruct G as (GP & G). one_tok. shuffle. cbn in HS.
    assert (P : forall g, (2 * List.length l0 + 1 <= g)%nat -> p_expr g 0 (l0 ++ rest) = Some (meant t, rest)).
    { intros g Hg. apply (IHt G l0 _ 0 _ 1%nat g HT (top_pos t) (stops_lim t _ HS)); [apply more_none; auto|lia]. }
    apply (prim_parses (TPre o t) _ rest lev x f f' (2 * List.length l0 + 2)); auto; [|lia].
    intros [|g] Hg; [lia|]. cbn [app p_prim]. rewrite (prefix_spell _ GP). rewrite P by lia. reflexivity.
  - (* binary operator *)
    destruct G as (G1 & G2 & GE & p & Hp & A1 & A2).
    apply text_app in HT as (a & b & -> & Ha & Hb). one_tok. shuffle. rename l into b.
    cbn [top] in HL. rewrite Hp in HL. pose proof (level_range _ _ Hp) as Rp.
    assert (T1 : p <= top t1).
    { destruct t1; cbn in *; try lia. destruct A1 as (q & -> & ?). lia. }
    assert (T2 : p + 1 <= top t2).
    { destruct t2; cbn in *; try lia. destruct A2 as (q & -> & ?). lia. }
    assert (S0 : stops (Some p) rest).
    { unfold lim in HS. cbn [endb top] in HS. rewrite Hp in HS. destruct (endb t2); auto using stops_none. }
    assert (P2 : forall g, (2 * List.length b + 1 <= g)%nat -> p_expr g (p + 1) (b ++ rest) = Some (meant t2, rest)).
    { intros g Hg. apply (IHt2 G2 b rest (p + 1) (meant t2, rest) 1%nat g Hb T2); [|apply (more_stops _ _ _ _ p S0); lia|lia].
      unfold lim in *. cbn [endb] in HS. destruct (endb t2); auto. eapply stops_le; [|exact S0]. lia. }
    eapply (IHt1 G1 a _ lev x (S (f + 2 * List.length b + 1))%nat); auto; [lia| | |].
    + unfold lim. rewrite (endb_ended _ GE). cbn [stops]. rewrite (binop_spell _ _ Hp).
      destruct o; cbn in Hp; try discriminate; repeat split; try discriminate; try (intros; discriminate); lia.
    + cbn [p_more]. rewrite (binop_spell _ _ Hp). replace (lev <=? p) with true by lia. rewrite P2 by lia.
      destruct (p_mono f) as (_ & M & _). apply (M _ _ _ _ HM). lia.
    + lia.
Qed.

Lemma grouped_sub t l rest : grouped t -> text l = flat t ->
  match rest with [] => True | LTok k _ :: _ => may_follow k end ->
  p_sub (l ++ rest) = Some (meant t, rest).
Proof.
  intros G HT HR. unfold p_sub.
  assert (HS : stops None rest).
  { destruct rest as [|[k n] r]; cbn; auto. pose proof (follow_binop _ HR) as E. rewrite E.
    destruct HR as (_ & ? & ?); auto. }
  apply (grouped_parses t G l rest 0 _ 1%nat _ HT (top_pos t) (stops_lim t _ HS)); [apply more_none; auto|].
  rewrite app_length. lia.
Qed.

(** every chain of operands and operators has such a grouping *)
Fixpoint grow (t : tree) (o : opr) (a : tree) : tree :=
  match t with
  | TBin o' l r =>
      match level o', level o with
      | Some p', Some p => if p' <? p then TBin o' l (grow r o a) else TBin o t a
      | _, _ => TBin o t a
      end
  | _ => TBin o t a
  end.
Lemma grow_flat t o a : flat (grow t o a) = flat t ++ spell o :: flat a.
Proof.
  induction t; cbn [grow]; try reflexivity.
  destruct (level o0), (level o); try reflexivity. destruct (z <? z0); [|reflexivity].
  cbn [flat]. rewrite IHt2, <- app_assoc. reflexivity.
Qed.
Definition operand (t : tree) : Prop := match t with TBin _ _ _ | TPre _ _ => False | _ => True end.
Lemma operand_ended a : operand a -> ended a.
Proof. destruct a; cbn; auto. contradiction. Qed.
Lemma operand_least a q : operand a -> at_least q a.
Proof. destruct a; cbn; auto; contradiction. Qed.
Lemma grow_ok t o a p : grouped t -> ended t -> level o = Some p -> operand a -> grouped a ->
  grouped (grow t o a) /\ ended (grow t o a) /\ (forall q, q <= p -> at_least q t -> at_least q (grow t o a)).
Proof.
  intros G E Hp Oa Ga. pose proof (operand_ended _ Oa) as Ea.
  induction t.
  1-11: cbn [grow];
    (split; [split; [exact G | split; [exact Ga | split; [exact E |
               exists p; split; [exact Hp | split; [exact I | apply operand_least, Oa]]]]] |
             split; [exact Ea | intros q Hq _; exists p; split; [exact Hp | exact Hq]]]).
  - cbn [grouped ended] in G, E. destruct G as (G1 & G2 & E1 & p0 & H0 & A1 & A2).
    cbn [grow]. rewrite H0, Hp. destruct (p0 <? p) eqn:C.
    + destruct (IHt2 G2 E) as (I1 & I2 & I3). split; [|split].
      * cbn [grouped]. repeat split; auto. exists p0. repeat split; auto. apply I3; auto. lia.
      * exact I2.
      * intros q Hq (q' & K1 & K2). exists q'. auto.
    + split; [|split]; [|exact Ea|].
      * cbn [grouped]. split; [|split; [exact Ga|split]].
        -- repeat split; auto. exists p0. auto.
        -- exact E.
        -- exists p. repeat split; auto using operand_least. exists p0. split; auto. lia.
      * intros q Hq _. exists p. auto.
Qed.
Definition chain_text (a : tree) (ops : list (opr * tree)) : list tok :=
  flat a ++ flat_map (fun x => spell (fst x) :: flat (snd x)) ops.
Lemma chain_grouped ops : forall a, grouped a -> ended a ->
  Forall (fun x => level (fst x) <> None /\ operand (snd x) /\ grouped (snd x)) ops ->
  exists t, grouped t /\ ended t /\ flat t = chain_text a ops.
Proof.
  induction ops as [|[o b] ops IH]; intros a Ga Ea H.
  - exists a. unfold chain_text. cbn. rewrite app_nil_r. auto.
  - inversion H as [|x y (Hl & Ho & Hg) HF]; subst. cbn [fst snd] in *. destruct (level o) as [p|] eqn:Ep; [|congruence].
    destruct (grow_ok a o b p Ga Ea Ep Ho Hg) as (G1 & E1 & _).
    destruct (IH _ G1 E1 HF) as (t & T1 & T2 & T3). exists t. repeat split; auto.
    rewrite T3. unfold chain_text. cbn [flat_map fst snd]. rewrite grow_flat. rewrite <- app_assoc. cbn [app].
    reflexivity.
Qed.
Lemma chain_parses a ops l rest : operand a -> grouped a ->
  Forall (fun x => level (fst x) <> None /\ operand (snd x) /\ grouped (snd x)) ops ->
  text l = chain_text a ops ->
  match rest with [] => True | LTok k _ :: _ => may_follow k end ->
  exists t, grouped t /\ flat t = text l /\ p_sub (l ++ rest) = Some (meant t, rest).
Proof.
  intros Oa Ga H HT HR. destruct (chain_grouped ops a Ga (operand_ended _ Oa) H) as (t & T1 & _ & T3).
  exists t. repeat split; auto; [congruence|]. apply grouped_sub; auto. congruence.
Qed.
(** the grouping of a text is unique as far as its meaning goes *)
Lemma grouped_unique t u : grouped t -> grouped u -> flat t = flat u -> meant t = meant u.
Proof.
  intros G1 G2 E. set (l := map (fun k => LTok k 0) (flat t)).
  assert (HT : text l = flat t). { unfold l, text. rewrite map_map. apply map_id. }
  pose proof (grouped_sub t l [] G1 HT I) as P1. rewrite E in HT. pose proof (grouped_sub u l [] G2 HT I) as P2.
  congruence.
Qed.
