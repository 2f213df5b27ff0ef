(** What stands beside the source lines in the list file. *)
From Coq Require Import Lia.
From Verif Require Import Base BaseProofs State Machine File FileProofs List ListRel ListProofs ListFile ListLines.
Open Scope list_scope.
Open Scope Z_scope.

(** the rows with output, each with the number of the source line in it; a row without a source line goes with the row directly above it,
    if that has output, and else with no line ([0]) *)
Fixpoint beside (n : Z) (ps : list piece) : list (Z * cstr) :=
  match ps with
  | [] => []
  | PRow [] _ :: ps => beside 0 ps
  | PRow out src :: ps => let n := match src with Some (_, v, _) => v | None => n end in (n, out) :: beside n ps
  | _ :: ps => beside 0 ps
  end.

(** the line the next row goes with *)
Fixpoint under (n : Z) (ps : list piece) : Z :=
  match ps with
  | [] => n
  | PRow [] _ :: ps => under 0 ps
  | PRow _ src :: ps => under (match src with Some (_, v, _) => v | None => n end) ps
  | _ :: ps => under 0 ps
  end.
Lemma beside_app a b : forall n, beside n (a ++ b) = beside n a ++ beside (under n a) b.
Proof. induction a as [|p a IH]; intros n; [reflexivity|]. destruct p as [| |o [[[i v] t]|]]; cbn [app beside under]; rewrite ?IH; try reflexivity; destruct o; cbn [app]; rewrite ?IH; reflexivity. Qed.
Lemma under_app a b : forall n, under n (a ++ b) = under (under n a) b.
Proof. induction a as [|p a IH]; intros n; [reflexivity|]. destruct p as [| |o [[[i v] t]|]]; cbn [app under]; rewrite ?IH; try reflexivity; destruct o; rewrite ?IH; reflexivity. Qed.
Lemma beside_empty ps : Forall (fun t => t = []) (columns ps) -> forall n, beside n ps = [].
Proof.
  induction ps as [|p ps IH]; intros F n; [reflexivity|]. destruct p as [| |o s]; cbn [columns beside] in *; try (apply IH; exact F). inversion F; subst. apply IH. assumption.
Qed.

Section Files.
Variable rd : cstr -> option cstr.
Definition own (r : lrec) : Z * cstr := (l_line r, body_text (l_body r)).
Definition reaches (f : cstr) (r : lrec) : Prop := bears r = true -> 1 <= l_line r <= Z.of_nat (length (text_lines rd f)).
(** a record with output is not the first one with output of a line that has one without *)
Fixpoint clumped (k : list lrec) : Prop :=
  match k with
  | [] => True
  | r :: k => match k with [] => True | r' :: _ => l_line r' = l_line r -> bears r' = true -> bears r = true end /\ clumped k
  end.

Lemma record_beside f m r e es i l n : at_entry rd es f = shade m (text_lines rd f) -> l = at_entry rd es f -> reaches f r -> m <= l_line r <= m + 1 -> 0 <= m ->
  (bears r = true -> l_line r = m -> n = m) ->
  match skipn (seek l (l_line r)) l with
  | [] => bears r = false
  | g :: l' => beside n (fst (show (body_text (l_body r)) i g) :: fst (show_rest i e l')) = (if bears r then [own r] else []) /\
      (bears r = true -> e = l_line r -> under n (fst (show (body_text (l_body r)) i g) :: fst (show_rest i e l')) = l_line r)
  end.
Proof.
  intros A -> Re H M St. rewrite A. clear A. pose proof (text_numbered rd f) as N. unfold reaches in Re. set (L := text_lines rd f) in *.
  destruct (seek_split m (l_line r) L 0 N) as (L1 & L2 & EL & Es & H1 & H2). rewrite Es, EL, shade_app.
  assert (Ls : length L1 = length (shade m L1)) by (unfold shade; rewrite map_length; reflexivity).
  replace (skipn (length L1) (shade m L1 ++ shade m L2)) with (shade m L2).
  2:{ rewrite Ls, skipn_app, skipn_all, Nat.sub_diag. reflexivity. }
  destruct L2 as [|x L2]; cbn [shade map].
  - destruct (bears r) eqn:B; [|reflexivity]. exfalso. destruct (Re eq_refl) as [R1 R2]. rewrite app_nil_r in EL.
    assert (X : forall L b v, numbered b L -> b < v <= b + Z.of_nat (length L) -> exists x, In x L /\ fst x = v).
    { clear. induction L as [|x L IH]; intros b v; cbn [numbered length]; [lia|]. intros [E N] V. destruct (Z.eq_dec v (b + 1)) as [->|Y]; [exists x; split; [left; reflexivity|exact E]|].
      destruct (IH (b + 1) v N) as (y & Y1 & Y2); [lia|]. exists y. split; [right; exact Y1|exact Y2]. }
    destruct (X L 0 (l_line r) N) as (x & X1 & X2); [lia|]. rewrite EL in X1. specialize (H1 x X1). lia.
  - fold (shade m L2). pose proof (show_rest_src i e (shade m L2)) as [_ C].
    assert (Q : bears r = true -> e = l_line r -> fst (show_rest i e (shade m L2)) = []).
    { intros B ->. destruct (Re B) as [R1 R2]. rewrite EL in N. apply numbered_app in N as [_ [Nx N2]]. destruct L2 as [|y L2]; [reflexivity|]. destruct N2 as [Ny _].
      cbn [shade map show_rest f_no]. replace (fst y <=? l_line r) with false by lia. reflexivity. }
    destruct (show_rest i e (shade m L2)) as [q l'']. cbn [fst snd] in C, Q |- *.
    unfold show. cbn [f_shown f_no f_text]. pose proof (text_filled r) as Tf. destruct (bears r) eqn:B.
    + destruct (Re eq_refl) as [R1 R2]. unfold own. destruct (body_text (l_body r)) as [|c0 t0]; [discriminate Tf|].
      destruct (fst x <=? m) eqn:Em; cbn [Z.eqb fst beside under]; rewrite (beside_empty q C).
      * rewrite (St eq_refl ltac:(lia)). split; [repeat f_equal; lia|]. intros _ E. rewrite (Q eq_refl E). cbn [under]. lia.
      * split; [repeat f_equal; lia|]. intros _ E. rewrite (Q eq_refl E). cbn [under]. lia.
    + split; [|discriminate]. destruct (body_text (l_body r)); [|discriminate Tf]. destruct (fst x <=? m); cbn [Z.eqb fst beside]; apply (beside_empty q C).
Qed.

Lemma records_beside f rest : elsewhere f rest -> forall k cur es ps m n,
  Forall (of_file f) k -> Forall (reaches f) k -> clumped k -> match k with [] => True | r :: k => m <= l_line r <= m + 1 /\ rising (l_line r) k end -> 0 <= m ->
  match k with [] => True | r :: _ => bears r = true -> l_line r = m -> n = m /\ stricmp cur f = 0 end ->
  at_entry rd es f = shade m (text_lines rd f) -> records rd (k ++ rest) cur 1 es = Some ps ->
  exists ps1 ps2 cur' es', ps = ps1 ++ ps2 /\ records rd rest cur' 1 es' = Some ps2 /\
    beside n ps1 = map own (filter bears k) /\ incl (map fst es') (f :: map fst es).
Proof.
  intros El. induction k as [|r k IH]; intros cur es ps m n Ff Rc Cl Ri M Sn A E.
  - exists [], ps, cur, es. split; [reflexivity|]. split; [exact E|]. split; [reflexivity|intros x X; right; exact X].
  - inversion Ff as [|? ? (F1 & (F2 & F3 & _) & F4) Fk]; subst. inversion Rc as [|? ? Rr Rk]; subst. destruct Cl as [Cr Ck]. destruct Ri as [Ra Ri]. cbn [app records] in E. rewrite F2, F3 in E. cbn [Z.eqb Pos.eqb negb] in E. set (f := l_file r) in *.
    set (head := if stricmp cur f =? 0 then [] else [PHead f]) in *. set (n' := under n head).
    assert (Hb : beside n head = []) by (unfold head; destruct (_ =? _); reflexivity).
    assert (Sn' : bears r = true -> l_line r = m -> n' = m).
    { intros B L. destruct (Sn B L) as [-> S0]. unfold n', head. rewrite S0. reflexivity. }
    set (e := end_line r (k ++ rest)) in *.
    assert (Ee : l_line r <= e /\ match k with [] => e = l_line r | r' :: _ => l_line r' <= Z.max m e + 1 /\ Z.max m e <= l_line r' /\ (l_line r' = Z.max m e -> l_line r' = l_line r /\ e = l_line r) end).
    { unfold e, end_line. destruct k as [|r' k]; cbn [app].
      - destruct rest as [|r' rest]; [split; [lia|reflexivity]|]. cbn [elsewhere] in El. fold f. replace (stricmp f (l_file r') =? 0) with false by (symmetry; apply Z.eqb_neq; exact El). cbn [andb]. split; [lia|reflexivity].
      - inversion Fk as [|? ? (G1 & _) _]; subst. fold f. rewrite G1, stricmp_refl. cbn [Z.eqb andb]. destruct Ri as [Ri _]. destruct (l_line r <? l_line r') eqn:Lt; lia. }
    destruct Ee as [Ea Ek].
    assert (next : forall es' q, incl (map fst es') (f :: map fst es) -> at_entry rd es' f = shade (Z.max m e) (text_lines rd f) -> records rd (k ++ rest) f 1 es' = Some q ->
      forall p0, beside n' p0 = (if bears r then [own r] else []) -> (bears r = true -> e = l_line r -> under n' p0 = l_line r) ->
      exists ps1 ps2 cur' es2, head ++ p0 ++ q = ps1 ++ ps2 /\ records rd rest cur' 1 es2 = Some ps2 /\
        beside n ps1 = map own (filter bears (r :: k)) /\ incl (map fst es2) (f :: map fst es)).
    { intros es' q In A' Eq p0 Eb Eu.
      destruct (IH f es' q (Z.max m e) (under n' p0) Fk Rk Ck) as (ps1 & ps2 & cur' & es2 & X1 & X2 & X3 & X4); auto; [destruct k as [|r' k]; [exact I|]; split; [lia|apply Ri]|lia| |].
      { destruct k as [|r' k]; [exact I|]. destruct Ek as (_ & _ & Ek). intros B L. destruct (Ek L) as [L1 L2]. split; [|apply stricmp_refl]. rewrite (Eu (Cr L1 B) L2). lia. }
      exists (head ++ p0 ++ ps1), ps2, cur', es2. split; [rewrite X1, !app_assoc; reflexivity|]. split; [exact X2|]. split.
      - rewrite beside_app, Hb. fold n'. rewrite beside_app, Eb, X3. cbn [filter]. destruct (bears r); reflexivity.
      - intros x X. destruct (X4 x X) as [<-|Y]; [left; reflexivity|exact (In x Y)]. }
    assert (quiet : e = 0 -> bears r = false). { intros E0. destruct (bears r) eqn:B; [|reflexivity]. destruct (Rr B). lia. }
    destruct (e =? 0) eqn:E0.
    { apply Z.eqb_eq in E0. destruct (records rd (k ++ rest) f 1 es) as [q|] eqn:Eq; [|discriminate]. cbn [option_map] in E. injection E as <-.
      apply (next es q) with (p0 := []); [intros x X; right; exact X|rewrite Z.max_l by lia; exact A|exact Eq|rewrite (quiet E0); reflexivity|rewrite (quiet E0); discriminate]. }
    apply Z.eqb_neq in E0. fold (at_entry rd es f) in E.
    pose proof (record_step rd f m (l_line r) e (body_text (l_body r)) es (find_entry (with_entry rd es f) f) _ A eq_refl M ltac:(lia) ltac:(lia)) as St.
    pose proof (record_beside f m r e es (find_entry (with_entry rd es f) f) _ n' A eq_refl Rr ltac:(lia) M Sn') as Sb.
    destruct (skipn (seek (at_entry rd es f) (l_line r)) (at_entry rd es f)) as [|g l'] eqn:Sk.
    { destruct (records rd (k ++ rest) f 1 (with_entry rd es f)) as [q|] eqn:Eq; [|discriminate]. cbn [option_map] in E. injection E as <-. destruct St as [B1 B2].
      apply (next (with_entry rd es f) q) with (p0 := []); [apply with_names| |exact Eq|rewrite Sb; reflexivity|rewrite Sb; discriminate]. unfold at_entry. rewrite with_entry_twice. rewrite B2. reflexivity. }
    destruct (show _ _ g) as [p g']. cbn [fst snd] in St, Sb. destruct (fits _ p); [|discriminate]. destruct (show_rest _ e l') as [q0 l'']. cbn [fst snd] in St, Sb. destruct St as [B1 B2].
    rewrite B2 in E. fold (put rd es f (shade (Z.max m e) (text_lines rd f))) in E.
    destruct (records rd (k ++ rest) f 1 _) as [q|] eqn:Eq; [|discriminate]. cbn [option_map] in E. injection E as <-.
    apply (next _ q) with (p0 := p :: q0) in Eq; [exact Eq|apply put_names|apply at_put|apply Sb|apply Sb].
Qed.

Lemma clumped_app a b : clumped (a ++ b) -> clumped a /\ clumped b.
Proof.
  induction a as [|r a IH]; [intros H; split; [exact I|exact H]|]. cbn [app clumped]. intros [H1 H2]. destruct (IH H2) as [A B]. split; [|exact B]. split; [|exact A].
  destruct a; [exact I|exact H1].
Qed.
Lemma records_files_beside : forall names rs cur es ps n, wholes rd names rs -> distinct names -> Forall (fun r => reaches (l_file r) r) rs -> clumped rs ->
  Forall (fun n => Forall (fun f => stricmp n f <> 0) names) (map fst es) ->
  records rd rs cur 1 es = Some ps -> beside n ps = map own (filter bears rs).
Proof.
  induction names as [|f names IH]; intros rs cur es ps n W D Rc Cl N E; cbn [wholes] in W.
  - subst rs. injection E as <-. reflexivity.
  - destruct W as (k & rest & -> & (r & k' & -> & K1 & K2 & K3 & K4) & W). destruct D as [D1 D2]. apply Forall_app in Rc as [Rk Rr]. destruct (clumped_app _ _ Cl) as [Ck Cr].
    assert (El : elsewhere f rest).
    { destruct names as [|f' names]; cbn [wholes] in W; [subst rest; exact I|]. destruct W as (k2 & rest2 & -> & (r2 & k2' & -> & J1 & _) & _).
      cbn [app elsewhere]. inversion J1 as [|? ? (J & _) _]; subst. inversion D1; subst. assumption. }
    assert (A : at_entry rd es f = shade 0 (text_lines rd f)).
    { apply at_new. revert N. apply Forall_impl. intros x X. inversion X; subst. assumption. }
    assert (Rf : Forall (reaches f) (r :: k')).
    { rewrite Forall_forall in *. intros x X. destruct (K1 x X) as [<- _]. exact (Rk x X). }
    assert (Ri : 0 <= l_line r <= 0 + 1 /\ rising (l_line r) k') by (rewrite K2; split; [lia|exact K3]).
    assert (Q : bears r = true -> l_line r = 0 -> n = 0 /\ stricmp cur f = 0).
    { intros B L. inversion Rf as [|? ? Rf1 _]; subst. destruct (Rf1 B). lia. }
    destruct (records_beside f rest El (r :: k') cur es ps 0 n K1 Rf Ck Ri ltac:(lia) Q A E) as (ps1 & ps2 & cur' & es' & -> & E2 & S1 & Nm).
    rewrite beside_app, S1, filter_app, map_app. f_equal.
    apply (IH rest cur' es' ps2 _ W D2 Rr Cr); [|exact E2]. rewrite Forall_forall in *. intros x X. destruct (Nm x X) as [<-|Y]; [apply Forall_forall; exact D1|].
    specialize (N x Y). inversion N; subst. assumption.
Qed.
(** every row stands beside or below the source line of its record *)
Theorem list_file_beside names rs ps n : wholes rd names rs -> distinct names -> Forall (fun r => reaches (l_file r) r) rs -> clumped rs -> generate_list_file rd rs = Some ps ->
  beside n ps = map own (filter bears rs).
Proof.
  intros W D Rc Cl. unfold generate_list_file. destruct rs as [|r rs]; [discriminate|].
  assert (L0 : l_line r = 0).
  { destruct names as [|f names]; [discriminate W|]. destruct W as (k & rest & E & (r' & k' & -> & _ & K & _) & _). injection E as -> _. exact K. }
  rewrite L0. change (before rd (Z.to_nat (0 - 1)) 1 r []) with (Some (@nil piece, @nil fentry)). cbv iota beta.
  destruct (records rd (r :: rs) (l_file r) 1 []) as [q|] eqn:E; [|discriminate]. cbn [option_map]. intros X. injection X as <-. cbn [app beside].
  apply (records_files_beside names _ _ [] _ _ W D Rc Cl (Forall_nil _) E).
Qed.
End Files.
Lemma numbered_le b L x : numbered b L -> In x L -> fst x <= b + Z.of_nat (length L).
Proof. revert b. induction L as [|y L IH]; intros b; cbn [numbered length]; [intros _ []|]. intros [E N] [<-|X]; [lia|]. specialize (IH _ N X). lia. Qed.
Lemma placed_reaches rd r : placed rd r -> reaches rd (l_file r) r.
Proof.
  intros P B. destruct (P B) as [P1 (f & F1 & F2)]. split; [exact P1|]. rewrite load_shade in F1. unfold shade in F1. apply in_map_iff in F1 as (x & <- & X). cbn [f_no] in F2.
  pose proof (numbered_le _ _ _ (text_numbered rd (l_file r)) X). lia.
Qed.
