(** The source lines in the list file. *)
From Coq Require Import Lia.
From Verif Require Import Base BaseProofs State Machine File FileProofs List ListRel ListProofs ListFile.
Open Scope list_scope.
Open Scope Z_scope.

(** the lines of source, in the order they are printed *)
Fixpoint sources (ps : list piece) : list (Z * cstr) :=
  match ps with
  | [] => []
  | PRow _ (Some (_, n, t)) :: ps => (n, t) :: sources ps
  | _ :: ps => sources ps
  end.
Lemma sources_app a b : sources (a ++ b) = sources a ++ sources b.
Proof. induction a as [|p a IH]; [reflexivity|]. destruct p as [| |o [[[i n] t]|]]; cbn [app sources]; rewrite IH; reflexivity. Qed.

(** ** Lines numbered one after the other *)
Fixpoint numbered (b : Z) (L : list (Z * cstr)) : Prop :=
  match L with [] => True | x :: L => fst x = b + 1 /\ numbered (b + 1) L end.
(** those up to [m] have been shown *)
Definition shade (m : Z) (L : list (Z * cstr)) : list fline := map (fun x => mkF (fst x) (snd x) (if fst x <=? m then 1 else 0)) L.
Definition between (m e : Z) (L : list (Z * cstr)) : list (Z * cstr) := filter (fun x => (m <? fst x) && (fst x <=? e)) L.

Lemma numbered_gt b L x : numbered b L -> In x L -> b < fst x.
Proof. revert b. induction L as [|y L IH]; intros b; cbn [numbered]; [intros _ []|]. intros [E H] [<-|X]; [lia|]. specialize (IH _ H X). lia. Qed.
Lemma numbered_app b L1 L2 : numbered b (L1 ++ L2) <-> numbered b L1 /\ numbered (b + Z.of_nat (length L1)) L2.
Proof.
  revert b. induction L1 as [|x L1 IH]; intros b; cbn [app numbered length]; [rewrite Z.add_0_r; tauto|]. rewrite IH.
  replace (b + 1 + Z.of_nat (length L1)) with (b + Z.of_nat (S (length L1))) by lia. tauto.
Qed.
Lemma shade_app m A B : shade m (A ++ B) = shade m A ++ shade m B.
Proof. apply map_app. Qed.
Lemma between_app m e A B : between m e (A ++ B) = between m e A ++ between m e B.
Proof. apply filter_app. Qed.
Lemma shade_ext m m' L : (forall x, In x L -> (fst x <=? m) = (fst x <=? m')) -> shade m L = shade m' L.
Proof. intros H. apply map_ext_in. intros x X. rewrite (H x X). reflexivity. Qed.
Lemma between_none m e L : (forall x, In x L -> fst x <= m \/ e < fst x) -> between m e L = [].
Proof.
  induction L as [|x L IH]; intros H; [reflexivity|]. cbn [between filter]. replace ((m <? fst x) && (fst x <=? e)) with false.
  - apply IH. intros y Y. apply H. right. exact Y.
  - destruct (H x (or_introl eq_refl)); lia.
Qed.
Lemma between_join b m m' e L : numbered b L -> m <= m' -> m' <= e -> between m m' L ++ between m' e L = between m e L.
Proof.
  revert b. induction L as [|x L IH]; intros b; [reflexivity|]. intros [E N] H1 H2. specialize (IH _ N H1 H2). unfold between in *. cbn [filter].
  destruct (m <? fst x) eqn:E1, (fst x <=? m') eqn:E2, (fst x <=? e) eqn:E3; cbn [andb]; try lia;
    replace (m' <? fst x) with (negb (fst x <=? m')) by lia; rewrite E2; cbn [negb andb app]; rewrite <- ?IH; try reflexivity; try (f_equal; exact IH).
  (* the first line of those after m' : nothing comes before it *)
  all: assert (X : filter (fun y => (m <? fst y) && (fst y <=? m')) L = []) by (apply between_none; intros y Y; pose proof (numbered_gt _ _ _ N Y); lia); rewrite X in *; reflexivity.
Qed.
Lemma between_all b e L : numbered b L -> b + Z.of_nat (length L) <= e -> between b e L = L.
Proof.
  revert b. assert (G : forall L b m, numbered b L -> m <= b -> b + Z.of_nat (length L) <= e -> between m e L = L); [|intros; apply (G L b); auto; lia].
  clear L. induction L as [|x L IH]; intros b m; [reflexivity|]. intros [E N] H1 H2. unfold between in *. cbn [filter length] in *.
  replace ((m <? fst x) && (fst x <=? e)) with true by lia. f_equal. apply (IH (b + 1)); [exact N|lia|lia].
Qed.

(** ** Showing lines *)
Lemma show_rest_lines i m e : forall L b, numbered b L -> sources (fst (show_rest i e (shade m L))) = between m e L /\ snd (show_rest i e (shade m L)) = shade (Z.max m e) L.
Proof.
  induction L as [|x L IH]; intros b; [split; reflexivity|]. intros [E N]. cbn [shade map show_rest f_no]. fold (shade m L). fold (shade (Z.max m e) L).
  unfold between. cbn [filter]. destruct (fst x <=? e) eqn:E1.
  - destruct (IH _ N) as [H1 H2]. unfold show. cbn [f_shown f_no f_text]. destruct (show_rest i e (shade m L)) as [ps l']. cbn [fst snd] in H1, H2.
    replace (fst x <=? Z.max m e) with true by lia. destruct (fst x <=? m) eqn:E2; cbn [Z.eqb fst snd sources].
    + replace ((m <? fst x) && true) with false by lia. split; [exact H1|]. rewrite H2. reflexivity.
    + replace ((m <? fst x) && true) with true by lia. split; [rewrite H1; destruct x; reflexivity|]. rewrite H2. reflexivity.
  - rewrite andb_false_r. split.
    + symmetry. apply between_none. intros y Y. right. pose proof (numbered_gt _ _ _ N Y). lia.
    + replace (fst x <=? Z.max m e) with (fst x <=? m) by lia. cbn [snd]. f_equal. apply shade_ext. intros y Y. pose proof (numbered_gt _ _ _ N Y). lia.
Qed.
Lemma seek_split m a : forall L b, numbered b L -> exists L1 L2, L = L1 ++ L2 /\ seek (shade m L) a = length L1 /\ (forall x, In x L1 -> fst x < a) /\
  match L2 with [] => True | x :: _ => fst x = Z.max a (b + 1) end.
Proof.
  induction L as [|x L IH]; intros b; [intros _; exists [], []; cbn; repeat split; intros x []|]. intros [E N]. cbn [shade map seek f_no]. fold (shade m L). destruct (fst x <? a) eqn:E1.
  - destruct (IH _ N) as (L1 & L2 & -> & H2 & H3 & H4). exists (x :: L1), L2. split; [reflexivity|]. split; [rewrite H2; reflexivity|]. split; [intros y [<-|Y]; [lia|auto]|].
    destruct L2 as [|y L2]; [exact I|]. lia.
  - exists [], (x :: L). split; [reflexivity|]. split; [reflexivity|]. split; [intros y []|]. lia.
Qed.

Section Files.
Variable rd : cstr -> option cstr.
Definition text_lines (f : cstr) : list (Z * cstr) := match rd f with Some t => read_file_lines t | None => [] end.
Lemma read_numbered t : numbered 0 (read_file_lines t).
Proof.
  assert (G : forall L b, (forall i p, nth_error L i = Some p -> fst p = b + 1 + Z.of_nat i) -> numbered b L).
  { induction L as [|x L IH]; intros b H; cbn [numbered]; [exact I|]. split; [rewrite (H O x eq_refl); lia|]. apply IH. intros i p E. rewrite (H (S i) p E). lia. }
  apply G. intros i p E. rewrite (read_lines_numbers _ _ _ _ _ E). lia.
Qed.
Lemma text_numbered f : numbered 0 (text_lines f).
Proof. unfold text_lines. destruct (rd f); [apply read_numbered|exact I]. Qed.
Lemma load_shade f : load rd f = shade 0 (text_lines f).
Proof.
  unfold load, text_lines. destruct (rd f) as [t|]; [|reflexivity]. apply map_ext_in. intros x X. pose proof (numbered_gt _ _ _ (read_numbered t) X).
  replace (fst x <=? 0) with false by lia. reflexivity.
Qed.
(** the entry for [f], as it is or will be *)
Definition at_entry (es : list fentry) (f : cstr) : list fline := lines_at (with_entry rd es f) (find_entry (with_entry rd es f) f).
Lemma find_upd es f i n l l' : nth_error es i = Some (n, l) -> find_entry (upd i (n, l') es) f = find_entry es f.
Proof.
  revert i. induction es as [|(n0, l0) es IH]; intros [|i] E; try discriminate; cbn [nth_error] in E; cbn [upd find_entry].
  - injection E as -> ->. reflexivity.
  - rewrite (IH i E). reflexivity.
Qed.
Lemma upd_len (A : Type) i (x : A) es : length (upd i x es) = length es.
Proof. revert i. induction es as [|y es IH]; intros [|i]; cbn [upd length]; auto. Qed.
Lemma upd_nth (A : Type) i (x : A) es : (i < length es)%nat -> nth_error (upd i x es) i = Some x.
Proof. revert i. induction es as [|y es IH]; intros [|i] H; cbn [upd length nth_error] in *; try lia; [reflexivity|]. apply IH. lia. Qed.
Lemma upd_other (A : Type) i j (x : A) es : i <> j -> nth_error (upd i x es) j = nth_error es j.
Proof. revert i j. induction es as [|y es IH]; intros [|i] [|j] H; cbn [upd nth_error]; try congruence; auto. Qed.
Lemma with_entry_twice es f : with_entry rd (with_entry rd es f) f = with_entry rd es f.
Proof.
  unfold with_entry at 1. replace (find_entry (with_entry rd es f) f <? length (with_entry rd es f))%nat with true; [reflexivity|]. symmetry. apply Nat.ltb_lt.
  unfold with_entry. destruct (find_entry es f <? length es)%nat eqn:L; [apply Nat.ltb_lt; exact L|]. rewrite find_entry_new by (apply Nat.ltb_ge in L; lia). rewrite app_length. cbn. lia.
Qed.
Lemma entry_there es f : exists n, nth_error (with_entry rd es f) (find_entry (with_entry rd es f) f) = Some (n, at_entry es f) /\ stricmp n f = 0.
Proof.
  assert (L : (find_entry (with_entry rd es f) f < length (with_entry rd es f))%nat).
  { unfold with_entry. destruct (find_entry es f <? length es)%nat eqn:L; [apply Nat.ltb_lt; exact L|]. rewrite find_entry_new by (apply Nat.ltb_ge in L; lia). rewrite app_length. cbn. lia. }
  destruct (find_entry_in _ _ L) as (n & l & E1 & E2). exists n. unfold at_entry, lines_at. rewrite E1. auto.
Qed.
(** setting the lines of the entry of [f] *)
Definition put (es : list fentry) (f : cstr) (l : list fline) : list fentry := set_lines (with_entry rd es f) (find_entry (with_entry rd es f) f) l.
Lemma put_eq es f l : exists n, nth_error (with_entry rd es f) (find_entry (with_entry rd es f) f) = Some (n, at_entry es f) /\
  put es f l = upd (find_entry (with_entry rd es f) f) (n, l) (with_entry rd es f) /\ stricmp n f = 0.
Proof. destruct (entry_there es f) as (n & E & S). exists n. split; [exact E|]. split; [|exact S]. unfold put, set_lines. rewrite E. reflexivity. Qed.
Lemma at_put es f l : at_entry (put es f l) f = l.
Proof.
  destruct (put_eq es f l) as (n & E & Ep & _). assert (L : (find_entry (with_entry rd es f) f < length (with_entry rd es f))%nat) by (apply nth_error_Some; congruence).
  unfold at_entry. assert (W : with_entry rd (put es f l) f = put es f l).
  { rewrite Ep. revert E L. generalize (with_entry rd es f) as es1. intros es1 E L. unfold with_entry. rewrite (find_upd _ _ _ _ _ _ E), upd_len.
    destruct (_ <? _)%nat eqn:X; [reflexivity|]. apply Nat.ltb_ge in X. destruct (proj1 (Nat.lt_nge _ _) L X). }
  rewrite W, Ep, (find_upd _ _ _ _ _ _ E). unfold lines_at. rewrite upd_nth by exact L. reflexivity.
Qed.
Lemma upd_names (n : cstr) (l1 l : list fline) : forall es i, nth_error es i = Some (n, l1) -> incl (map fst (upd i (n, l) es)) (map fst es).
Proof.
  induction es as [|(a, b) es IH]; intros [|i] E; try discriminate; cbn [nth_error] in E; cbn [upd map fst].
  - inversion E; subst. apply incl_refl.
  - intros x [X|X]; [left; exact X|right; exact (IH i E x X)].
Qed.
Lemma put_names es f l : incl (map fst (put es f l)) (f :: map fst es).
Proof.
  destruct (put_eq es f l) as (n & E & -> & _). assert (I : incl (map fst (with_entry rd es f)) (f :: map fst es)).
  { unfold with_entry. destruct (_ <? _)%nat; [intros x X; right; exact X|]. rewrite map_app. intros x X. apply in_app_or in X as [X|[<-|[]]]; [right; exact X|left; reflexivity]. }
  intros x X. apply I. exact (upd_names _ _ _ _ _ E x X).
Qed.
Lemma with_names es f : incl (map fst (with_entry rd es f)) (f :: map fst es).
Proof. unfold with_entry. destruct (_ <? _)%nat; [intros x X; right; exact X|]. rewrite map_app. intros x X. apply in_app_or in X as [X|[<-|[]]]; [right; exact X|left; reflexivity]. Qed.
(** a file nobody asked for yet *)
Lemma at_new es f : Forall (fun n => stricmp n f <> 0) (map fst es) -> at_entry es f = shade 0 (text_lines f).
Proof.
  intros H. assert (N : ~ (find_entry es f < length es)%nat).
  { intros L. destruct (find_entry_in _ _ L) as (n & l & E & S). apply nth_error_In, (in_map fst) in E. rewrite Forall_forall in H. exact (H _ E S). }
  assert (W : with_entry rd es f = es ++ [(f, load rd f)]).
  { unfold with_entry. destruct (_ <? _)%nat eqn:X; [|reflexivity]. apply Nat.ltb_lt in X. destruct (N X). }
  unfold at_entry. rewrite W, find_entry_new by exact N. unfold lines_at. rewrite nth_error_app2 by apply le_n. rewrite Nat.sub_diag. cbn [nth_error]. apply load_shade.
Qed.

(** ** The records of one file *)
Definition of_file (f : cstr) (r : lrec) : Prop := l_file r = f /\ stated 1 r /\ 0 <= l_line r.
Fixpoint rising (v : Z) (k : list lrec) : Prop := match k with [] => True | r :: k => v <= l_line r /\ rising (l_line r) k end.
Definition final_line (v : Z) (k : list lrec) : Z := last (map l_line k) v.
Lemma final_cons v r k : final_line v (r :: k) = final_line (l_line r) k.
Proof.
  unfold final_line. cbn [map]. generalize (l_line r) as w, (map l_line k) as q. intros w q. revert v w. induction q as [|x q IH]; intros v w; [reflexivity|].
  change (last (w :: x :: q) v) with (last (x :: q) v). rewrite !IH. reflexivity.
Qed.
Lemma rising_final v k : rising v k -> v <= final_line v k.
Proof. revert v. induction k as [|r k IH]; intros v; [intros _; unfold final_line; cbn; lia|]. intros [H1 H2]. rewrite final_cons. specialize (IH _ H2). lia. Qed.
Definition elsewhere (f : cstr) (rest : list lrec) : Prop := match rest with r :: _ => stricmp f (l_file r) <> 0 | [] => True end.

(** one record: the lines up to [e] are shown *)
Lemma record_step f m a e out es i l :
  at_entry es f = shade m (text_lines f) -> l = at_entry es f -> 0 <= m -> 0 <= a <= m + 1 -> Z.max a 1 <= e ->
  match skipn (seek l a) l with
  | [] => between m e (text_lines f) = [] /\ shade (Z.max m e) (text_lines f) = l
  | g :: l' => sources (fst (show out i g) :: fst (show_rest i e l')) = between m e (text_lines f) /\
               firstn (seek l a) l ++ snd (show out i g) :: snd (show_rest i e l') = shade (Z.max m e) (text_lines f)
  end.
Proof.
  intros A -> M H E. rewrite A. clear A. pose proof (text_numbered f) as N. set (L := text_lines f) in *.
  destruct (seek_split m a L 0 N) as (L1 & L2 & EL & Es & H1 & H2). rewrite Es, EL, shade_app.
  assert (Ls : length L1 = length (shade m L1)) by (unfold shade; rewrite map_length; reflexivity).
  assert (S1 : shade m L1 = shade (Z.max m e) L1) by (apply shade_ext; intros x X; specialize (H1 x X); lia).
  assert (B1 : between m e L1 = []) by (apply between_none; intros x X; specialize (H1 x X); lia).
  replace (skipn (length L1) (shade m L1 ++ shade m L2)) with (shade m L2).
  2:{ rewrite Ls, skipn_app, skipn_all, Nat.sub_diag. reflexivity. }
  replace (firstn (length L1) (shade m L1 ++ shade m L2)) with (shade m L1).
  2:{ rewrite Ls, firstn_app, firstn_all, Nat.sub_diag. cbn [firstn]. rewrite app_nil_r. reflexivity. }
  destruct L2 as [|x L2]; cbn [shade map].
  - rewrite !app_nil_r. split; [exact B1|]. symmetry. exact S1.
  - fold (shade m L2). rewrite EL in N. apply numbered_app in N as [_ [Nx N2]]. destruct (show_rest_lines i m e L2 _ N2) as [R1 R2].
    rewrite between_app, B1, shade_app, <- S1. cbn [app]. unfold between. cbn [filter]. unfold show. cbn [f_shown f_no f_text shade map]. fold (shade (Z.max m e) L2).
    assert (X : fst x <= e) by lia. replace (fst x <=? e) with true by lia. replace (fst x <=? Z.max m e) with true by lia. destruct (fst x <=? m) eqn:Em; cbn [Z.eqb fst snd sources].
    + replace ((m <? fst x) && true) with false by lia. split; [exact R1|]. rewrite R2. reflexivity.
    + replace ((m <? fst x) && true) with true by lia. split; [rewrite R1; destruct x; reflexivity|]. rewrite R2. reflexivity.
Qed.

Lemma records_block f rest : elsewhere f rest -> forall k cur es ps m,
  Forall (of_file f) k -> match k with [] => True | r :: k => l_line r <= m + 1 /\ rising (l_line r) k end -> 0 <= m ->
  at_entry es f = shade m (text_lines f) -> records rd (k ++ rest) cur 1 es = Some ps ->
  exists ps1 ps2 cur' es', ps = ps1 ++ ps2 /\ records rd rest cur' 1 es' = Some ps2 /\
    sources ps1 = between m (Z.max m (final_line m k)) (text_lines f) /\ incl (map fst es') (f :: map fst es).
Proof.
  intros El. induction k as [|r k IH]; intros cur es ps m Ff Ri M A E.
  - exists [], ps, cur, es. split; [reflexivity|]. split; [exact E|]. split; [|intros x X; right; exact X].
    symmetry. apply between_none. intros x _. unfold final_line. cbn. lia.
  - inversion Ff as [|? ? (F1 & (F2 & F3 & _) & F4) Fk]; subst. destruct Ri as [Ra Ri]. cbn [app records] in E. rewrite F2, F3 in E. cbn [Z.eqb Pos.eqb negb] in E. set (f := l_file r) in *.
    set (head := if stricmp cur f =? 0 then [] else [PHead f]) in *. assert (Hh : sources head = []) by (unfold head; destruct (_ =? _); reflexivity).
    rewrite final_cons. pose proof (rising_final _ _ Ri) as Rf. set (e := end_line r (k ++ rest)) in *.
    (* the next record starts at most one line after those shown *)
    assert (Ee : l_line r <= e /\ match k with [] => e = l_line r | r' :: _ => l_line r' <= Z.max m e + 1 /\ e <= l_line r' end).
    { unfold e, end_line. destruct k as [|r' k]; cbn [app].
      - destruct rest as [|r' rest]; [split; [lia|reflexivity]|]. cbn [elsewhere] in El. fold f. replace (stricmp f (l_file r') =? 0) with false by (symmetry; apply Z.eqb_neq; exact El). cbn [andb]. split; [lia|reflexivity].
      - inversion Fk as [|? ? (G1 & _) _]; subst. fold f. rewrite G1, stricmp_refl. cbn [Z.eqb andb]. destruct Ri as [Ri _]. destruct (l_line r <? l_line r') eqn:Lt; lia. }
    destruct Ee as [Ea Ek].
    (* the rest, from the lines shown up to max m e *)
    assert (next : forall es' q, incl (map fst es') (f :: map fst es) -> at_entry es' f = shade (Z.max m e) (text_lines f) -> records rd (k ++ rest) f 1 es' = Some q ->
      forall p0, sources p0 = between m e (text_lines f) -> exists ps1 ps2 cur' es2, head ++ p0 ++ q = ps1 ++ ps2 /\ records rd rest cur' 1 es2 = Some ps2 /\
        sources ps1 = between m (Z.max m (final_line (l_line r) k)) (text_lines f) /\ incl (map fst es2) (f :: map fst es)).
    { intros es' q In A' Eq p0 Ep. destruct (IH f es' q (Z.max m e) Fk) as (ps1 & ps2 & cur' & es2 & X1 & X2 & X3 & X4); auto; [destruct k as [|r' k]; [exact I|]; split; [apply Ek|apply Ri]|lia|].
      exists (head ++ p0 ++ ps1), ps2, cur', es2. split; [rewrite X1, !app_assoc; reflexivity|]. split; [exact X2|]. split.
      - rewrite !sources_app, Hh, Ep, X3. cbn [app].
        replace (Z.max (Z.max m e) (final_line (Z.max m e) k)) with (Z.max m (final_line (l_line r) k)).
        2:{ destruct k as [|r' k]; [unfold final_line; cbn; lia|]. rewrite !final_cons. destruct Ri as [_ Ri]. pose proof (rising_final _ _ Ri). lia. }
        assert (Z.max m e <= Z.max m (final_line (l_line r) k)).
        { destruct k as [|r' k]; [unfold final_line; cbn; lia|]. rewrite !final_cons. destruct Ri as [_ Ri]. pose proof (rising_final _ _ Ri). lia. }
        replace (between m e (text_lines f)) with (between m (Z.max m e) (text_lines f)); [eapply between_join; [apply text_numbered|lia|assumption]|].
        unfold between. apply filter_ext. intros x. destruct (m <? fst x) eqn:E1; cbn [andb]; lia.
      - intros x X. destruct (X4 x X) as [<-|Y]; [left; reflexivity|exact (In x Y)]. }
    destruct (e =? 0) eqn:E0.
    { destruct (records rd (k ++ rest) f 1 es) as [q|] eqn:Eq; [|discriminate]. cbn [option_map] in E. injection E as <-.
      apply (next es q) with (p0 := []); [intros x X; right; exact X|rewrite Z.max_l by lia; exact A|exact Eq|]. symmetry. apply between_none. intros x X.
      pose proof (numbered_gt _ _ _ (text_numbered f) X). lia. }
    apply Z.eqb_neq in E0. fold (at_entry es f) in E.
    pose proof (record_step f m (l_line r) e (body_text (l_body r)) es (find_entry (with_entry rd es f) f) _ A eq_refl M ltac:(lia) ltac:(lia)) as St.
    destruct (skipn (seek (at_entry es f) (l_line r)) (at_entry es f)) as [|g l'] eqn:Sk.
    { destruct (records rd (k ++ rest) f 1 (with_entry rd es f)) as [q|] eqn:Eq; [|discriminate]. cbn [option_map] in E. injection E as <-. destruct St as [B1 B2].
      apply (next (with_entry rd es f) q) with (p0 := []); [apply with_names| |exact Eq|symmetry; exact B1]. unfold at_entry. rewrite with_entry_twice. rewrite B2. reflexivity. }
    destruct (show _ _ g) as [p g']. cbn [fst snd] in St. destruct (fits _ p); [|discriminate]. destruct (show_rest _ e l') as [q0 l'']. cbn [fst snd] in St. destruct St as [B1 B2].
    rewrite B2 in E. fold (put es f (shade (Z.max m e) (text_lines f))) in E.
    destruct (records rd (k ++ rest) f 1 _) as [q|] eqn:Eq; [|discriminate]. cbn [option_map] in E. injection E as <-.
    apply (next _ q) with (p0 := p :: q0) in Eq; [exact Eq|apply put_names|apply at_put|exact B1].
Qed.

(** ** The records of files read one after the other *)
(** the records of a file: they start at line 0, rise, and end beyond the last line of the file *)
Definition whole (f : cstr) (k : list lrec) : Prop :=
  exists r k', k = r :: k' /\ Forall (of_file f) k /\ l_line r = 0 /\ rising 0 k' /\ Z.of_nat (length (text_lines f)) <= final_line 0 k'.
Fixpoint wholes (names : list cstr) (rs : list lrec) : Prop :=
  match names with
  | [] => rs = []
  | f :: names => exists k rest, rs = k ++ rest /\ whole f k /\ wholes names rest
  end.
(** names different from those after them *)
Fixpoint distinct (names : list cstr) : Prop :=
  match names with [] => True | f :: names => Forall (fun n => stricmp f n <> 0) names /\ distinct names end.
Lemma records_files : forall names rs cur es ps, wholes names rs -> distinct names -> Forall (fun n => Forall (fun f => stricmp n f <> 0) names) (map fst es) ->
  records rd rs cur 1 es = Some ps -> sources ps = concat (map text_lines names).
Proof.
  induction names as [|f names IH]; intros rs cur es ps W D N E; cbn [wholes] in W.
  - subst rs. injection E as <-. reflexivity.
  - destruct W as (k & rest & -> & (r & k' & -> & K1 & K2 & K3 & K4) & W). destruct D as [D1 D2].
    assert (El : elsewhere f rest).
    { destruct names as [|f' names]; cbn [wholes] in W; [subst rest; exact I|]. destruct W as (k2 & rest2 & -> & (r2 & k2' & -> & J1 & _) & _).
      cbn [app elsewhere]. inversion J1 as [|? ? (J & _) _]; subst. inversion D1; subst. assumption. }
    assert (A : at_entry es f = shade 0 (text_lines f)).
    { apply at_new. revert N. apply Forall_impl. intros n X. inversion X; subst. assumption. }
    assert (Rk : l_line r <= 0 + 1 /\ rising (l_line r) k') by (rewrite K2; split; [lia|exact K3]).
    destruct (records_block f rest El (r :: k') cur es ps 0 K1 Rk ltac:(lia) A E) as (ps1 & ps2 & cur' & es' & -> & E2 & S1 & Nm).
    rewrite sources_app, S1. cbn [map concat]. f_equal.
    + rewrite final_cons, K2. apply between_all with (b := 0); [apply text_numbered|]. lia.
    + apply (IH rest cur' es' ps2 W D2); [|exact E2]. rewrite Forall_forall in *. intros n X. destruct (Nm n X) as [<-|Y]; [apply Forall_forall; exact D1|].
      specialize (N n Y). inversion N; subst. assumption.
Qed.
(** every line of every file, once and in order *)
Theorem list_file_lines names rs ps : wholes names rs -> distinct names -> generate_list_file rd rs = Some ps -> sources ps = concat (map text_lines names).
Proof.
  intros W D. unfold generate_list_file. destruct rs as [|r rs]; [discriminate|].
  assert (L0 : l_line r = 0).
  { destruct names as [|f names]; [discriminate W|]. destruct W as (k & rest & E & (r' & k' & -> & _ & K & _) & _). injection E as -> _. exact K. }
  rewrite L0. change (before rd (Z.to_nat (0 - 1)) 1 r []) with (Some (@nil piece, @nil fentry)). cbv iota beta.
  destruct (records rd (r :: rs) (l_file r) 1 []) as [q|] eqn:E; [|discriminate]. cbn [option_map]. intros X. injection X as <-. cbn [app sources].
  apply (records_files names _ _ [] _ W D (Forall_nil _) E).
Qed.
End Files.
