(** The list file of a program of the fragment. *)
From Coq Require Import Lia.
From Verif Require Import Base BaseProofs Err State Machine Build Pass File List ListRel ListProofs ListFile ListLines Frag.
Open Scope list_scope.
Open Scope Z_scope.

Section Files.
Variable rd : cstr -> option cstr.
(** the lines of a file carry the numbers of the lines of its text *)
Fixpoint rises (v : Z) (ls : list tline) : Prop := match ls with [] => True | l :: ls => v <= t_line l /\ rises (t_line l) ls end.
Definition in_step (n : cstr) (ls : list tline) : Prop :=
  rises 1 ls /\ Forall (fun l => t_line l <= Z.of_nat (length (text_lines rd n))) ls /\ Z.of_nat (length (text_lines rd n)) <= last_line 0 ls + 1.
Lemma rises_weak v w ls : w <= v -> rises v ls -> rises w ls.
Proof. destruct ls as [|l ls]; [auto|]. cbn [rises]. intros H [H1 H2]. split; [lia|exact H2]. Qed.
Lemma rises_last v ls : rises v ls -> v <= last_line v ls.
Proof. revert v. induction ls as [|l ls IH]; intros v; [intros _; unfold last_line; cbn; lia|]. intros [H1 H2]. rewrite last_line_cons. specialize (IH _ H2). lia. Qed.
Lemma rising_app v k k' : rising v k -> (forall w, w <= final_line v k -> rising w k') -> rising v (k ++ k').
Proof.
  revert v. induction k as [|r k IH]; intros v H1 H2; cbn [app]; [apply H2; unfold final_line; cbn; lia|]. destruct H1 as [H0 H1]. split; [exact H0|].
  apply IH; [exact H1|]. intros w Hw. apply H2. rewrite final_cons. exact Hw.
Qed.
Lemma rising_weak v w k : w <= v -> rising v k -> rising w k.
Proof. destruct k as [|r k]; [auto|]. cbn [rising]. intros H [H1 H2]. split; [lia|exact H2]. Qed.
Lemma blocks_rising f ls k : blocks f ls k -> forall v, rises v ls -> rising v k /\ final_line v k <= last_line v ls.
Proof.
  induction 1 as [|l ls k k' K B IH]; intros v R.
  - split; [exact I|]. unfold final_line, last_line. cbn. lia.
  - destruct R as [R1 R2]. rewrite last_line_cons. destruct (IH _ R2) as [A1 A2].
    assert (E : forall w, w <= t_line l -> rising w (k ++ k') /\ final_line w (k ++ k') <= last_line (t_line l) ls).
    { clear - K A1 A2 R2. induction K as [|r k [[_ E] _] K IHk]; intros w W; cbn [app].
      - split; [exact (rising_weak _ _ _ W A1)|]. destruct k' as [|r' k']; [unfold final_line; cbn; pose proof (rises_last _ _ R2); lia|]. rewrite final_cons in *. exact A2.
      - rewrite final_cons, E. destruct (IHk (t_line l) ltac:(lia)) as [B1 B2]. split; [cbn [rising]; rewrite E; split; [exact W|exact B1]|exact B2]. }
    apply E. exact R1.
Qed.
Lemma blocks_in f ls k r : blocks f ls k -> In r k -> l_file r = f /\ exists l, In l ls /\ l_line r = t_line l.
Proof.
  induction 1 as [|l ls k k' K B IH]; [intros []|]. intros X. apply in_app_or in X as [X|X].
  - rewrite Forall_forall in K. destruct (K _ X) as [[A1 A2] _]. split; [exact A1|]. exists l. cbn. auto.
  - destruct (IH X) as (A1 & l' & A2 & A3). split; [exact A1|]. exists l'. cbn. auto.
Qed.
Lemma rises_in v ls l : rises v ls -> In l ls -> v <= t_line l.
Proof. revert v. induction ls as [|x ls IH]; intros v; [intros _ []|]. intros [H1 H2] [<-|X]; [exact H1|]. specialize (IH _ H2 X). lia. Qed.
Lemma final_app v k b : final_line v (k ++ [b]) = l_line b.
Proof. unfold final_line. rewrite map_app. apply last_last. Qed.
Lemma block_whole n ls k : in_step n ls -> Forall (stated 1) k -> file_block n ls k -> whole rd n k.
Proof.
  intros (R & U & L) S (b0 & k1 & b1 & b2 & -> & [[M1 M2] _] & B & [[N1 N2] _] & [[O1 O2] _]).
  destruct (blocks_rising _ _ _ B 0 (rises_weak 1 0 _ ltac:(lia) R)) as [A1 A2].
  assert (L0 : 0 <= last_line 0 ls) by (apply rises_last; exact (rises_weak 1 0 _ ltac:(lia) R)).
  exists b0, (k1 ++ [b1; b2]). split; [reflexivity|]. split; [|split; [exact M2|split]].
  - rewrite Forall_forall in *. intros r X. split; [|split; [exact (S r X)|]].
    + destruct X as [<-|X]; [exact M1|]. apply in_app_or in X as [X|[<-|[<-|[]]]]; auto. apply (blocks_in _ _ _ _ B X).
    + destruct X as [<-|X]; [lia|]. apply in_app_or in X as [X|[<-|[<-|[]]]]; [|lia|lia]. destruct (blocks_in _ _ _ _ B X) as (_ & l & Hl & ->).
      pose proof (rises_in _ _ _ R Hl). lia.
  - apply rising_app; [exact A1|]. intros w W. cbn [rising]. repeat split; lia.
  - change [b1; b2] with ([b1] ++ [b2]). rewrite app_assoc, final_app, O2. exact L.
Qed.
Definition good_files (c : config) : Prop := forall n ls, In n (g_inputs c) -> g_files c n = Some (map SrcLine ls) -> in_step n ls.
Lemma all_wholes c names k : (forall n ls, In n names -> g_files c n = Some (map SrcLine ls) -> in_step n ls) -> Forall (stated 1) k -> all_blocks c names k -> wholes rd names k.
Proof.
  revert k. induction names as [|n names IH]; intros k G S B; cbn [all_blocks] in B; cbn [wholes]; [exact B|]. destruct B as (l1 & k1 & k2 & Gn & B1 & B2 & ->).
  apply Forall_app in S as [S1 S2]. exists k1, k2. split; [reflexivity|]. split; [exact (block_whole n l1 k1 (G n l1 (or_introl eq_refl) Gn) S1 B1)|].
  apply IH; auto. intros m ls M. apply G. right. exact M.
Qed.
Lemma all_placed c names k : (forall n ls, In n names -> g_files c n = Some (map SrcLine ls) -> in_step n ls) -> all_blocks c names k -> Forall (placed rd) k.
Proof.
  revert k. induction names as [|n names IH]; intros k G B; cbn [all_blocks] in B; [subst; constructor|]. destruct B as (l1 & k1 & k2 & Gn & B1 & B2 & ->).
  apply Forall_app. split; [|apply IH; auto; intros m ls M; apply G; right; exact M].
  destruct (G n l1 (or_introl eq_refl) Gn) as (R & U & _). destruct B1 as (b0 & kk & b1 & b2 & -> & [_ M] & B & [_ N] & [_ O]).
  rewrite Forall_forall in *. intros r X Br. unfold bears in Br.
  destruct X as [<-|X]; [rewrite M in Br; discriminate|]. apply in_app_or in X as [X|[<-|[<-|[]]]]; [|rewrite N in Br; discriminate|rewrite O in Br; discriminate].
  destruct (blocks_in _ _ _ _ B X) as (-> & l & Hl & ->). split; [exact (rises_in _ _ _ R Hl)|]. specialize (U _ Hl). rewrite load_shade. pose proof (text_numbered rd n) as T.
  assert (P : 1 <= t_line l) by exact (rises_in _ _ _ R Hl). clear - U T P.
  assert (K : forall L b v, numbered b L -> v <= b + Z.of_nat (length L) -> b < v -> exists f, In f (shade 0 L) /\ v <= f_no f); [|apply (K _ 0); auto; lia].
  induction L as [|x L IH]; intros b v; cbn [numbered length]; [lia|]. intros [E N] V1 V2. destruct (Z.eq_dec v (b + 1)) as [->|Y].
  - eexists. split; [left; reflexivity|]. cbn [f_no]. lia.
  - destruct (IH (b + 1) v N) as (f & F1 & F2); [lia|lia|]. exists f. split; [right; exact F1|exact F2].
Qed.

(** ** The buffer *)
Lemma records_some (w : Z) : (forall n x, In x (text_lines rd n) -> Z.of_nat (length (snd x)) <= w) -> w + 148 < max_line_len -> 1 <= w ->
  forall rs cur st es, Forall (fun r => Z.of_nat (length (body_text (l_body r))) <= 148) rs ->
  Forall (fun e => Forall (fun f => Z.of_nat (length (f_text f)) <= w) (snd e)) es -> exists ps, records rd rs cur st es = Some ps.
Proof.
  intros H W W1. induction rs as [|r rs IH]; intros cur st es B O; cbn [records]; [eauto|]. inversion B as [|? ? B1 B2]; subst.
  assert (K : forall es st, Forall (fun e => Forall (fun f => Z.of_nat (length (f_text f)) <= w) (snd e)) es -> exists ps, records rd rs (l_file r) st es = Some ps) by (intros; apply IH; auto).
  assert (W2 : Forall (fun e => Forall (fun f => Z.of_nat (length (f_text f)) <= w) (snd e)) (with_entry rd es (l_file r))).
  { unfold with_entry. destruct (_ <? _)%nat; [exact O|]. apply Forall_app. split; [exact O|]. repeat constructor. cbn [snd]. rewrite load_shade. apply Forall_forall. intros f F.
    unfold shade in F. apply in_map_iff in F as (x & <- & X). cbn [f_text]. exact (H _ _ X). }
  assert (M : forall o : option (list piece), (exists ps, o = Some ps) -> forall h, exists ps, option_map (app h) o = Some ps) by (intros o (ps & ->) h; eexists; reflexivity).
  apply M. destruct (negb _); [auto|]. destruct (l_dir r); [auto|]. destruct (l_pstate r =? 0); [auto|]. destruct (end_line r rs =? 0); [auto|].
  set (es1 := with_entry rd es (l_file r)) in *. set (i := find_entry es1 (l_file r)). set (l := lines_at es1 i).
  assert (Ol : Forall (fun f => Z.of_nat (length (f_text f)) <= w) l).
  { unfold l, lines_at. destruct (nth_error es1 i) as [(n, q)|] eqn:E; [|constructor]. rewrite Forall_forall in W2. apply nth_error_In in E. exact (W2 _ E). }
  destruct (skipn (seek l (l_line r)) l) as [|f l'] eqn:Sk; [auto|]. pose proof (skip_split _ _ _ _ _ Sk) as El.
  assert (Of : Forall (fun f => Z.of_nat (length (f_text f)) <= w) (f :: l')) by (rewrite El in Ol; apply Forall_app in Ol; apply Ol).
  assert (Oa : Forall (fun f => Z.of_nat (length (f_text f)) <= w) (firstn (seek l (l_line r)) l)) by (rewrite El in Ol; apply Forall_app in Ol; apply Ol).
  inversion Of as [|? ? F1 F2]; subst.
  assert (S1 : f_text (snd (show (body_text (l_body r)) i f)) = f_text f) by (unfold show; destruct (_ =? _); reflexivity).
  assert (S2 : fits (body_text (l_body r)) (fst (show (body_text (l_body r)) i f)) = true).
  { unfold show. destruct (f_shown f =? 0); cbn [fst fits]; apply Z.ltb_lt; [lia|]. cbn [length]. lia. }
  destruct (show (body_text (l_body r)) i f) as [p f']. cbn [fst snd] in S1, S2. rewrite S2.
  assert (S3 : Forall (fun f => Z.of_nat (length (f_text f)) <= w) (snd (show_rest i (end_line r rs) l'))).
  { clear - F2. induction F2 as [|g l' G G' IHl]; cbn [show_rest]; [constructor|]. destruct (f_no g <=? end_line r rs); [|constructor; [exact G|]].
    - unfold show. destruct (show_rest i (end_line r rs) l') as [a b]. cbn [snd] in IHl. destruct (f_shown g =? 0); constructor; auto.
    - exact G'. }
  destruct (show_rest i (end_line r rs) l') as [q l'']. cbn [snd] in S3. change (exists ps, option_map (app (p :: q)) (records rd rs (l_file r) st (set_lines es1 i (firstn (seek l (l_line r)) l ++ f' :: l''))) = Some ps).
  apply M, K. unfold set_lines. destruct (nth_error es1 i) as [(n, x)|] eqn:E; [|exact W2]. clear - W2 Oa S1 S3 F1.
  assert (X : Forall (fun f => Z.of_nat (length (f_text f)) <= w) (firstn (seek l (l_line r)) l ++ f' :: l'')) by (apply Forall_app; split; [exact Oa|]; constructor; [rewrite S1; exact F1|exact S3]).
  revert X. generalize (firstn (seek l (l_line r)) l ++ f' :: l'') as y. intros y Y. generalize i as j. clear - W2 Y. induction W2 as [|e es1 E W IHw]; intros [|j]; cbn [upd]; constructor; auto.
Qed.
End Files.
