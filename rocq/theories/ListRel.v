(** What a step adds to the listing and to the output. *)
From Coq Require Import Lia.
From Verif Require Import Base Err State Machine.
Open Scope list_scope.
Open Scope Z_scope.

(** the bytes a list record stands for *)
Definition body_bytes (b : lbody) : list Z :=
  map (fun b => b mod 256)
  match b with
  | LNone => []
  | LOp _ opc _ _ l _ => opc :: l
  | LData _ l => l
  | LStr _ g => g
  | LTail _ g pad => g ++ (if pad then [0] else [])
  | LPad _ _ => [0]
  end.
(** of records, newest first *)
Definition listed (k : list lrec) : list Z := concat (map (fun r => body_bytes (l_body r)) (rev k)).
Lemma listed_app k k' : listed (k ++ k') = listed k' ++ listed k.
Proof. unfold listed. rewrite rev_app_distr, map_app, concat_app. reflexivity. Qed.
Definition writing (s : state) : bool := s_opened s && s_org_spec s.

(** the bytes listed are the bytes written, but for the load address [h] in front of the first one *)
Definition says (k : list lrec) (s s' : state) : Prop :=
  exists h, s_out s' = rev (listed k) ++ h ++ s_out s /\ s_total s' = s_total s + Z.of_nat (length h) + Z.of_nat (length (listed k)) /\
    (h = [] \/ s_total s = 0 /\ s_c64 s = true /\ length h = 2%nat) /\ (s_total s = 0 -> s_c64 s = true -> listed k <> [] -> h <> []).
(** the numbers of a record are in range *)
Definition shaped (b : lbody) : Prop :=
  match b with
  | LNone | LPad _ _ => True
  | LOp pc opc _ _ l _ => 0 <= pc < 65536 /\ (length l <= 3)%nat /\ Forall (fun b => 0 <= b < 256) (opc :: l)
  | LData pc l => 0 <= pc < 65536 /\ (1 <= length l <= 4)%nat /\ Forall (fun b => 0 <= b < 256) l
  | LStr pc g => 0 <= pc < 65536 /\ (1 <= length g <= 4)%nat
  | LTail pc g _ => 0 <= pc < 65536 /\ (1 <= length g <= 3)%nat
  end.
(** and it shows bytes *)
Definition framed (b : lbody) : Prop := match b with LNone => False | _ => shaped b end.
Lemma framed_shaped b : framed b -> shaped b. Proof. destruct b; cbn [framed]; auto. intros []. Qed.
(** the address a record shows *)
Definition place (b : lbody) : option Z :=
  match b with LNone | LPad _ _ => None | LOp pc _ _ _ _ _ | LData pc _ | LStr pc _ | LTail pc _ _ => Some pc end.
(** records, oldest first, whose bytes follow each other from [pc] on *)
Fixpoint addressed (pc : Z) (rs : list lrec) : Prop :=
  match rs with
  | [] => True
  | r :: rs => (forall a, place (l_body r) = Some a -> a = pc mod 65536) /\ addressed (pc + Z.of_nat (length (body_bytes (l_body r)))) rs
  end.
Lemma addressed_app rs : forall pc rs', addressed pc (rs ++ rs') <-> addressed pc rs /\ addressed (pc + Z.of_nat (length (concat (map (fun r => body_bytes (l_body r)) rs)))) rs'.
Proof.
  induction rs as [|r rs IH]; intros pc rs'; cbn [app addressed map concat length]; [rewrite Z.add_0_r; tauto|].
  rewrite IH, app_length, Nat2Z.inj_add, Z.add_assoc. tauto.
Qed.
Definition follows (k : list lrec) (s s' : state) : Prop := s_pc s' = s_pc s + Z.of_nat (length (listed k)) /\ addressed (s_pc s) (rev k).
Lemma follows_nil s s' : s_pc s' = s_pc s -> follows [] s s'.
Proof. intros E. split; [cbn; lia|exact I]. Qed.
Lemma follows_trans k k' a b c : follows k a b -> follows k' b c -> follows (k' ++ k) a c.
Proof.
  intros [A1 A2] [B1 B2]. split; [rewrite listed_app, app_length, B1, A1; lia|]. rewrite rev_app_distr. apply addressed_app. split; [exact A2|].
  rewrite A1 in B2. exact B2.
Qed.
(** the file and the print state of the records to come *)
Definition ltag (s : state) : cstr * Z := (s_file s, s_pstate s).
Definition tagged (t : cstr * Z) (r : lrec) : Prop := l_file r = fst t /\ l_pstate r = snd t /\ l_dir r = false /\ framed (l_body r).
(** output in the final pass, no origin set *)
Definition steady (s s' : state) : Prop := s_final s = true /\ writing s = true /\ s_errs s' = s_errs s /\ s_pc_assigned s' = s_pc_assigned s.
Record lk (s s' : state) : Prop := mkLk {
  lk_errs : s_errs s <= s_errs s';
  lk_soft : (length (s_soft s) <= length (s_soft s'))%nat;
  lk_c64 : s_c64 s' = s_c64 s;
  lk_on : writing s = true -> writing s' = true;
  lk_total : 0 <= s_total s -> 0 <= s_total s';
  lk_tag : ltag s' = ltag s;
  lk_final : s_final s' = s_final s;
  lk_asg : s_pc_assigned s <= s_pc_assigned s';
  lk_list : exists k, s_list s' = k ++ s_list s /\ Forall (tagged (ltag s)) k /\
    (writing s = true -> 0 <= s_total s -> s_errs s' = s_errs s -> says k s s') /\ (steady s s' -> follows k s s')
}.
Lemma says_nil s s' : s_out s' = s_out s -> s_total s' = s_total s -> says [] s s'.
Proof. intros E1 E2. exists []. cbn. rewrite E1, E2. split; [reflexivity|]. split; [lia|]. split; [auto|]. intros _ _ X. destruct (X eq_refl). Qed.
Lemma says_trans k k' a b c : 0 <= s_total a -> s_c64 b = s_c64 a -> says k a b -> says k' b c -> says (k' ++ k) a c.
Proof.
  intros T C (h & A1 & A2 & A3 & A4) (h' & B1 & B2 & B3 & B4). exists (h' ++ h).
  assert (X : h' = [] \/ h = [] /\ listed k = [] /\ s_total b = s_total a /\ s_total a = 0).
  { destruct B3 as [B3|(B3 & _)]; [auto|]. right. destruct A3 as [->|(_ & _ & A3)]; [|rewrite A3 in A2; lia].
    destruct (listed k); [cbn in *; repeat split; lia|cbn in A2; lia]. }
  rewrite listed_app, rev_app_distr, B1, A1, B2, A2, !app_length, !Nat2Z.inj_add.
  split; [destruct X as [->|(-> & -> & _)]; cbn; now rewrite ?app_nil_r, <- ?app_assoc|]. split; [lia|]. split.
  - destruct X as [->|(-> & E & Et & E0)]; [exact A3|]. rewrite app_nil_r. destruct B3 as [->|(B3 & B5 & B6)]; auto.
    right. rewrite <- C. cbn [length]. repeat split; auto. lia.
  - intros T0 C0 N. destruct X as [->|(-> & E & Et & E0)].
    + cbn. destruct (listed k) as [|x l] eqn:Ek; [|apply A4; auto; congruence].
      destruct h as [|y h]; [|discriminate]. exfalso. cbn in A2, N. apply (B4 ltac:(lia) ltac:(congruence) N). reflexivity.
    + rewrite app_nil_r, E in *. cbn in N. apply B4; auto; [lia|congruence].
Qed.
Lemma lk_trans a b c : lk a b -> lk b c -> lk a c.
Proof.
  intros [A1 A2 A3 A4 A5 A8 A10 A11 (k & A6 & A9 & A7 & A12)] [B1 B2 B3 B4 B5 B8 B10 B11 (k' & B6 & B9 & B7 & B12)]. constructor; [exact (Z.le_trans _ _ _ A1 B1)|exact (Nat.le_trans _ _ _ A2 B2)|congruence|auto|auto|congruence|congruence|exact (Z.le_trans _ _ _ A11 B11)|].
  exists (k' ++ k). split; [rewrite B6, A6, app_assoc; reflexivity|]. split; [apply Forall_app; rewrite A8 in B9; auto|]. split.
  - intros W T E. assert (Eb : s_errs b = s_errs a) by (apply Z.le_antisymm; [rewrite <- E; exact B1|exact A1]).
    apply (says_trans k k' a b c T A3); [apply A7|apply B7]; auto. congruence.
  - intros (F & W & E & P). assert (Eb : s_errs b = s_errs a) by (apply Z.le_antisymm; [rewrite <- E; exact B1|exact A1]).
    assert (Pb : s_pc_assigned b = s_pc_assigned a) by (apply Z.le_antisymm; [rewrite <- P; exact B11|exact A11]).
    apply (follows_trans k k' a b c); [apply A12|apply B12]; (split; [|split; [|split]]); auto; congruence.
Qed.
(** the same but for the file *)
Definition stated (p : Z) (r : lrec) : Prop := l_pstate r = p /\ l_dir r = false /\ shaped (l_body r).
Record lkw (s s' : state) : Prop := mkLkw {
  w_errs : s_errs s <= s_errs s';
  w_soft : (length (s_soft s) <= length (s_soft s'))%nat;
  w_c64 : s_c64 s' = s_c64 s;
  w_on : writing s = true -> writing s' = true;
  w_total : 0 <= s_total s -> 0 <= s_total s';
  w_pst : s_pstate s' = s_pstate s;
  w_final : s_final s' = s_final s;
  w_asg : s_pc_assigned s <= s_pc_assigned s';
  w_list : exists k, s_list s' = k ++ s_list s /\ Forall (stated (s_pstate s)) k /\
    (writing s = true -> 0 <= s_total s -> s_errs s' = s_errs s -> says k s s') /\ (steady s s' -> follows k s s')
}.
Lemma lk_weak s s' : lk s s' -> lkw s s'.
Proof.
  intros [A1 A2 A3 A4 A5 A8 A10 A11 (k & A6 & A9 & A7)]. constructor; auto; [exact (f_equal snd A8)|]. exists k. split; [exact A6|]. split; [|exact A7].
  revert A9. apply Forall_impl. intros r (_ & B1 & B2 & B3). split; [exact B1|split; [exact B2|exact (framed_shaped _ B3)]].
Qed.
Lemma lkw_trans a b c : lkw a b -> lkw b c -> lkw a c.
Proof.
  intros [A1 A2 A3 A4 A5 A8 A10 A11 (k & A6 & A9 & A7 & A12)] [B1 B2 B3 B4 B5 B8 B10 B11 (k' & B6 & B9 & B7 & B12)]. constructor; [exact (Z.le_trans _ _ _ A1 B1)|exact (Nat.le_trans _ _ _ A2 B2)|congruence|auto|auto|congruence|congruence|exact (Z.le_trans _ _ _ A11 B11)|].
  exists (k' ++ k). split; [rewrite B6, A6, app_assoc; reflexivity|]. split; [apply Forall_app; rewrite A8 in B9; auto|]. split.
  - intros W T E. assert (Eb : s_errs b = s_errs a) by (apply Z.le_antisymm; [rewrite <- E; exact B1|exact A1]).
    apply (says_trans k k' a b c T A3); [apply A7|apply B7]; auto. congruence.
  - intros (F & W & E & P). assert (Eb : s_errs b = s_errs a) by (apply Z.le_antisymm; [rewrite <- E; exact B1|exact A1]).
    assert (Pb : s_pc_assigned b = s_pc_assigned a) by (apply Z.le_antisymm; [rewrite <- P; exact B11|exact A11]).
    apply (follows_trans k k' a b c); [apply A12|apply B12]; (split; [|split; [|split]]); auto; congruence.
Qed.
(** what it depends on, besides the program counter *)
Definition lview (s : state) := (s_list s, s_out s, s_total s, s_errs s, s_soft s, s_c64 s, s_opened s, s_org_spec s, s_file s, s_pstate s, s_final s, s_pc_assigned s).
Lemma lk_moved s s' : lview s' = lview s -> s_pc s' = s_pc s \/ s_final s = false -> lk s s'.
Proof.
  unfold lview. intros [= E1 E2 E3 E4 E5 E6 E7 E8 E9 E10 E11 E12] Ep.
  constructor; unfold writing, ltag; rewrite ?E1, ?E3, ?E4, ?E5, ?E6, ?E7, ?E8, ?E9, ?E10, ?E11, ?E12; auto; try lia.
  exists []. split; [reflexivity|]. split; [constructor|]. split; [intros _ _ _; apply says_nil; auto|].
  intros (F & _). destruct Ep as [Ep|Ep]; [apply follows_nil, Ep|congruence].
Qed.
Lemma lk_same s s' : lview s' = lview s -> s_pc s' = s_pc s -> lk s s'. Proof. intros E P. apply lk_moved; auto. Qed.
Lemma lk_refl s : lk s s. Proof. apply lk_same; reflexivity. Qed.
(** steps that only start an origin *)
Lemma lk_start s s' : s_list s' = s_list s -> s_out s' = s_out s -> s_total s' = s_total s -> s_errs s' = s_errs s -> s_soft s' = s_soft s ->
  s_c64 s' = s_c64 s -> (writing s = true -> writing s' = true) -> ltag s' = ltag s -> s_final s' = s_final s ->
  s_pc_assigned s <= s_pc_assigned s' -> s_pc s' = s_pc s \/ s_pc_assigned s' <> s_pc_assigned s -> lk s s'.
Proof.
  intros E1 E2 E3 E4 E5 E6 E7 E8 E9 E10 Ep. constructor; rewrite ?E1, ?E3, ?E4, ?E5, ?E6; auto; try lia.
  exists []. split; [reflexivity|]. split; [constructor|]. split; [intros _ _ _; apply says_nil; auto|].
  intros (_ & _ & _ & P). destruct Ep as [Ep|Ep]; [apply follows_nil, Ep|congruence].
Qed.
(** errors and undefined values spoil it *)
Lemma lk_err s s' : s_list s' = s_list s -> s_out s' = s_out s -> s_total s' = s_total s -> s_errs s <= s_errs s' -> s_soft s' = s_soft s ->
  s_c64 s' = s_c64 s -> s_opened s' = s_opened s -> s_org_spec s' = s_org_spec s -> ltag s' = ltag s -> s_final s' = s_final s ->
  s_pc_assigned s' = s_pc_assigned s -> s_pc s' = s_pc s -> lk s s'.
Proof.
  intros E1 E2 E3 E4 E5 E6 E7 E8 E9 E10 E11 Ep. constructor; unfold writing; rewrite ?E1, ?E3, ?E5, ?E6, ?E7, ?E8; auto; try lia.
  exists []. split; [reflexivity|]. split; [constructor|]. split; [intros _ _ _; apply says_nil; auto|intros _; apply follows_nil, Ep].
Qed.
(** a step after which the program counter has yet to move by [n] *)
Definition lkp (n : Z) (s s' : state) : Prop := forall t, lview t = lview s' -> s_pc t = s_pc s' + n -> lk s t.
Lemma lkp_trans n a b c : lk a b -> lkp n b c -> lkp n a c.
Proof. intros H P t E1 E2. exact (lk_trans _ _ _ H (P t E1 E2)). Qed.
Lemma lkp_same n a b c : lkp n a b -> lview c = lview b -> s_pc c = s_pc b -> lkp n a c.
Proof. intros P E1 E2 t E3 E4. apply P; congruence. Qed.
Lemma lkp_idle n s s' : s_final s = false -> lview s' = lview s -> lkp n s s'.
Proof. intros F E1 t E3 E4. apply lk_moved; [congruence|auto]. Qed.
