(** The addresses in the list file: a reader that gives every byte with its address. *)
From Coq Require Import String Lia.
From Verif Require Import Base BaseProofs Opcodes State Machine File FileProofs Eol List ListRel ListProofs ListFile ListLines ListBeside Frag ListAsm.
Open Scope string_scope.
Open Scope list_scope.
Open Scope Z_scope.

(** "$HHHH:" *)
Definition read_addr (t : cstr) : option Z :=
  match t with
  | d :: a :: b :: c :: e :: k :: _ =>
      if (d =? 36) && (k =? 58) then match hex2 a b, hex2 c e with Some h, Some l => Some (256 * h + l) | _, _ => None end else None
  | _ => None
  end.
(** bytes at the addresses from [a] on *)
Fixpoint from (a : Z) (l : list Z) : list (Z * Z) :=
  match l with [] => [] | b :: l => (a mod 65536, b) :: from (a + 1) l end.
(** the bytes of a row with their addresses *)
Definition read_cells (t : cstr) : option (list (Z * Z)) :=
  match t with
  | [] => Some []
  | _ => match read_addr t, read_row t with Some a, Some l => Some (from a l) | _, _ => None end
  end.
Fixpoint read_image (ts : list cstr) : option (list (Z * Z)) :=
  match ts with
  | [] => Some []
  | t :: ts => match read_cells t, read_image ts with Some a, Some b => Some (a ++ b) | _, _ => None end
  end.
(** [u] stands somewhere in [t] *)
Definition within (u t : cstr) : Prop := exists a b, t = a ++ u ++ b.

Lemma from_mod l : forall a, from (a mod 65536) l = from a l.
Proof.
  induction l as [|b l IH]; intros a; [reflexivity|]. cbn [from]. rewrite Z.mod_mod by lia. f_equal.
  rewrite <- (IH (a mod 65536 + 1)), <- (IH (a + 1)). f_equal. rewrite Z.add_mod_idemp_l by lia. reflexivity.
Qed.
Lemma from_app l l' : forall a, from a (l ++ l') = from a l ++ from (a + Z.of_nat (length l)) l'.
Proof.
  induction l as [|b l IH]; intros a; cbn [app from length]; [rewrite Z.add_0_r; reflexivity|]. rewrite IH. do 3 f_equal. lia.
Qed.
Lemma addr_row pc l st : 0 <= pc < 65536 -> read_addr (row pc l st) = Some pc.
Proof.
  intros P. pose proof (land255 pc) as L. assert (H : 0 <= pc / 256 < 256) by (split; [apply Z.div_pos; lia|apply Z.div_lt_upper_bound; lia]).
  destruct (row_eq pc l st) as (n & -> & _). rewrite (hexi2_small (pc / 256)), (hexi2_small (Z.land pc 255)) by assumption.
  change (cs "$") with [36]. cbn [app read_addr]. rewrite !Z.eqb_refl. cbn [andb].
  rewrite (hex2_small (pc / 256)), (hex2_small (Z.land pc 255)) by assumption.
  f_equal. change 255 with (Z.ones 8). rewrite Z.land_ones by lia. change (2 ^ 8) with 256. symmetry. apply Z.div_mod. lia.
Qed.
Lemma addr_body b pc : shaped b -> place b = Some pc -> read_addr (body_text b) = Some pc.
Proof. destruct b; cbn [place shaped body_text]; intros S E; try discriminate; injection E as <-; apply addr_row, S. Qed.
Definition unpadded (b : lbody) : Prop := match b with LPad _ _ => False | _ => True end.
Lemma shaped_ok b : shaped b -> unpadded b -> row_ok b.
Proof. destruct b; cbn [shaped unpadded row_ok]; tauto. Qed.
Lemma cells_body b pc : shaped b -> unpadded b -> (forall a, place b = Some a -> a = pc mod 65536) -> read_cells (body_text b) = Some (from pc (body_bytes b)).
Proof.
  intros S U P. unfold read_cells. pose proof (read_body b (shaped_ok b S U)) as R. destruct (place b) as [a|] eqn:Pb.
  - pose proof (addr_body b a S Pb) as A. rewrite A, R. rewrite (P a eq_refl), from_mod. destruct (body_text b); [discriminate A|reflexivity].
  - destruct b; try discriminate Pb; [reflexivity|destruct U].
Qed.
Lemma image_records rs : forall pc, addressed pc rs -> Forall (fun r => shaped (l_body r) /\ unpadded (l_body r)) rs ->
  read_image (map (fun r => body_text (l_body r)) rs) = Some (from pc (concat (map (fun r => body_bytes (l_body r)) rs))).
Proof.
  induction rs as [|r rs IH]; intros pc A S; [reflexivity|]. destruct A as [A1 A2]. inversion S as [|? ? [S1 S2] S3]; subst. cbn [map read_image concat].
  rewrite (cells_body _ pc S1 S2 A1), (IH _ A2 S3), from_app. reflexivity.
Qed.
Lemma image_filled ts : read_image ts = read_image (filter filled ts).
Proof.
  induction ts as [|t ts IH]; [reflexivity|]. cbn [filter]. destruct t as [|c t]; cbn [filled].
  - cbn [read_image read_cells]. rewrite <- IH. destruct (read_image _); reflexivity.
  - cbn [read_image]. rewrite IH. reflexivity.
Qed.
Lemma image_bears rs : read_image (map (fun r => body_text (l_body r)) (filter bears rs)) = read_image (map (fun r => body_text (l_body r)) rs).
Proof.
  induction rs as [|r rs IH]; [reflexivity|]. cbn [filter]. destruct (bears r) eqn:B; cbn [map read_image]; rewrite IH; [reflexivity|].
  unfold bears in B. destruct (l_body r); try discriminate B. cbn [body_text read_cells]. destruct (read_image (map _ rs)); reflexivity.
Qed.
Lemma bears_filled rs r : In r rs -> bears r = true -> In (body_text (l_body r)) (map (fun r => body_text (l_body r)) (filter bears rs)).
Proof. intros I B. apply (in_map (fun r => body_text (l_body r))). apply filter_In. auto. Qed.
Lemma pad_within pc g : within (cs " $00.db") (body_text (LPad pc g)).
Proof. cbn [body_text]. exists (group_text pc g), (cs " $" ++ hexi 2 (hd 0 g)). reflexivity. Qed.

Section Files.
Variable rd : cstr -> option cstr.
Hypothesis Hrd : forall a b, stricmp a b = 0 -> rd a = rd b.
Lemma rows_unpadded rs ps : Forall (stated 1) rs -> Forall (placed rd) rs -> generate_list_file rd rs = Some ps ->
  (forall t, In t (columns ps) -> ~ within (cs " $00.db") t) -> Forall (fun r => shaped (l_body r) /\ unpadded (l_body r)) rs.
Proof.
  intros S P E N. pose proof (list_columns rd Hrd rs ps S P E) as C. rewrite Forall_forall in *. intros r I. split; [apply (S r I)|].
  destruct (l_body r) as [| | | | |pc g] eqn:B; cbn [unpadded]; auto. apply (N (body_text (LPad pc g))); [|apply pad_within].
  rewrite <- B. eapply proj1, filter_In. rewrite C. apply bears_filled; [exact I|]. unfold bears. rewrite B. reflexivity.
Qed.
Theorem list_image rs ps pc : Forall (stated 1) rs -> Forall (placed rd) rs -> generate_list_file rd rs = Some ps ->
  (forall t, In t (columns ps) -> ~ within (cs " $00.db") t) -> addressed pc rs ->
  read_image (columns ps) = Some (from pc (concat (map (fun r => body_bytes (l_body r)) rs))).
Proof.
  intros S P E N A. rewrite image_filled, (list_columns rd Hrd rs ps S P E), image_bears. apply image_records; [exact A|exact (rows_unpadded rs ps S P E N)].
Qed.
Theorem list_reads rs ps : Forall (stated 1) rs -> Forall (placed rd) rs -> generate_list_file rd rs = Some ps ->
  (forall t, In t (columns ps) -> ~ within (cs " $00.db") t) -> read_rows (columns ps) = Some (concat (map (fun r => body_bytes (l_body r)) rs)).
Proof.
  intros S P E N. rewrite read_filled, (list_columns rd Hrd rs ps S P E). apply read_records_ok.
  pose proof (rows_unpadded rs ps S P E N) as U. revert U. apply Forall_impl. intros r [X Y]. exact (shaped_ok _ X Y).
Qed.
End Files.

(** ** The bytes of each line *)
(** rows, each with the number of a line, that show the bytes of the lines one after the other *)
Inductive grouped : list (Z * list Z) -> list (Z * cstr) -> Prop :=
| GrNil : grouped [] []
| GrCons n b lb rows rows' : Forall (fun x => fst x = n) rows -> read_rows (map snd rows) = Some b -> grouped lb rows' -> grouped ((n, b) :: lb) (rows ++ rows').
(** ** The rows of a line stand together *)
Lemma clumped_all k : Forall (fun r => bears r = true) k -> clumped k.
Proof. induction 1 as [|r k B _ IH]; [exact I|]. split; [destruct k; auto|exact IH]. Qed.
Lemma clumped_join a r b : clumped (a ++ [r]) -> clumped (r :: b) -> clumped (a ++ r :: b).
Proof.
  intros Ha Hb. induction a as [|x a IH]; [exact Hb|]. cbn [app clumped] in *. destruct Ha as [H1 H2]. split; [destruct a; [exact H1|exact H1]|apply IH; exact H2].
Qed.
Lemma clumped_snoc a r : clumped a -> bears r = false -> clumped (a ++ [r]).
Proof.
  intros Ha B. induction a as [|x a IH]; [split; [exact I|exact I]|]. destruct Ha as [H1 H2]. cbn [app clumped]. split; [|apply IH; exact H2].
  destruct a as [|y a]; [|exact H1]. cbn [app]. intros _ X. congruence.
Qed.
Lemma clumped_before a r b : clumped a -> clumped (r :: b) -> bears r = false -> clumped (a ++ r :: b).
Proof. intros Ha Hb B. apply clumped_join; [apply clumped_snoc; assumption|exact Hb]. Qed.
Lemma mark_quiet f v r : mark f v r -> bears r = false.
Proof. intros [_ E]. unfold bears. rewrite E. reflexivity. Qed.
Lemma blocks_bear f ls k : blocks f ls k -> Forall (fun r => bears r = true) k.
Proof.
  induction 1 as [|l ls k k' K B IH]; [constructor|]. apply Forall_app. split; [|exact IH]. revert K. apply Forall_impl. intros r [_ X]. unfold bears. destruct (l_body r); auto.
Qed.
Lemma block_clumped rd n ls k k2 : in_step rd n ls -> file_block n ls k -> match k2 with [] => True | r :: _ => bears r = false end -> clumped k2 ->
  clumped (k ++ k2) /\ match k ++ k2 with [] => True | r :: _ => bears r = false end.
Proof.
  intros (R & _) (b0 & k1 & b1 & b2 & -> & M & B & N & O) H2 C2. cbn [app]. split; [|exact (mark_quiet _ _ _ M)].
  pose proof (blocks_bear _ _ _ B) as Bk. rewrite <- app_assoc. cbn [app].
  assert (T : clumped (b2 :: k2)). { split; [|exact C2]. destruct k2 as [|r k2]; [exact I|]. intros _ X. congruence. }
  assert (T1 : clumped (b1 :: b2 :: k2)). { split; [|exact T]. intros _ X. rewrite (mark_quiet _ _ _ O) in X. discriminate. }
  pose proof (clumped_before k1 b1 _ (clumped_all _ Bk) T1 (mark_quiet _ _ _ N)) as T2. split; [|exact T2].
  destruct M as [[_ M] _]. destruct k1 as [|r k1]; cbn [app].
  - intros _ X. rewrite (mark_quiet _ _ _ N) in X. discriminate.
  - intros X. exfalso. destruct (blocks_in _ _ _ r B (or_introl eq_refl)) as (_ & l & Hl & E). pose proof (rises_in _ _ _ R Hl). lia.
Qed.
Lemma all_clumped rd c names k : (forall n ls, In n names -> g_files c n = Some (map SrcLine ls) -> in_step rd n ls) -> all_blocks c names k -> clumped k.
Proof.
  intros G B. assert (X : clumped k /\ match k with [] => True | r :: _ => bears r = false end); [|apply X].
  revert k G B. induction names as [|n names IH]; intros k G B; cbn [all_blocks] in B; [subst; split; exact I|]. destruct B as (l1 & k1 & k2 & Gn & B1 & B2 & ->).
  destruct (IH k2) as [A1 A2]; [intros m ls H; apply G; right; exact H|exact B2|]. apply (block_clumped rd n l1); auto. apply G; [left; reflexivity|exact Gn].
Qed.
Lemma bears_none k : Forall (fun r => l_body r = LNone) k -> filter bears k = [].
Proof. induction 1 as [|r k E _ IH]; [reflexivity|]. cbn [filter]. unfold bears at 1. rewrite E. exact IH. Qed.
Lemma spread_grouped lb k : spread lb k -> Forall (fun r => shaped (l_body r) /\ unpadded (l_body r)) k -> grouped lb (map own (filter bears k)).
Proof.
  induction 1 as [k K|n b lb k0 k1 k2 K0 K1 K2 S IH]; intros U; [rewrite (bears_none _ K); constructor|].
  apply Forall_app in U as [_ U]. apply Forall_app in U as [U1 U2]. rewrite !filter_app, (bears_none _ K0). cbn [app]. rewrite map_app. constructor.
  - apply Forall_forall. intros x X. apply in_map_iff in X as (r & <- & X). apply filter_In in X as [X _]. rewrite Forall_forall in K1. exact (K1 r X).
  - rewrite map_map. unfold own. cbn [snd]. rewrite <- K2. apply read_records_ok. revert U1. apply Forall_impl. intros r [X Y]. exact (shaped_ok _ X Y).
  - exact (IH U2).
Qed.
