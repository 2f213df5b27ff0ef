(** Lines of statements with conditions and loops. *)
From Coq Require Import String Lia.
From Verif Require Import Base BaseProofs Hash Dict DictProofs DictMore Str Opcodes OpcodesProofs Err State Sym Machine Build Pass
  GenX Gen Inv SymProofs Sem ExprProofs ListRel ExprMore OpProofs OpMore InstrProofs InstrMore DataProofs DataMore DefProofs BadProofs DataWalk LoopProofs IfProofs Layout LineTwo Struct StructRep StructOp StructRun StructExec StructBuild.
Open Scope string_scope.
Open Scope list_scope.
Open Scope Z_scope.
Open Scope m_scope.

(** ** What is seen of a state *)
Definition free (z : state) : state := set_label None (set_changed 0 (set_input [] (set_line 0 (set_ety EtMacro (set_code_gen 0 z))))).
Lemma free_pc z : s_pc (free z) = s_pc z. Proof. reflexivity. Qed.
Lemma free_final z : s_final (free z) = s_final z. Proof. reflexivity. Qed.
Lemma free_total z : s_total (free z) = s_total z. Proof. reflexivity. Qed.
Lemma free_out z : s_out (free z) = s_out z. Proof. reflexivity. Qed.
Lemma free_errs z : s_errs (free z) = s_errs z. Proof. reflexivity. Qed.
Lemma free_set_changed v z : free (set_changed v z) = free z. Proof. reflexivity. Qed.
Lemma free_set_label v z : free (set_label v z) = free z. Proof. reflexivity. Qed.
Lemma free_opened z : s_opened (free z) = s_opened z. Proof. reflexivity. Qed.
Lemma free_org_spec z : s_org_spec (free z) = s_org_spec z. Proof. reflexivity. Qed.
Lemma free_c64 z : s_c64 (free z) = s_c64 z. Proof. reflexivity. Qed.
Lemma free_origin z : s_origin (free z) = s_origin z. Proof. reflexivity. Qed.
Lemma free_cfg z : s_cfg (free z) = s_cfg z. Proof. reflexivity. Qed.
Lemma free_skip z : s_skip (free z) = s_skip z. Proof. reflexivity. Qed.
Lemma free_fstack z : s_fstack (free z) = s_fstack z. Proof. reflexivity. Qed.
Lemma free_macdef z : s_macdef (free z) = s_macdef z. Proof. reflexivity. Qed.
Lemma free_pass z : s_pass (free z) = s_pass z. Proof. reflexivity. Qed.
Lemma free_ety v z : free (set_ety v z) = free z. Proof. reflexivity. Qed.
Lemma free_cg v z : free (set_code_gen v z) = free z. Proof. reflexivity. Qed.
Lemma free_c02 z : s_c02 (free z) = s_c02 z. Proof. reflexivity. Qed.
Lemma free_ill z : s_ill (free z) = s_ill z. Proof. reflexivity. Qed.
Lemma free_line v z : free (set_line v z) = free z. Proof. reflexivity. Qed.
Lemma free_input v z : free (set_input v z) = free z. Proof. reflexivity. Qed.
Lemma free_set_pc v z : free (set_pc v z) = set_pc v (free z). Proof. reflexivity. Qed.
Lemma free_put l z : free (put l z) = put l (free z). Proof. reflexivity. Qed.
Definition mo (s : state) : state := free (obs s).
Definition wr (o : list Z) (z : state) : state := match o with [] => z | _ => if s_final z then writes o z else z end.
Lemma free_header z : free (header z) = header (free z).
Proof. unfold header. rewrite free_total, free_c64, free_origin. destruct ((s_total z =? 0) && s_c64 z); [apply free_put|reflexivity]. Qed.
Lemma writes_free o z : writes o (free z) = free (writes o z).
Proof. unfold writes. rewrite free_opened, free_org_spec. destruct (s_opened z && s_org_spec z); [|reflexivity]. rewrite free_put, free_header. reflexivity. Qed.
Lemma mo_outs o s : free (outs o s) = wr o (mo s).
Proof.
  unfold outs, wr, mo. destruct o as [|x o]; [reflexivity|]. rewrite free_final, obs_get_final. destruct (s_final s); [symmetry; apply writes_free|reflexivity].
Qed.
Lemma wr_form o z : exists a b, wr o z = set_out a (set_total b z).
Proof.
  assert (I : z = set_out (s_out z) (set_total (s_total z) z)) by (destruct z; reflexivity).
  unfold wr. destruct o as [|x o]; [eauto|]. destruct (s_final z); [|eauto]. unfold writes. destruct (_ && _); [|eauto].
  unfold put, header. destruct (_ && _); [|do 2 eexists; reflexivity]. unfold put. cbn [s_out s_total set_out set_total]. do 2 eexists. reflexivity.
Qed.
Lemma pc_final v z : s_final (set_pc v z) = s_final z. Proof. reflexivity. Qed.
Lemma out_final a b z : s_final (set_out a (set_total b z)) = s_final z. Proof. reflexivity. Qed.
Lemma wr_pc o v z : wr o (set_pc v z) = set_pc v (wr o z).
Proof. unfold wr. destruct o; [reflexivity|]. rewrite pc_final. destruct (s_final z); [apply writes_set_pc|reflexivity]. Qed.
Lemma wr_wr a b z : (s_final z = true -> 0 <= s_total z) -> wr b (wr a z) = wr (a ++ b) z.
Proof.
  intros T. destruct (wr_form a z) as (x & y & E). unfold wr at 1. destruct b as [|c b]; [rewrite app_nil_r; reflexivity|].
  assert (Fi : s_final (wr a z) = s_final z) by (rewrite E; apply out_final). rewrite Fi. clear E.
  unfold wr. destruct a as [|d a]; [reflexivity|]. cbn [app]. destruct (s_final z) eqn:F; [|reflexivity]. apply (writes_app (d :: a) (c :: b)). auto.
Qed.
(** a step that writes [o] *)
Definition lobs (o : list Z) (s s' : state) : Prop := mo s' = set_pc (s_pc s + Z.of_nat (length o)) (wr o (mo s)).
Lemma mo_pc s : s_pc (mo s) = s_pc s. Proof. unfold mo. rewrite free_pc. apply obs_get_pc. Qed.
Lemma mo_final s : s_final (mo s) = s_final s. Proof. unfold mo. rewrite free_final. apply obs_get_final. Qed.
Lemma mo_total s : s_total (mo s) = s_total s. Proof. unfold mo. rewrite free_total. apply obs_get_total. Qed.
Lemma mo_out s : s_out (mo s) = s_out s. Proof. unfold mo. rewrite free_out. apply obs_get_out. Qed.
Lemma mo_errs s : s_errs (mo s) = s_errs s. Proof. unfold mo. rewrite free_errs. apply obs_get_errs. Qed.
Lemma mo_opened s : s_opened (mo s) = s_opened s. Proof. unfold mo. rewrite free_opened. apply obs_get_opened. Qed.
Lemma mo_org_spec s : s_org_spec (mo s) = s_org_spec s. Proof. unfold mo. rewrite free_org_spec. apply obs_get_org_spec. Qed.
Lemma mo_c64 s : s_c64 (mo s) = s_c64 s. Proof. unfold mo. rewrite free_c64. apply obs_get_c64. Qed.
Lemma mo_origin s : s_origin (mo s) = s_origin s. Proof. unfold mo. rewrite free_origin. apply obs_get_origin. Qed.
Lemma mo_cfg s : s_cfg (mo s) = s_cfg s. Proof. unfold mo. rewrite free_cfg. apply obs_get_cfg. Qed.
Lemma mo_skip s : s_skip (mo s) = s_skip s. Proof. unfold mo. rewrite free_skip. apply obs_get_skip. Qed.
Lemma mo_fstack s : s_fstack (mo s) = s_fstack s. Proof. unfold mo. rewrite free_fstack. apply obs_get_fstack. Qed.
Lemma mo_macdef s : s_macdef (mo s) = s_macdef s. Proof. unfold mo. rewrite free_macdef. apply obs_get_macdef. Qed.
Lemma mo_pass s : s_pass (mo s) = s_pass s. Proof. unfold mo. rewrite free_pass. apply obs_get_pass. Qed.
Lemma mo_c02 s : s_c02 (mo s) = s_c02 s. Proof. unfold mo. rewrite free_c02. apply obs_get_c02. Qed.
Lemma mo_ill s : s_ill (mo s) = s_ill s. Proof. unfold mo. rewrite free_ill. apply obs_get_ill. Qed.
Lemma mo_field {A} (f : state -> A) o s s' : lobs o s s' -> (forall z, f (mo z) = f z) -> (forall v z, f (set_pc v z) = f z) -> (forall a b z, f (set_out a (set_total b z)) = f z) -> f s' = f s.
Proof. intros L M P W. rewrite <- (M s'), L, P. destruct (wr_form o (mo s)) as (a & b & ->). rewrite W. apply M. Qed.
Lemma get_pc v z : s_pc (set_pc v z) = v. Proof. reflexivity. Qed.
Lemma lobs_pc o s s' : lobs o s s' -> s_pc s' = s_pc s + Z.of_nat (length o).
Proof. intros L. rewrite <- (mo_pc s'), L. apply get_pc. Qed.
Lemma lobs_final o s s' : lobs o s s' -> s_final s' = s_final s. Proof. intros L. apply (mo_field s_final o); auto using mo_final. Qed.
Lemma lobs_total o s s' : lobs o s s' -> 0 <= s_total s -> 0 <= s_total s'.
Proof.
  intros L T. rewrite <- (mo_total s'), L, pc_total. rewrite <- mo_total in T. revert T. generalize (mo s). intros z T. unfold wr. destruct o; [exact T|]. destruct (s_final z); [|exact T]. apply total_writes, T.
Qed.
Lemma lobs_refl s : lobs [] s s.
Proof. unfold lobs. cbn [length wr]. rewrite Z.add_0_r, <- (mo_pc s). symmetry. apply pc_id. Qed.
Lemma lobs_same s s' : mo s' = mo s -> lobs [] s s'.
Proof. intros E. unfold lobs. rewrite E. apply lobs_refl. Qed.
Lemma pc_pc v w z : set_pc v (set_pc w z) = set_pc v z. Proof. reflexivity. Qed.
Lemma lobs_trans a b s s1 s2 : (s_final s = true -> 0 <= s_total s) -> lobs a s s1 -> lobs b s1 s2 -> lobs (a ++ b) s s2.
Proof.
  intros T A B. assert (P : s_pc s1 = s_pc s + Z.of_nat (length a)) by (apply lobs_pc; exact A).
  unfold lobs in *. rewrite B, A, wr_pc, wr_wr by (rewrite mo_final, mo_total; exact T). rewrite P, app_length, Nat2Z.inj_add, Z.add_assoc. apply pc_pc.
Qed.
Lemma mo_eq s s' : obs s' = obs s -> mo s' = mo s. Proof. intros E. unfold mo. rewrite E. reflexivity. Qed.
Lemma mo_sl s s' : sl s s' -> mo s' = mo s.
Proof. intros [_ E _]. unfold mo. rewrite E. apply free_line. Qed.
Lemma mo_eff o s s' : eff o s s' -> lobs o s s'.
Proof. intros [_ E]. unfold lobs. rewrite <- mo_outs. unfold mo. rewrite E, free_cg, free_ety, free_set_pc. reflexivity. Qed.
(** the bytes of the file *)
Lemma put_out l z : s_out (put l z) = rev (map byte l) ++ s_out z. Proof. reflexivity. Qed.
Lemma lobs_written o s s' : lobs o s s' -> o <> [] -> s_org_spec s = true -> data_written o s s'.
Proof.
  intros L Ne Or. unfold data_written. rewrite <- (mo_out s'), L, pc_out, <- (mo_out s), <- (mo_final s), <- (mo_opened s), <- (mo_total s), <- (mo_c64 s), <- (mo_origin s).
  rewrite <- (mo_org_spec s) in Or. revert Or. generalize (mo s). intros z Or. unfold wr. destruct o as [|x o]; [contradiction|].
  destruct (s_final z) eqn:Fi; [|reflexivity]. cbn [andb]. unfold writes. rewrite Or, andb_true_r.
  destruct (s_opened z); [|reflexivity]. rewrite put_out. f_equal. unfold header. destruct ((s_total z =? 0) && s_c64 z); reflexivity.
Qed.

(** ** A line *)
Lemma header_mo z : s_total (header (mo z)) = s_total (header z).
Proof. unfold header. rewrite mo_total, mo_c64, mo_origin. destruct (_ && _); [|apply mo_total]. transitivity (s_total (mo z) + 2); [reflexivity|]. rewrite mo_total. reflexivity. Qed.
Lemma no_gap_mo s s' : mo s' = mo s -> no_gap s -> no_gap s'.
Proof. intros E. unfold no_gap. rewrite <- (header_mo s), <- (header_mo s'), <- (mo_opened s), <- (mo_opened s'), <- (mo_org_spec s), <- (mo_org_spec s'), <- (mo_origin s), <- (mo_origin s'), <- (mo_pc s), <- (mo_pc s'), E. exact (fun H => H). Qed.
Section Cpu.
Variables c02 ill : bool.
Local Notation plainly := (Struct.plainly c02 ill).
Local Notation plainly_all := (Struct.plainly_all c02 ill).
Local Notation runs := (Struct.runs c02 ill).
Local Notation ready := (StructRun.ready c02 ill).
Local Notation fit := (StructBuild.fit c02 ill).
Lemma ready_sl U T env s s' : sl s s' -> ready U T env s -> ready U T env s'.
Proof.
  intros L (Cm & (Or & C1 & C2) & G & H). pose proof (mo_sl _ _ L) as E. split; [exact (calm_sl _ _ L Cm)|].
  split; [rewrite <- (mo_org_spec s'), <- (mo_c02 s'), <- (mo_ill s'), E, mo_org_spec, mo_c02, mo_ill; auto|].
  split; [|apply (holds_same _ _ _ s); [exact H|exact (q_dict _ _ (sl_qt _ _ L))|exact (sl_mean _ _ L)]].
  rewrite <- (mo_final s'), <- (mo_total s'), E, mo_final, mo_total. intros Fi. destruct (G Fi) as [G1 G2]. split; [exact (no_gap_mo _ _ E G1)|exact G2].
Qed.
Lemma holds_knows U T env s : holds U T env s -> knows U s.
Proof. intros H n Hn. destruct (H n Hn) as (P & D & b & M & _). split; [exact P|]. split; [exact D|]. rewrite M. reflexivity. Qed.
Lemma ety_input v z : s_input (set_ety v z) = s_input z. Proof. reflexivity. Qed.
Lemma pc_input v z : s_input (set_pc v z) = s_input z. Proof. reflexivity. Qed.
Lemma line_input v z : s_input (set_line v z) = s_input z. Proof. reflexivity. Qed.
Lemma writes_input o z : s_input (writes o z) = s_input z.
Proof. unfold writes. destruct (_ && _); [|reflexivity]. unfold put, header. destruct (_ && _); reflexivity. Qed.
Lemma outs_input o s : s_input (outs o s) = s_input s.
Proof. unfold outs. destruct o; [apply obs_get_input|]. destruct (s_final s); [rewrite writes_input|]; apply obs_get_input. Qed.
Lemma cg_input v z : s_input (set_code_gen v z) = s_input z. Proof. reflexivity. Qed.
Lemma ety_changed v z : s_changed (set_ety v z) = s_changed z. Proof. reflexivity. Qed.
Lemma pc_changed v z : s_changed (set_pc v z) = s_changed z. Proof. reflexivity. Qed.
Lemma line_changed v z : s_changed (set_line v z) = s_changed z. Proof. reflexivity. Qed.
Lemma cg_changed v z : s_changed (set_code_gen v z) = s_changed z. Proof. reflexivity. Qed.
Lemma writes_changed o z : s_changed (writes o z) = s_changed z.
Proof. unfold writes. destruct (_ && _); [|reflexivity]. unfold put, header. destruct (_ && _); reflexivity. Qed.
Lemma outs_changed o s : s_changed (outs o s) = s_changed s.
Proof. unfold outs. destruct o; [apply obs_get_changed|]. destruct (s_final s); [rewrite writes_changed|]; apply obs_get_changed. Qed.
Lemma eff_input o s s' : eff o s s' -> s_input s' = s_input s.
Proof. intros Ef. rewrite <- (obs_get_input s'), (f_obs _ _ _ Ef), cg_input, ety_input, pc_input. apply outs_input. Qed.
Lemma eff_changed o s s' : eff o s s' -> s_changed s' = s_changed s.
Proof. intros Ef. rewrite <- (obs_get_changed s'), (f_obs _ _ _ Ef), cg_changed, ety_changed, pc_changed. apply outs_changed. Qed.
Lemma sl_input s s' : sl s s' -> s_input s' = s_input s.
Proof. intros L. rewrite <- (obs_get_input s'), (sl_obs _ _ L), line_input. apply obs_get_input. Qed.
Lemma sl_changed s s' : sl s s' -> s_changed s' = s_changed s.
Proof. intros L. rewrite <- (obs_get_changed s'), (sl_obs _ _ L), line_changed. apply obs_get_changed. Qed.
Lemma operands_uses : (forall st, plainly st -> forall e, In e (operands st) -> incl (names e) (uses st)) /\
  (forall l, plainly_all l -> forall e, In e (all_operands l) -> incl (names e) (all_uses l)).
Proof.
  apply all_plainly.
  - intros; contradiction.
  - intros; contradiction.
  - intros instr f _ e He n Hn. cbn [operands uses] in *. apply in_flat_map. eauto.
  - intros; contradiction.
  - intros e b _ _ IH x Hx n Hn. cbn [uses]. apply in_or_app. right. exact (IH x Hx n Hn).
  - intros e b el _ _ IH _ IHe x Hx n Hn. cbn [uses]. rewrite !in_app_iff. apply in_app_or in Hx. destruct Hx as [Hx|Hx]; [right; left; exact (IH x Hx n Hn)|right; right; exact (IHe x Hx n Hn)].
  - intros e b _ _ IH x Hx n Hn. cbn [uses]. apply in_or_app. right. exact (IH x Hx n Hn).
  - intros e b _ _ IH x Hx n Hn. cbn [uses]. apply in_or_app. right. exact (IH x Hx n Hn).
  - intros e b _ _ IH x Hx n Hn. cbn [uses]. apply in_or_app. right. exact (IH x Hx n Hn).
  - intros m e0 e1 step b next _ _ _ _ IH x Hx n Hn. cbn [uses]. do 2 right. rewrite !in_app_iff. do 3 right. exact (IH x Hx n Hn).
  - intros ln st _ IH x Hx n Hn. unfold all_operands, all_uses in *. cbn [flat_map snd] in *. rewrite app_nil_r in *. exact (IH x Hx n Hn).
  - intros l ln st _ IHl _ IH x Hx n Hn. unfold all_operands, all_uses in *. rewrite flat_map_app in *. cbn [flat_map snd] in *. rewrite app_nil_r in *.
    apply in_or_app. apply in_app_or in Hx. destruct Hx as [Hx|Hx]; [left; exact (IHl x Hx n Hn)|right; exact (IH x Hx n Hn)].
Qed.
(** the operands have values where the statement starts *)
Definition valued (env : cstr -> Z) (pc : Z) (st : stmt) : Prop := forall e, In e (operands st) -> val_of env pc e <> None.
Definition tallest (l : list expr) : nat := list_max (map height l).
Lemma ready_fit U T env pc st F s : plainly st -> valued env pc st -> (tallest (operands st) <= F)%nat -> incl (uses st) U -> ready U T env s -> s_pc s = pc -> (1 <= F)%nat -> no_A s -> fit F s (operands st).
Proof.
  intros Pl V HF Iu (Cm & (Or & C1 & C2) & G & H) Pc F1 NA. split; [exact C1|]. split; [exact C2|]. split; [split; [exact F1|exact NA]|]. intros e He.
  assert (In1 : incl (names e) U) by (eapply incl_tran; [exact (proj1 operands_uses st Pl e He)|exact Iu]).
  split; [|split].
  - unfold tallest in HF. apply list_max_le in HF. rewrite Forall_forall in HF. apply HF, in_map, He.
  - intros n Hn. exact (proj1 (H n (In1 n Hn))).
  - rewrite (holds_val _ _ _ _ _ H In1), Pc. pose proof (V e He) as Ve. unfold val_of in Ve. destruct (sem env pc e) as [[v k]|]; [|congruence]. destruct k; try congruence. eauto.
Qed.
Theorem line_run env pc st env' pc' o : runs env pc st env' pc' o -> plainly st -> valued env pc st ->
  exists F0, forall F U T l s, (F0 <= F)%nat -> t_label l = None -> t_stmt l = st -> incl (uses st) U -> incl (targets st) T -> ready U T env s -> no_A s -> s_macdef s = 0 -> s_pc s = pc ->
    exists s', run_line (expand F) l s = Ok (Some tt) s' /\ qt s s' /\ ready U T env' s' /\ lobs o s s' /\ s_pc s' = pc' /\ s_input s' = s_input s /\ s_changed s' = s_changed s.
Proof.
  intros R Pl Vd. destruct (proj1 (exec c02 ill) _ _ _ _ _ _ R) as (F0 & X). exists (S (Nat.max F0 (tallest (operands st)))). intros F U T l s HF Lb St Iu It Rd NA Md Pc.
  unfold run_line. rewrite Lb, St. unfold bind at 1, modify at 1. set (s0 := set_line (t_line l) s). assert (L0 : sl s s0) by apply sl_line. clearbody s0.
  pose proof (ready_sl _ _ _ _ _ L0 Rd) as R0.
  destruct (proj1 (bstmt c02 ill F) st Pl s0 (ready_calm _ _ _ _ _ _ R0) ltac:(rewrite (macdef_sl _ _ L0); exact Md) (knows_incl _ _ _ Iu (holds_knows _ _ _ _ (ready_holds _ _ _ _ _ _ R0)))
    (ready_fit U T env pc st F s0 Pl Vd ltac:(lia) Iu R0 ltac:(rewrite <- (mo_pc s0), (mo_sl _ _ L0), mo_pc; exact Pc) ltac:(lia) ltac:(intros n Hn; rewrite (q_dict _ _ (sl_qt _ _ L0)); exact (NA n Hn)))) as (p & s1 & E1 & L1 & T1).
  unfold bindo, bind at 1. rewrite E1. unfold bind at 1, modify at 1. set (s2 := set_line (t_line l) s1). assert (L2 : sl s1 s2) by apply sl_line. clearbody s2.
  pose proof (sl_trans _ _ _ L0 (sl_trans _ _ _ L1 L2)) as L. pose proof (ready_sl _ _ _ _ _ L Rd) as R2.
  assert (P2 : s_pc s2 = pc) by (rewrite <- (mo_pc s2), (mo_sl _ _ L), mo_pc; exact Pc).
  destruct (X U T s2 p F ltac:(lia) Pl (proj1 (all_qt c02 ill _ _ (sl_qt _ _ L2)) _ _ T1) Iu It R2 P2) as (v & s3 & E3 & D3). unfold bind. rewrite E3. unfold ret.
  assert (Lo : lobs o s2 s3) by (apply mo_eff, D3).
  exists s3. split; [reflexivity|]. split; [exact (qt_trans _ _ _ (sl_qt _ _ L) (f_qt _ _ _ (proj1 D3)))|]. split; [exact (done_ready _ _ _ _ _ _ _ _ _ _ _ R2 D3)|].
  split; [unfold lobs in *; rewrite Lo, (mo_sl _ _ L), P2, Pc; reflexivity|]. split; [exact (done_pc _ _ _ _ _ _ _ _ P2 D3)|].
  destruct D3 as (Ef & _). rewrite (eff_input _ _ _ Ef), (eff_changed _ _ _ Ef), (sl_input _ _ L), (sl_changed _ _ L). split; reflexivity.
Qed.
End Cpu.
