(** Programs of variables, conditions and loops behind one .ORG or * =. *)
From Coq Require Import String Lia.
From Verif Require Import Base BaseProofs Hash Dict DictProofs DictMore Str Opcodes OpcodesProofs Err State Sym Machine Build Pass
  GenX Gen Inv SymProofs Sem ExprProofs ListRel ExprMore OpProofs OpMore InstrProofs InstrMore DataProofs DataMore DefProofs BadProofs DataWalk MacroProofs VarProofs LoopProofs IfProofs PassProofs Colon Layout LineTwo LineProofs LineFive FragAsm
  Struct StructRep StructOp StructRun StructExec StructBuild StructLine StructVar StructLabel.
Open Scope string_scope.
Open Scope list_scope.
Open Scope Z_scope.
Open Scope m_scope.

Section Cpu.
Variables c02 ill : bool.
Local Notation plainly := (Struct.plainly c02 ill).
Local Notation runs := (Struct.runs c02 ill).
(** ** What the lines of a program do *)
(** a line: its label, as it is written, and its statement *)
Definition lined (x : tline) : option cstr * stmt := (t_label x, t_stmt x).
(** [acts D T env pc l env' pc' o L]: the names [D] are known, those of [T] are variables; [L] are the labels of the lines, without the colon they may be written with, and their values *)
Inductive acts : list cstr -> list cstr -> (cstr -> Z) -> Z -> list (option cstr * stmt) -> (cstr -> Z) -> Z -> list Z -> list (cstr * Z) -> Prop :=
| ActNil D T env pc : acts D T env pc [] env pc [] []
| ActVar D T env pc n i v l env' pc' o L : plain n -> starts D env pc n i v -> acts (n :: D) (n :: T) (with_value env n v) pc l env' pc' o L ->
    acts D T env pc ((None, SVar [(n, i)]) :: l) env' pc' o L
| ActStmt D T env pc st l env1 pc1 o1 env2 pc2 o2 L : plainly st -> declared D (uses st) -> declared T (targets st) -> valued env pc st -> runs env pc st env1 pc1 o1 ->
    acts D T env1 pc1 l env2 pc2 o2 L -> acts D T env pc ((None, st) :: l) env2 pc2 (o1 ++ o2) L
| ActLabel D T env pc t st l env1 pc1 o1 env2 pc2 o2 L (n := uncolon t) : plain n -> 0 <= pc <= 65535 -> behind st -> plainly st -> valued env pc st -> runs (with_value env n pc) pc st env1 pc1 o1 ->
    acts (n :: D) T env1 pc1 l env2 pc2 o2 L -> acts D T env pc ((Some t, st) :: l) env2 pc2 (o1 ++ o2) ((n, pc) :: L).

(** the variables declared; the labels *)
Definition vars (l : list (option cstr * stmt)) : list cstr := flat_map (fun x => match snd x with SVar l => map fst l | _ => [] end) l.
Definition labels (l : list (option cstr * stmt)) : list cstr := flat_map (fun x : option cstr * stmt => match fst x with Some t => [uncolon t] | None => [] end) l.
Lemma plainly_no_vars a st l : plainly st -> vars ((a, st) :: l) = vars l.
Proof. intros P. inversion P; reflexivity. Qed.

Lemma acts_plain D T env pc l env' pc' o L : acts D T env pc l env' pc' o L -> (forall n, In n (vars l) -> plain n) /\ (forall n v, In (n, v) L -> plain n) /\ map fst L = labels l.
Proof.
  induction 1 as [|D T env pc n i v l env' pc' o L P G _ IH|D T env pc st l env1 pc1 o1 env2 pc2 o2 L Pl Dc Dt Vd R _ IH|D T env pc t st l env1 pc1 o1 env2 pc2 o2 L n Pn Rg Bh Pl Vd R _ IH];
    [split; [intros n []|split; [intros n v []|reflexivity]]| | |]; destruct IH as (IH1 & IH2 & IH3).
  - split; [|split; [exact IH2|exact IH3]]. intros m Hm. cbn in Hm. destruct Hm as [<-|Hm]; [exact P|apply IH1, Hm].
  - split; [|split; [exact IH2|exact IH3]]. intros m Hm. rewrite plainly_no_vars in Hm by exact Pl. apply IH1, Hm.
  - split; [|split; [|cbn [map fst labels flat_map app]; f_equal; exact IH3]].
    + intros m Hm. rewrite plainly_no_vars in Hm by exact Pl. apply IH1, Hm.
    + intros m v [Hm|Hm]; [injection Hm as <- <-; exact Pn|exact (IH2 m v Hm)].
Qed.

(** ** One line *)
Definition going (s : state) : Prop := (s_org_spec s = true /\ s_c02 s = c02 /\ s_ill s = ill) /\ (s_final s = true -> no_gap s /\ 0 <= s_total s) /\ s_macdef s = 0 /\ s_skip s = false /\ s_fstack s = [].
Lemma going_mo s s' : mo s' = mo s -> going s -> going s'.
Proof.
  intros E (A & B & C & D & G). split; [rewrite <- (mo_org_spec s'), <- (mo_c02 s'), <- (mo_ill s'), E, mo_org_spec, mo_c02, mo_ill; exact A|].
  split; [rewrite <- (mo_final s'), <- (mo_total s'), E, mo_final, mo_total; intros Fi; destruct (B Fi) as [B1 B2]; split; [exact (no_gap_mo _ _ E B1)|exact B2]|].
  split; [rewrite <- (mo_macdef s'), E, mo_macdef; exact C|]. split; [rewrite <- (mo_skip s'), E, mo_skip; exact D|]. rewrite <- (mo_fstack s'), E, mo_fstack; exact G.
Qed.
Lemma stock_from D T U W env env' s s' : stock D T env s -> declared D U -> declared T W ->
  (forall U' W', incl U U' -> incl W W' -> holds U' W' env s -> holds U' W' env' s') -> stock D T env' s'.
Proof.
  intros Sk Dc Dt X k Pk Xk.
  assert (Dk : declared D (U ++ [k])). { intros m Hm. apply in_app_or in Hm. destruct Hm as [Hm|[<-|[]]]; [apply Dc, Hm|split; [exact Pk|exact Xk]]. }
  destruct (X (U ++ [k]) W (incl_appl _ (incl_refl _)) (incl_refl _) (stock_holds _ _ _ _ _ _ Sk Dk Dt) k ltac:(apply in_or_app; right; left; reflexivity)) as (_ & B & b & M & _).
  split; [exact B|]. exists b. split; [exact M|]. intros Tk.
  assert (Dw : declared T (W ++ [k])). { intros m Hm. apply in_app_or in Hm. destruct Hm as [Hm|[<-|[]]]; [apply Dt, Hm|split; [exact Pk|exact Tk]]. }
  destruct (X (U ++ [k]) (W ++ [k]) (incl_appl _ (incl_refl _)) (incl_appl _ (incl_refl _)) (stock_holds _ _ _ _ _ _ Sk Dk Dw) k ltac:(apply in_or_app; right; left; reflexivity)) as (_ & _ & b' & M' & Hb).
  rewrite M in M'. injection M' as ->. apply Hb. apply in_or_app; right; left; reflexivity.
Qed.
Section Lines.
Variables (V : list cstr) (LL : list (cstr * Z)).
Hypothesis Ap : apart V LL.
Hypothesis Pv : forall n, In n V -> plain n.
Local Notation sound := (StructVar.sound V LL).
Lemma shape_no_A s : calm s -> shape V LL s -> no_A s.
Proof.
  intros (T & _) A n Hn. assert (Vn : valids n) by (destruct Hn as [<-|[<-|[]]]; repeat constructor; unfold validc; cbn; lia).
  assert (An : fk n = fk (cs "A")) by (destruct Hn as [<-|[<-|[]]]; reflexivity).
  assert (X : forall m, plain m -> fk m <> fk n).
  { intros m Pm E. rewrite An in E. destruct Pm as (Pm & _ & _ & _ & _ & NA). apply NA.
    apply stricmp_0_iff; [exact Pm|repeat constructor; unfold validc; cbn; lia|exact E]. }
  destruct (dict_search (s_dict s) n) eqn:D; [|reflexivity]. exfalso. destruct (dl s n) as [y|] eqn:Dl; [|apply (proj2 (dl_some s n T Vn)); [congruence|exact Dl]].
  destruct (A n y Vn Dl) as [(_ & m & Im & E)|(m & v & Im & E & _)]; [exact (X m (Pv m Im) E)|exact (X m (proj1 Ap m v Im) E)].
Qed.
Lemma stmt_line D T env pc st env' pc' o : runs env pc st env' pc' o -> plainly st -> declared D (uses st) -> declared T (targets st) -> valued env pc st ->
  exists F0, forall F l s, (F0 <= F)%nat -> t_label l = None -> t_stmt l = st -> sound D T env s -> going s -> s_pc s = pc ->
    exists s', run_line (expand F) l s = Ok (Some tt) s' /\ sound D T env' s' /\ going s' /\ lobs o s s' /\ s_pc s' = pc' /\ s_input s' = s_input s /\ s_changed s' = s_changed s /\
      (forall m w, In (m, w) LL -> meaning s m = dcore w -> meaning s' m = dcore w).
Proof.
  intros R Pl Dc Dt Vd. destruct (line_run c02 ill _ _ _ _ _ _ R Pl Vd) as (F0 & X). exists F0. intros F l s HF Lb St (Cm & A & Sk) (G1 & G2 & G3 & G4 & G5) Pc.
  destruct (X F (uses st) (targets st) l s HF Lb St (incl_refl _) (incl_refl _)) as (s' & E & Q & Rd & Lo & P' & I' & C'); auto using shape_no_A.
  { split; [exact Cm|]. split; [exact G1|]. split; [exact G2|]. exact (stock_holds _ _ _ _ _ _ Sk Dc Dt). }
  exists s'. split; [exact E|]. split; [|split; [|split; [exact Lo|split; [exact P'|split; [exact I'|split; [exact C'|]]]]]].
  - split; [exact (calm_qt _ _ Q Cm)|]. split; [exact (shape_qt _ _ _ _ Q A)|]. apply (stock_from D T (uses st) (targets st) env env' s s' Sk Dc Dt).
    intros U' W' Iu Iw Hd. destruct (X F U' W' l s HF Lb St Iu Iw) as (s2 & E2 & _ & Rd2 & _); auto using shape_no_A.
    { split; [exact Cm|]. split; [exact G1|]. split; [exact G2|exact Hd]. }
    assert (s2 = s') as -> by congruence. apply Rd2.
  - destruct Rd as (_ & R1 & R2 & _). split; [exact R1|]. split; [exact R2|]. split; [rewrite (mo_field s_macdef o s s' Lo mo_macdef); auto|].
    split; [rewrite (mo_field s_skip o s s' Lo mo_skip); auto|rewrite (mo_field s_fstack o s s' Lo mo_fstack); auto].
  - intros m w Im. exact (fixed_qt s s' m w Cm Q (proj1 Ap m w Im)).
Qed.
Lemma behind_none st : behind st -> uses st = [] /\ targets st = [].
Proof. destruct st; cbn [behind]; try contradiction; intros B; split; try exact B; reflexivity. Qed.
Lemma label_line D T env pc t st env' pc' o (n := uncolon t) : runs (with_value env n pc) pc st env' pc' o -> plainly st -> behind st -> valued env pc st -> In (n, pc) LL -> 0 <= pc <= 65535 -> incl T V ->
  exists F0, forall F l s, (F0 <= F)%nat -> t_label l = Some t -> t_stmt l = st -> sound D T env s -> going s -> s_pc s = pc ->
    exists s', run_line (expand F) l s = Ok (Some tt) s' /\ sound (n :: D) T env' s' /\ going s' /\ lobs o s s' /\ s_pc s' = pc' /\ s_input s' = s_input s /\
      (meaning s n = dcore pc -> s_changed s' = s_changed s) /\ meaning s' n = dcore pc /\
      (forall m w, In (m, w) LL -> meaning s m = dcore w -> meaning s' m = dcore w).
Proof.
  intros R Pl Bh Vd Il Rg It. destruct (behind_none st Bh) as [Us Tg]. pose proof (proj1 Ap n pc Il) as P.
  destruct (proj1 (exec c02 ill) _ _ _ _ _ _ R) as (F0 & X). exists (F0 + tallest (operands st) + 2)%nat. intros F l s HF Lb St (Cm & A & Sk) Go Pc.
  destruct F as [|[|F]]; [lia|lia|]. set (FF := S (S F)) in *. unfold run_line. rewrite Lb, St. unfold bind at 1, modify at 1. set (s0 := set_line (t_line l) s). assert (L0 : sl s s0) by apply sl_line. clearbody s0.
  pose proof Go as (G1 & G2 & G3 & G4 & G5).
  assert (Md0 : s_macdef s0 = 0) by (rewrite (macdef_sl _ _ L0); exact G3).
  destruct (first_any V LL Ap t s0 Pv (calm_sl _ _ L0 Cm) (shape_qt _ _ _ _ (sl_qt _ _ L0) A) P Md0) as (s1 & E1 & L1). unfold bind at 1. rewrite E1.
  pose proof (sl_trans _ _ _ L0 L1) as L01. assert (Rd1 : ready c02 ill [] [] env s1).
  { apply (ready_sl c02 ill [] [] env s s1 L01). split; [exact Cm|]. split; [exact G1|]. split; [exact G2|]. intros m []. }
  destruct (proj1 (bstmt c02 ill FF) st Pl s1 (ready_calm _ _ _ _ _ _ Rd1) ltac:(rewrite (macdef_sl _ _ L1); exact Md0) ltac:(rewrite Us; intros m [])
    (ready_fit c02 ill [] [] env pc st FF s1 Pl Vd ltac:(unfold FF; lia) ltac:(rewrite Us; apply incl_refl) Rd1 ltac:(rewrite <- (mo_pc s1), (mo_sl _ _ L01), mo_pc; exact Pc) ltac:(unfold FF; lia)
      (shape_no_A s1 (calm_sl _ _ L01 Cm) (shape_qt _ _ _ _ (sl_qt _ _ L01) A)))) as (p & s2 & E2 & L2 & T2).
  rewrite (behind_first _ _ Bh). unfold bindo, bind at 1. rewrite E2. unfold bind at 1, modify at 1. set (s3 := set_line (t_line l) s2). assert (L3 : sl s2 s3) by apply sl_line. clearbody s3.
  pose proof (proj1 (all_qt c02 ill _ _ (sl_qt _ _ L3)) _ _ T2) as T3. pose proof (sl_trans _ _ _ L01 (sl_trans _ _ _ L2 L3)) as L03. pose proof (near_sl _ _ L03) as N03.
  unfold with_label. rewrite (bind_bind (label_def t)). unfold bind at 1. destruct (label_def_q t s3 (calm_sl _ _ L03 Cm) P) as (d & a & c & s4 & E4 & N4 & Nd & Na & Nc). rewrite E4.
  pose proof (near_trans _ _ _ N03 N4) as N04. pose proof N04 as (Q4 & M4 & Me4 & I4 & C4).
  assert (P4 : s_pc s4 = pc) by (rewrite <- (mo_pc s4), M4, mo_pc; exact Pc).
  destruct (label_head V LL Ap F t d a c (s_pc s3) D T env s4 (calm_qt _ _ Q4 Cm) (shape_qt _ _ _ _ Q4 A) ltac:(rewrite P4; exact Il) ltac:(rewrite P4; exact Rg) It (stock_near _ _ _ _ _ N04 Sk) Nd Na Nc)
    as (s5 & s6 & E6 & N5 & G6 & (Cm6 & A6 & Sk6) & M6 & I6 & C6 & Me6). fold n in Sk6, C6, Me6. rewrite P4 in *.
  rewrite bind_bind. unfold bind at 1. fold FF in E6. rewrite E6.
  assert (T6 : stied c02 ill s6 p st) by (apply (stied_gw c02 ill s5 s6 p st G6 Bh), (proj1 (all_qt c02 ill _ _ (proj1 N5))), (proj1 (all_qt c02 ill _ _ (proj1 N4))), T3).
  assert (Mo6 : mo s6 = mo s) by (rewrite M6; exact M4). pose proof (going_mo _ _ Mo6 Go) as Go6. pose proof Go6 as (H1 & H2 & H3 & H4 & H5).
  assert (P6 : s_pc s6 = pc) by (rewrite <- (mo_pc s6), Mo6, mo_pc; exact Pc).
  assert (Rd6 : ready c02 ill [] [] (with_value env n pc) s6) by (split; [exact Cm6|]; split; [exact H1|]; split; [exact H2|]; intros m []).
  destruct (X [] [] s6 p FF ltac:(unfold FF; lia) Pl T6 ltac:(rewrite Us; apply incl_refl) ltac:(rewrite Tg; apply incl_refl) Rd6 P6) as (v & s7 & E7 & D7). rewrite bind_bind. unfold bind, ret. rewrite E7.
  pose proof D7 as (Ef & _). pose proof (f_qt _ _ _ Ef) as Q7. assert (Lo : lobs o s6 s7) by (apply mo_eff, Ef).
  assert (Lo' : lobs o s s7) by (unfold lobs in *; rewrite Lo, Mo6, P6, Pc; reflexivity).
  exists s7. split; [reflexivity|]. split; [|split; [|split; [exact Lo'|split; [exact (done_pc _ _ _ _ _ _ _ _ P6 D7)|split; [|split; [|split]]]]]].
  - split; [exact (calm_qt _ _ Q7 Cm6)|]. split; [exact (shape_qt _ _ _ _ Q7 A6)|]. apply (stock_from (n :: D) T [] [] (with_value env n pc) env' s6 s7 Sk6 (declared_nil _) (declared_nil _)).
    intros U' W' _ _ Hd. destruct (X U' W' s6 p FF ltac:(unfold FF; lia) Pl T6 ltac:(rewrite Us; intros m []) ltac:(rewrite Tg; intros m [])) as (v' & s8 & E8 & D8); auto.
    { split; [exact Cm6|]. split; [exact H1|]. split; [exact H2|exact Hd]. }
    assert (s8 = s7) as -> by congruence. apply D8.
  - destruct (done_ready _ _ _ _ _ _ _ _ _ _ _ Rd6 D7) as (_ & R1 & R2 & _). split; [exact R1|]. split; [exact R2|]. split; [rewrite (mo_field s_macdef o s6 s7 Lo mo_macdef); auto|].
    split; [rewrite (mo_field s_skip o s6 s7 Lo mo_skip); auto|rewrite (mo_field s_fstack o s6 s7 Lo mo_fstack); auto].
  - rewrite (eff_input _ _ _ Ef), I6. exact I4.
  - intros Mn. rewrite (eff_changed _ _ _ Ef), C6; [exact C4|]. rewrite (Me4 n P). exact Mn.
  - apply (fixed_qt s6 s7 n pc Cm6 Q7 P). rewrite (Me6 n P). destruct (list_eq_dec _ _ _); [reflexivity|congruence].
  - intros m w Im Mw. pose proof (proj1 Ap m w Im) as Pm. apply (fixed_qt s6 s7 m w Cm6 Q7 Pm). rewrite (Me6 m Pm). destruct (list_eq_dec _ _ _) as [Em|_]; [|rewrite (Me4 m Pm); exact Mw].
    f_equal. exact (one_value V LL n pc w m Ap Il Im (eq_sym Em)).
Qed.

(** ** All lines *)
Lemma null_set s : exists r, list_null s = Ok tt (set_list r s). Proof. eexists. destruct s; reflexivity. Qed.
Lemma when_null b s : exists r, when b list_null s = Ok tt (set_list r s).
Proof. destruct b; [apply null_set|]. exists (s_list s). destruct s; reflexivity. Qed.
Lemma mo_set_list r s : mo (set_list r s) = mo s. Proof. apply mo_eq, obs_set_list. Qed.
Lemma mo_set_input r s : mo (set_input r s) = mo s. Proof. unfold mo. rewrite obs_set_input. apply free_input. Qed.
Lemma mo_set_line r s : mo (set_line r s) = mo s. Proof. unfold mo. rewrite obs_set_line. apply free_line. Qed.
Lemma sound_frame D W env s s' : s_dict s' = s_dict s -> s_syms s' = s_syms s -> s_scope s' = s_scope s -> s_stop s' = s_stop s -> sound D W env s -> sound D W env s'.
Proof.
  intros E1 E2 E3 E4 ((T & Sc & St) & A & Sk). split; [split; [exact (tab_same _ _ E1 E3 E2 T)|split; congruence]|].
  split; [apply (shape_keeps _ _ s); [apply keeps_same; auto|exact A]|]. intros n P X. destruct (Sk n P X) as (B & b & C & Hb). rewrite E1. split; [exact B|].
  exists b. split; [|exact Hb]. rewrite <- C. unfold meaning, resolve, dl. rewrite E1, E2, E3. reflexivity.
Qed.
Lemma parse_end F fuel s : s_input s = [[]] -> s_fstack s = [] ->
  exists s', parse_input F (S (S fuel)) s = Ok tt s' /\ (mo s' = mo s /\ s_changed s' = s_changed s) /\ s_dict s' = s_dict s /\ s_syms s' = s_syms s /\ s_scope s' = s_scope s /\ s_stop s' = s_stop s.
Proof.
  intros I St. cbn [parse_input]. unfold bind at 1, gets at 1. rewrite I. unfold bind at 1, end_of_file. unfold bind at 1, modify at 1. unfold bind at 1, gets at 1.
  destruct (when_null (s_final (set_line (s_line s + 1) s)) (set_line (s_line s + 1) s)) as (r & E). unfold bind at 1. rewrite E. unfold bind at 1, modify at 1. unfold bind at 1, gets at 1.
  cbn [s_fstack s_input set_input set_list set_line]. rewrite I, St. cbn [tl]. unfold ret at 1. unfold bind at 1, gets at 1. cbn [s_input set_input]. unfold ret.
  eexists. split; [reflexivity|]. split; [split; [rewrite mo_set_input, mo_set_list, mo_set_line; reflexivity|reflexivity]|]. auto.
Qed.
Lemma parse_step F fuel s l ls s1 : s_input s = [SrcLine l :: ls] -> s_skip s = false -> run_line (expand F) l (set_input [ls] s) = Ok (Some tt) s1 ->
  parse_input F (S fuel) s = parse_input F fuel s1.
Proof.
  intros I Sk E. cbn [parse_input]. unfold bind at 1, gets at 1. rewrite I. unfold bind at 1, modify at 1. unfold bind at 1. unfold read_line. unfold bind at 1, gets at 1. unfold bind at 1, gets at 1.
  change (s_skip (set_input [ls] s)) with (s_skip s). rewrite Sk, E. reflexivity.
Qed.
Theorem lines_run D T env pc l env' pc' o L : acts D T env pc l env' pc' o L -> incl (vars l) V -> incl T V -> incl L LL ->
  exists F0, forall F fuel ls s, (F0 <= F)%nat -> (length ls + 2 <= fuel)%nat -> map lined ls = l ->
    sound D T env s -> going s -> s_pc s = pc -> s_input s = [map SrcLine ls] ->
    exists D' T' s', parse_input F fuel s = Ok tt s' /\ sound D' T' env' s' /\ (incl (vars l ++ labels l ++ D) D' /\ incl (vars l ++ T) T') /\ lobs o s s' /\ s_pc s' = pc' /\
      ((forall n v, In (n, v) L -> meaning s n = dcore v) -> s_changed s' = s_changed s) /\
      (forall n v, In (n, v) L -> meaning s' n = dcore v) /\ (forall n v, In (n, v) LL -> meaning s n = dcore v -> meaning s' n = dcore v).
Proof.
  induction 1 as [D T env pc|D T env pc n i v l env' pc' o L P G _ IH|D T env pc st l env1 pc1 o1 env2 pc2 o2 L Pl Dc Dt Vd R _ IH|D T env pc t st l env1 pc1 o1 env2 pc2 o2 L n Pn Rg Bh Pl Vd R _ IH]; intros Iv It Il.
  - exists 0%nat. intros F fuel ls s _ Hf El Sd Go Pc I. destruct ls; [|discriminate]. destruct fuel as [|[|fuel]]; [cbn in Hf; lia|cbn in Hf; lia|].
    destruct (parse_end F fuel s I ltac:(apply Go)) as (s' & E & (M & Ch) & E1 & E2 & E3 & E4). exists D, T, s'. split; [exact E|]. split; [exact (sound_frame _ _ _ _ _ E1 E2 E3 E4 Sd)|].
    split; [split; apply incl_refl|]. split; [apply lobs_same, M|]. split; [rewrite <- (mo_pc s'), M, mo_pc; exact Pc|]. split; [intros _; exact Ch|]. split; [intros n v []|].
    intros n v _ Mn. rewrite <- Mn. unfold meaning, resolve, dl. rewrite E1, E2, E3. reflexivity.
  - assert (In n V) as Ivn by (apply Iv; left; reflexivity).
    destruct IH as (F0 & IH); [intros m Hm; apply Iv; right; exact Hm|intros m [<-|Hm]; auto|exact Il|].
    exists (Nat.max F0 (S (S (var_height i)))). intros F fuel ls s HF Hf El Sd Go Pc I. destruct ls as [|x ls]; [discriminate|]. cbn [map length] in *. injection El as Lx Ex El.
    destruct fuel as [|fuel]; [lia|]. destruct F as [|[|F]]; [lia|lia|].
    assert (Sd1 : sound D T env (set_input [map SrcLine ls] s)) by (apply (sound_frame D T env s); auto). subst l pc.
    destruct (var_line V LL Ap D T env (s_pc s) n i v F x (set_input [map SrcLine ls] s) P Ivn G ltac:(lia) Lx Ex Sd1 eq_refl) as (s1 & E1 & Sd2 & M1 & I1 & C1 & X1).
    rewrite (parse_step _ _ _ _ _ s1 I ltac:(apply Go) E1). rewrite mo_set_input in M1.
    destruct (IH (S (S F)) fuel ls s1 ltac:(lia) ltac:(lia) eq_refl Sd2 (going_mo _ _ M1 Go) ltac:(rewrite <- (mo_pc s1), M1; apply mo_pc) I1) as (D' & T' & s' & E2 & Sd3 & (Ic & Ict) & Lo & P' & C2 & A2 & X2).
    exists D', T', s'. split; [exact E2|]. split; [exact Sd3|]. split; [|split; [|split; [exact P'|split; [|split; [exact A2|]]]]].
    + split; intros m Hm; [apply Ic|apply Ict]; cbn in Hm; rewrite !in_app_iff in *; cbn; tauto.
    + unfold lobs in *. rewrite Lo, M1, <- (mo_pc s1), M1, mo_pc. reflexivity.
    + intros K. rewrite C2; [exact C1|]. intros m w Im. apply X1; [apply Il, Im|]. exact (K m w Im).
    + intros m w Im Mm. apply X2; [exact Im|]. apply X1; [exact Im|exact Mm].
  - destruct IH as (F0 & IH); [intros m Hm; apply Iv; rewrite plainly_no_vars by exact Pl; exact Hm|exact It|exact Il|].
    destruct (stmt_line D T env pc st env1 pc1 o1 R Pl Dc Dt Vd) as (F1 & X). exists (Nat.max F0 F1). intros F fuel ls s HF Hf El Sd Go Pc I. destruct ls as [|x ls]; [discriminate|]. cbn [map length] in *. injection El as Lx Ex El.
    destruct fuel as [|fuel]; [lia|]. subst l.
    assert (Sd1 : sound D T env (set_input [map SrcLine ls] s)) by (apply (sound_frame D T env s); auto).
    destruct (X F x (set_input [map SrcLine ls] s) ltac:(lia) Lx Ex Sd1 (going_mo s (set_input [map SrcLine ls] s) (mo_set_input _ s) Go) Pc) as (s1 & E1 & Sd2 & Go1 & L1 & P1 & I1 & C1 & X1).
    rewrite (parse_step _ _ _ _ _ s1 I ltac:(apply Go) E1).
    destruct (IH F fuel ls s1 ltac:(lia) ltac:(lia) eq_refl Sd2 Go1 P1 I1) as (D' & T' & s' & E2 & Sd3 & (Ic & Ict) & Lo & P' & C2 & A2 & X2).
    exists D', T', s'. split; [exact E2|]. split; [exact Sd3|]. split; [rewrite plainly_no_vars by exact Pl; split; [exact Ic|exact Ict]|]. split; [|split; [exact P'|split; [|split; [exact A2|]]]].
    + assert (L1' : lobs o1 s s1) by (unfold lobs in *; rewrite L1, mo_set_input; reflexivity).
      apply (lobs_trans o1 o2 s s1 s'); [|exact L1'|exact Lo]. intros Fi. apply (proj1 (proj2 Go) Fi).
    + intros K. rewrite C2; [exact C1|]. intros m w Im. apply X1; [apply Il, Im|]. exact (K m w Im).
    + intros m w Im Mm. apply X2; [exact Im|]. apply X1; [exact Im|exact Mm].
  - destruct IH as (F0 & IH); [intros m Hm; apply Iv; rewrite plainly_no_vars by exact Pl; exact Hm|exact It|intros m Hm; apply Il; right; exact Hm|].
    destruct (label_line D T env pc t st env1 pc1 o1 R Pl Bh Vd (Il _ (or_introl eq_refl)) Rg It) as (F1 & X). exists (Nat.max F0 F1). intros F fuel ls s HF Hf El Sd Go Pc I. destruct ls as [|x ls]; [discriminate|]. cbn [map length] in *. injection El as Lx Ex El.
    destruct fuel as [|fuel]; [lia|]. subst l.
    assert (Sd1 : sound D T env (set_input [map SrcLine ls] s)) by (apply (sound_frame D T env s); auto).
    destruct (X F x (set_input [map SrcLine ls] s) ltac:(lia) Lx Ex Sd1 (going_mo s (set_input [map SrcLine ls] s) (mo_set_input _ s) Go) Pc) as (s1 & E1 & Sd2 & Go1 & L1 & P1 & I1 & C1 & H1 & X1).
    rewrite (parse_step _ _ _ _ _ s1 I ltac:(apply Go) E1).
    destruct (IH F fuel ls s1 ltac:(lia) ltac:(lia) eq_refl Sd2 Go1 P1 I1) as (D' & T' & s' & E2 & Sd3 & (Ic & Ict) & Lo & P' & C2 & A2 & X2).
    exists D', T', s'. split; [exact E2|]. split; [exact Sd3|]. split; [|split; [|split; [exact P'|split; [|split]]]].
    + rewrite plainly_no_vars by exact Pl. split; [|exact Ict]. intros m Hm. apply Ic. cbn [labels flat_map fst app] in Hm. fold (labels (map lined ls)) in Hm. rewrite !in_app_iff in *. cbn in *. rewrite in_app_iff in Hm. tauto.
    + assert (L1' : lobs o1 s s1) by (unfold lobs in *; rewrite L1, mo_set_input; reflexivity).
      apply (lobs_trans o1 o2 s s1 s'); [|exact L1'|exact Lo]. intros Fi. apply (proj1 (proj2 Go) Fi).
    + intros K. rewrite C2; [apply C1, (K n pc); left; reflexivity|]. intros m w Im. apply X1; [apply Il; right; exact Im|]. apply K. right. exact Im.
    + intros m w [Im|Im]; [injection Im as <- <-; apply X2; [apply Il; left; reflexivity|exact H1]|exact (A2 m w Im)].
    + intros m w Im Mm. apply X2; [exact Im|]. apply X1; [exact Im|exact Mm].
Qed.

End Lines.

(** ** The line with the address *)
Definition placed (base : Z) (ns : list node) (once : bool) (l : tline) (s : state) : state :=
  set_org_once once (set_org_spec true (set_origin base (set_pc base (set_pc_assigned (s_pc_assigned s + 1) (set_nodes ns (set_line (t_line l) s)))))).
Definition org_stmt (base : Z) (st : stmt) : Prop := st = SOrg (EInt base) \/ st = SPcAssign (EInt base).
Lemma expand_con F s p v l : s_stop s = false -> nth_error (s_nodes s) p = Some (mkNode (KCon v false) l) -> expand (S F) p s = Ok v s.
Proof. intros St N. rewrite (expand_eq _ _ _ _ St N). reflexivity. Qed.
Lemma org_line base F l s : org_stmt base (t_stmt l) -> t_label l = None -> s_stop s = false -> s_org_once s = false ->
  exists ns b, run_line (expand (S (S F))) l s = Ok (Some tt) (placed base ns b l s).
Proof.
  intros O Lb St On. unfold run_line. rewrite Lb. unfold bind at 1, modify at 1. set (s0 := set_line (t_line l) s).
  set (q := length (s_nodes s0)). set (s1 := set_nodes (s_nodes s0 ++ [mkNode (KCon base false) []]) s0).
  assert (X : forall o, exists p s2, opr1 o (EInt base) s0 = Ok (Some p) s2 /\ p = length (s_nodes s1) /\ s2 = set_nodes (s_nodes s1 ++ [mkNode (KOpr o) [q]]) s1).
  { intros o. unfold opr1. cbn [build_expr]. unfold bindo, bind at 1, some, bind, constant_node. rewrite alloc_eq. fold q s1. unfold ret. rewrite alloc_eq. eauto. }
  assert (Y : forall o p s2, p = length (s_nodes s1) -> s2 = set_nodes (s_nodes s1 ++ [mkNode (KOpr o) [q]]) s1 ->
    nth_error (s_nodes s2) p = Some (mkNode (KOpr o) [q]) /\ nth_error (s_nodes s2) q = Some (mkNode (KCon base false) [])).
  { intros o p s2 -> ->. split; [apply alloc_nth|]. cbn [s_nodes set_nodes]. rewrite nth_error_app1 by (unfold s1; cbn [s_nodes set_nodes]; rewrite app_length; cbn; unfold q; lia). apply alloc_nth. }
  destruct O as [O|O]; rewrite O; cbn [build_stmt].
  - destruct (X OOrg) as (p & s2 & E & Ep & E2). destruct (Y OOrg p s2 Ep E2) as [Np Nq]. unfold bindo at 1, bind at 1. rewrite E. unfold bind at 1, modify at 1.
    set (s3 := set_line (t_line l) s2). assert (St3 : s_stop s3 = false) by (unfold s3; rewrite E2; exact St). assert (On3 : s_org_once s3 = false) by (unfold s3; rewrite E2; exact On).
    unfold bind at 1. rewrite (expand_eq _ _ _ _ St3 Np). unfold x_node. cbn [n_kind]. unfold x_opr, x_org. unfold bind at 1, modify at 1. unfold bind at 1, gets at 1.
    change (s_org_once (set_pc_assigned ?a ?b)) with (s_org_once b). rewrite On3. unfold opn. cbn [nth_error n_ops]. unfold bind at 1, ret at 1. unfold bind at 1.
    rewrite (expand_con F (set_pc_assigned (s_pc_assigned s3 + 1) s3) q base [] St3 Nq). unfold bind, modify, ret. exists (s_nodes s2), true. clear - E2. unfold s3. rewrite E2. unfold s1, s0. destruct s. reflexivity.
  - destruct (X OPcAssign) as (p & s2 & E & Ep & E2). destruct (Y OPcAssign p s2 Ep E2) as [Np Nq]. unfold bindo at 1, bind at 1. rewrite E. unfold bind at 1, modify at 1.
    set (s3 := set_line (t_line l) s2). assert (St3 : s_stop s3 = false) by (unfold s3; rewrite E2; exact St).
    unfold bind at 1. rewrite (expand_eq _ _ _ _ St3 Np). unfold x_node. cbn [n_kind]. unfold x_opr, x_pc_assign. unfold bind at 1, modify at 1.
    unfold opn. cbn [nth_error n_ops]. unfold bind at 1, ret at 1. unfold bind at 1.
    rewrite (expand_con F (set_pc_assigned (s_pc_assigned s3 + 1) s3) q base [] St3 Nq). unfold bind, modify, ret. exists (s_nodes s2), (s_org_once s). clear - E2. unfold s3. rewrite E2. unfold s1, s0. destruct s. reflexivity.
Qed.

(** ** A pass *)
Lemma record_dl s k y : tab s -> In (k, y) (all_records s) -> valids k /\ dl s k = Some y.
Proof.
  intros T I. unfold all_records in I. apply in_flat_map in I. destruct I as (e & Ie & Iy). destruct (nth_error (s_syms s) (snd e)) as [w|] eqn:W; [|contradiction].
  destruct Iy as [Iy|[]]. injection Iy as <- <-. pose proof (concat_ok _ _ (proj1 (proj1 (proj1 T)))) as C. rewrite Forall_forall in C. destruct (C e Ie) as [V _]. split; [exact V|].
  rewrite (dl_recs s (fst e) (proj1 T) V). pose proof (proj1 (proj2 T) (fst e) V) as S1. unfold single in S1. unfold recs, vals in *.
  assert (If : In e (stackof (s_dict s) (fst e))) by (apply filter_In; split; [exact Ie|apply matches_fk; reflexivity]).
  destruct (stackof (s_dict s) (fst e)) as [|e1 [|e2 r]]; [contradiction| |cbn in S1; lia]. destruct If as [->|[]]. cbn [map]. exact W.
Qed.
Lemma none_unresolved V L s : tab s -> shape V L s -> unresolved_symbol_count s = 0.
Proof.
  intros T A. unfold unresolved_symbol_count. destruct (filter (fun e => unresolved (snd e)) (all_records s)) as [|[k y] r] eqn:E; [reflexivity|exfalso].
  assert (I : In (k, y) (filter (fun e => unresolved (snd e)) (all_records s))) by (rewrite E; left; reflexivity). apply filter_In in I. destruct I as [I U]. cbn [snd] in U.
  destruct (record_dl s k y T I) as [Vk D]. destruct (A k y Vk D) as [((v & X) & _)|(m & v & _ & _ & X)]; unfold ycore, dcore in X; injection X as _ X1 _ _ _; unfold unresolved in U; rewrite X1 in U; discriminate U.
Qed.
Lemma lobs_idle o s s' : lobs o s s' -> s_final s = false -> s_out s' = s_out s /\ s_total s' = s_total s.
Proof.
  intros L Fi. assert (E : wr o (mo s) = mo s) by (unfold wr; destruct o; [reflexivity|]; rewrite mo_final, Fi; reflexivity).
  unfold lobs in L. rewrite E in L. split; [rewrite <- (mo_out s'), L, pc_out; apply mo_out|rewrite <- (mo_total s'), L, pc_total; apply mo_total].
Qed.
(** between two passes *)
Definition idle (V : list cstr) (L : list (cstr * Z)) (cfg : config) (c64 : bool) (s : state) : Prop :=
  tab s /\ s_scope s = None /\ shape V L s /\ s_cfg s = cfg /\ s_skip s = false /\ s_c64 s = c64 /\ s_total s = 0 /\ s_out s = [] /\ s_c02 s = c02 /\ s_ill s = ill.
Definition heading (c64 : bool) (base : Z) (o : list Z) : list Z := match o with [] => [] | _ => if c64 then [base mod 256; base / 256 mod 256] else [] end.
Lemma file_start F z main lines : g_files (s_cfg z) main = Some lines ->
  exists r, forall s5, parse_input F F (set_list r (set_input [lines] (set_file main (set_line 0 z)))) = Ok tt s5 ->
    exists r5, parse_file F main z = Ok tt (set_list r5 s5).
Proof.
  intros Fil. destruct (when_null (s_final (set_input [lines] (set_file main (set_line 0 z)))) (set_input [lines] (set_file main (set_line 0 z)))) as (r & En). exists r. intros s5 E5.
  destruct (when_null (s_final (set_input [lines] (set_file main (set_line 0 z)))) s5) as (r5 & En5). exists r5.
  unfold parse_file. unfold bind at 1, modify at 1. unfold bind at 1, modify at 1. unfold bind at 1, gets at 1.
  assert (Fil2 : g_files (s_cfg (set_file main (set_line 0 z))) main = Some lines) by exact Fil. rewrite Fil2.
  unfold bind at 1, modify at 1. unfold bind at 1, gets at 1.
  unfold bind at 1. rewrite En. unfold bind at 1. rewrite E5. exact En5.
Qed.
Lemma files_one F main z s : parse_file F main z = Ok tt s -> parse_files F [main] z = Ok tt s.
Proof. intros E. cbn [parse_files]. unfold bind. rewrite E. reflexivity. Qed.
Lemma pass_start F s main lines : g_inputs (s_cfg s) = [main] -> g_files (s_cfg s) main = Some lines ->
  exists r, forall s5, parse_input F F (set_list r (set_input [lines] (set_file main (set_line 0 (reset_lex s))))) = Ok tt s5 ->
    exists r5, parse_pass F s = Ok tt (after_pass (set_list r5 s5)).
Proof.
  intros Inp Fil. rewrite <- (cfg_reset_lex s) in Fil. destruct (file_start F (reset_lex s) main lines Fil) as (r & X). exists r. intros s5 E5. destruct (X s5 E5) as (r5 & E). exists r5.
  rewrite parse_pass_eq, Inp. apply files_one in E. rewrite E. reflexivity.
Qed.
Section Prog.
Variables (cfg : config) (c64 : bool) (main : cstr) (base : Z) (l0 : tline) (ls : list tline) (env env' : cstr -> Z) (pc' : Z) (o : list Z) (L : list (cstr * Z)).
Hypothesis Inp : g_inputs cfg = [main].
Hypothesis Fil : g_files cfg main = Some (map SrcLine (l0 :: ls)).
Hypothesis Org : org_stmt base (t_stmt l0).
Hypothesis Lab : t_label l0 = None.
Hypothesis Act : acts [] [] env base (map lined ls) env' pc' o L.
Hypothesis Ap : apart (vars (map lined ls)) L.
Local Notation idle := (idle (vars (map lined ls)) L).

Lemma begin_ok F s : idle cfg c64 s ->
  exists z, (forall s5, parse_input (S (S F)) (S F) z = Ok tt s5 -> exists r5, parse_pass (S (S F)) s = Ok tt (after_pass (set_list r5 s5))) /\
    (sound (vars (map lined ls)) L [] [] env z /\ forall n, meaning z n = meaning s n) /\ going z /\ s_pc z = base /\ s_origin z = base /\ s_org_spec z = true /\ s_input z = [map SrcLine ls] /\ s_cfg z = s_cfg s /\ s_skip z = s_skip s /\ s_errs z = 0 /\ s_changed z = 0 /\
    s_pass z = s_pass s /\ s_final z = s_final s /\ s_opened z = s_opened s /\ s_c64 z = s_c64 s /\ s_total z = s_total s /\ s_out z = s_out s.
Proof.
  intros (T & Sc & A & Cf & Sk & C6 & To & Ou & Cx & Cy).
  destruct (pass_start (S (S F)) s main (map SrcLine (l0 :: ls))) as (r & X); [rewrite Cf; exact Inp|rewrite Cf; exact Fil|].
  set (s3 := set_list r (set_input [map SrcLine (l0 :: ls)] (set_file main (set_line 0 (reset_lex s))))) in *.
  destruct (org_line base F l0 (set_input [map SrcLine ls] s3) Org Lab eq_refl eq_refl) as (ns & b & Eo).
  exists (placed base ns b l0 (set_input [map SrcLine ls] s3)). split.
  { intros s5 E5. apply X. rewrite (parse_step (S (S F)) (S F) s3 l0 (map SrcLine ls) _ eq_refl Sk Eo). exact E5. }
  clear X Eo. set (z := placed base ns b l0 (set_input [map SrcLine ls] s3)).
  assert (Z1 : s_total z = s_total s) by reflexivity. assert (Z2 : s_pc z = base) by reflexivity. assert (Z3 : s_origin z = base) by reflexivity.
  assert (Z4 : s_dict z = s_dict s) by reflexivity. assert (Z5 : s_syms z = s_syms s) by reflexivity. assert (Z6 : s_scope z = s_scope s) by reflexivity. assert (Z7 : s_stop z = false) by reflexivity.
  assert (Z8 : s_org_spec z = true) by reflexivity. assert (Zx : s_c02 z = s_c02 s) by reflexivity. assert (Zy : s_ill z = s_ill s) by reflexivity. assert (Z9 : s_macdef z = 0) by reflexivity. assert (Z10 : s_skip z = s_skip s) by reflexivity. assert (Z11 : s_fstack z = []) by reflexivity.
  assert (Z12 : s_input z = [map SrcLine ls] /\ s_cfg z = s_cfg s /\ s_skip z = s_skip s /\ s_errs z = 0 /\ s_changed z = 0 /\
    s_pass z = s_pass s /\ s_final z = s_final s /\ s_opened z = s_opened s /\ s_c64 z = s_c64 s /\ s_total z = s_total s /\ s_out z = s_out s) by (repeat split; reflexivity).
  clearbody z. split; [|split; [|auto]].
  - split; [|intros n; unfold meaning, resolve, dl; rewrite Z4, Z5, Z6; reflexivity].
    split; [split; [exact (tab_same _ _ Z4 Z6 Z5 T)|split; [congruence|exact Z7]]|]. split; [apply (shape_keeps _ _ s); [apply keeps_same; auto|exact A]|]. intros n _ (m & [] & _).
  - split; [split; [exact Z8|split; congruence]|]. split; [|split; [exact Z9|split; [congruence|exact Z11]]]. intros _. split; [|lia].
    unfold no_gap. intros _. rewrite Z2, Z3. unfold header. destruct (_ && _); [|lia].
    change (s_total (put ?a ?b)) with (s_total b + Z.of_nat (length a)). cbn [length]. lia.
Qed.
Lemma pass_ok : exists F0, forall F s, (F0 <= F)%nat -> idle cfg c64 s ->
  exists D T s', parse_pass F s = Ok tt s' /\ tab s' /\ s_scope s' = None /\ shape (vars (map lined ls)) L s' /\ ((incl (vars (map lined ls) ++ labels (map lined ls)) D /\ incl (vars (map lined ls)) T) /\ stock D T env' s') /\ s_cfg s' = cfg /\ s_skip s' = false /\ (s_c64 s' = c64 /\ s_c02 s' = c02 /\ s_ill s' = ill) /\
    s_errs s' = 0 /\ (((forall n v, In (n, v) L -> meaning s n = dcore v) -> s_changed s' = 0) /\ (forall n v, In (n, v) L -> meaning s' n = dcore v)) /\ s_pass s' = s_pass s /\ s_final s' = s_final s /\ s_pc s' = pc' /\
    (s_final s = false -> s_out s' = [] /\ s_total s' = 0) /\ (s_final s = true -> s_opened s = true -> rev (s_out s') = heading c64 base o ++ map byte o).
Proof.
  destruct (lines_run _ _ Ap (proj1 (acts_plain _ _ _ _ _ _ _ _ _ Act)) _ _ _ _ _ _ _ _ _ Act (incl_refl _) (fun m (Hm : In m []) => match Hm with end) (incl_refl _)) as (F0 & X). exists (F0 + length ls + 3)%nat. intros F s HF Id. destruct F as [|[|F]]; [lia|lia|].
  destruct (begin_ok F s Id) as (z & Ez & (Sd & Mz) & Go & Z1 & Z2 & Z3 & Z4 & Z5 & Z6 & Z7 & Z8 & Z9 & Z10 & Z11 & Z12 & Z13 & Z14).
  destruct Id as (T & Sc & A & Cf & Sk & C6 & To & Ou & Cx & Cy).
  destruct (X (S (S F)) (S F) ls z ltac:(lia) ltac:(lia) eq_refl Sd Go Z1 Z4) as (D & T' & s5 & E5 & ((T5 & Sc5 & St5) & A5 & Sk5) & (Ic & Ict) & L5 & P5 & C5 & B5 & _).
  destruct (Ez s5 E5) as (r5 & E6). set (s6 := after_pass (set_list r5 s5)) in *.
  assert (Y1 : s_dict s6 = s_dict s5) by reflexivity. assert (Y2 : s_syms s6 = s_syms s5) by reflexivity. assert (Y3 : s_scope s6 = None) by reflexivity.
  assert (Y4 : s_cfg s6 = s_cfg s5) by reflexivity. assert (Y5 : s_skip s6 = s_skip s5) by reflexivity. assert (Y6 : s_c64 s6 = s_c64 s5) by reflexivity. assert (Yx : s_c02 s6 = s_c02 s5) by reflexivity. assert (Yy : s_ill s6 = s_ill s5) by reflexivity.
  assert (Y7 : s_errs s6 = s_errs s5) by reflexivity. assert (Y8 : s_changed s6 = s_changed s5) by reflexivity. assert (Y9 : s_pass s6 = s_pass s5) by reflexivity.
  assert (Y10 : s_final s6 = s_final s5) by reflexivity. assert (Y11 : s_pc s6 = s_pc s5) by reflexivity. assert (Y12 : s_out s6 = s_out s5) by reflexivity. assert (Y13 : s_total s6 = s_total s5) by reflexivity.
  clearbody s6. assert (Me6 : forall n, meaning s6 n = meaning s5 n) by (intros n; unfold meaning, resolve, dl; rewrite Y1, Y2, Y3, Sc5; reflexivity).
  exists D, T', s6. split; [exact E6|]. split; [apply (tab_same s5); auto; congruence|]. split; [exact Y3|]. split; [apply (shape_keeps _ _ s5); [apply keeps_same; auto|exact A5]|].
  split. { split; [split; [intros m Hm; apply Ic; rewrite app_nil_r; exact Hm|intros m Hm; apply Ict, in_or_app; left; exact Hm]|]. intros n P Hn. rewrite Y1, (Me6 n). exact (Sk5 n P Hn). }
  split; [rewrite Y4, (mo_field s_cfg o z s5 L5 mo_cfg); auto; congruence|].
  split; [rewrite Y5, (mo_field s_skip o z s5 L5 mo_skip); auto; congruence|].
  split; [split; [rewrite Y6, (mo_field s_c64 o z s5 L5 mo_c64); auto; congruence|]; destruct Go as ((_ & Gx & Gy) & _);
    split; [rewrite Yx, (mo_field s_c02 o z s5 L5 mo_c02)|rewrite Yy, (mo_field s_ill o z s5 L5 mo_ill)]; auto|].
  split; [rewrite Y7, (mo_field s_errs o z s5 L5 mo_errs); auto; congruence|].
  split; [split; [intros K; rewrite Y8, C5; [exact Z8|intros n v Hn; rewrite (Mz n); exact (K n v Hn)]|intros n v Hn; rewrite (Me6 n); exact (B5 n v Hn)]|].
  split; [rewrite Y9, (mo_field s_pass o z s5 L5 mo_pass); auto; congruence|].
  split; [rewrite Y10, (mo_field s_final o z s5 L5 mo_final); auto; congruence|].
  split; [rewrite Y11; exact P5|]. rewrite Y12, Y13. split.
  - intros Fi. destruct (lobs_idle _ _ _ L5 ltac:(congruence)) as [O5 T5']. split; congruence.
  - intros Fi Op. clear X Act. destruct o as [|x l].
    + assert (O5 : s_out s5 = s_out z) by (rewrite <- (mo_out s5), L5, pc_out; cbn [wr]; apply mo_out). rewrite O5, Z14, Ou. reflexivity.
    + pose proof (lobs_written _ _ _ L5 ltac:(discriminate) Z3) as W. unfold data_written in W. rewrite Z10, Z11, Z12, Z13, Z14, Z2, Fi, Op, To, Ou, C6 in W. cbn [andb Z.eqb] in W.
      rewrite W, app_nil_r, rev_app_distr, rev_involutive. f_equal. cbn [heading]. destruct c64; reflexivity.
Qed.
Lemma idle_start : idle cfg c64 (start (init_state cfg c02 ill c64)).
Proof.
  split; [apply (g_tab _ (init_good cfg c02 ill c64))|]. split; [reflexivity|]. split; [|split; [reflexivity|split; [reflexivity|split; [reflexivity|split; [reflexivity|split; [reflexivity|split; reflexivity]]]]]].
  intros k y _ D. exfalso. revert D. unfold dl, dlookup. cbn [fst snd]. destruct (dict_search _ k) as [[|a]|]; discriminate.
Qed.
Lemma idle_on s : tab s -> s_scope s = None -> shape (vars (map lined ls)) L s -> s_cfg s = cfg -> s_skip s = false -> (s_c64 s = c64 /\ s_c02 s = c02 /\ s_ill s = ill) ->
  s_out s = [] -> s_total s = 0 -> idle cfg c64 (set_pass (s_pass s + 1) s) /\ idle cfg c64 (open_out (set_pass (s_pass s + 1) s)).
Proof.
  intros T Sc A Cf Sk (C1 & C2 & C3) Ou To.
  split; (split; [apply (tab_same s); auto|split; [exact Sc|split; [exact A|split; [exact Cf|split; [exact Sk|split; [exact C1|split; [exact To|split; [exact Ou|split; [exact C2|exact C3]]]]]]]]]).
Qed.
(** the passes before the last: one, or a second one when the labels of the first were new *)
Lemma passes : exists F0, forall F k, (F0 <= F)%nat -> exists s2, pass_loop F (S (S k)) (start (init_state cfg c02 ill c64)) = Ok true s2 /\
  s_pass s2 < max_passes /\ s_errs s2 = 0 /\ s_cfg s2 = cfg /\ idle cfg c64 (open_out s2).
Proof.
  destruct pass_ok as (F0 & X). exists F0. intros F k HF.
  destruct (X F _ HF idle_start) as (D1 & W1 & s1 & E1 & T1 & Sc1 & A1 & _ & Cf1 & Sk1 & C1 & Er1 & (_ & Fx1) & Pa1 & Fi1 & _ & O1 & _).
  destruct (O1 eq_refl) as [Ou1 To1]. clear O1. destruct (idle_on s1 T1 Sc1 A1 Cf1 Sk1 C1 Ou1 To1) as [Id1 Id1'].
  assert (P1 : s_pass s1 = 1) by (rewrite Pa1; reflexivity).
  assert (Fi1' : s_final s1 = false) by (rewrite Fi1; reflexivity).
  rewrite pass_loop_S, E1. cbv zeta. rewrite Er1, (none_unresolved _ _ s1 T1 A1).
  destruct (s_changed s1 =? 0) eqn:Ch.
  - cbn [Z.eqb andb negb]. rewrite andb_false_r. exists (set_pass (s_pass s1 + 1) s1). split; [reflexivity|].
    split; [cbn [s_pass set_pass]; rewrite P1; reflexivity|]. split; [exact Er1|]. split; [exact Cf1|exact Id1'].
  - cbn [Z.eqb andb negb]. cbn [s_pass set_pass]. rewrite P1. change (1 + 1 <? max_passes) with true. cbv iota.
    rewrite P1 in Id1. set (z := set_pass (1 + 1) s1) in *.
    assert (Pz : s_pass z = 2) by reflexivity. assert (Fz : s_final z = false) by exact Fi1'. assert (Mz : forall n v, In (n, v) L -> meaning z n = dcore v) by exact Fx1.
    clearbody z. clear E1.
    destruct (X F z HF Id1) as (D2 & W2 & s2 & E2 & T2 & Sc2 & A2 & _ & Cf2 & Sk2 & C2 & Er2 & (Ch2 & _) & Pa2 & _ & _ & O2 & _).
    destruct (O2 Fz) as [Ou2 To2]. destruct (idle_on s2 T2 Sc2 A2 Cf2 Sk2 C2 Ou2 To2) as [_ Id2].
    rewrite pass_loop_S, E2. cbv zeta. rewrite Er2, (none_unresolved _ _ s2 T2 A2), (Ch2 Mz). cbn [Z.eqb andb negb]. rewrite andb_false_r.
    exists (set_pass (s_pass s2 + 1) s2). split; [reflexivity|].
    split; [cbn [s_pass set_pass]; rewrite Pa2, Pz; reflexivity|]. split; [exact Er2|]. split; [exact Cf2|exact Id2].
Qed.
Theorem assembles : g_out cfg = true -> g_canwrite cfg = true -> exists F0, forall F, (F0 <= F)%nat ->
  exists D T s', assemble F (init_state cfg c02 ill c64) = Ok 0 s' /\ s_errs s' = 0 /\ rev (s_out s') = heading c64 base o ++ map byte o /\ s_pc s' = pc' /\ s_scope s' = None /\
    ((incl (vars (map lined ls) ++ labels (map lined ls)) D /\ incl (vars (map lined ls)) T) /\ stock D T env' s') /\ (forall n v, In (n, v) L -> meaning s' n = dcore v).
Proof.
  intros Go Gw. destruct pass_ok as (F0 & X). destruct passes as (F1 & Y). exists (Nat.max F0 F1). intros F HF. rewrite assemble_eq.
  destruct (Y F 18%nat ltac:(lia)) as (s2 & E2 & P2 & Er2 & Cf2 & Id).
  rewrite E2.
  assert (Op : s_opened (open_out s2) = true) by (change (g_out (s_cfg s2) = true); rewrite Cf2; exact Go). assert (Fi : s_final (open_out s2) = true) by reflexivity.
  rewrite Er2, Cf2, Go, Gw. cbn [andb negb Z.ltb Z.compare]. rewrite (proj2 (Z.leb_gt _ _) P2). cbv iota.
  destruct (X F _ ltac:(lia) Id) as (D2 & W2 & s3 & E3 & T3 & Sc3 & A3 & St3 & _ & _ & _ & Er3 & (_ & Fx3) & _ & _ & P3 & _ & O3).
  rewrite E3. exists D2, W2, s3. split; [reflexivity|]. split; [exact Er3|]. split; [exact (O3 Fi Op)|]. split; [exact P3|]. split; [exact Sc3|]. split; [exact St3|exact Fx3].
Qed.
End Prog.
End Cpu.
