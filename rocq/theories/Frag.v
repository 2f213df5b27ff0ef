(** Whole passes over programs of labels, assignments, instructions, data and one .org. *)
From Coq Require Import String Lia.
From Verif Require Import Base BaseProofs Hash Dict DictProofs DictMore Str Opcodes OpcodesProofs Err State Sym Machine Build Pass
  GenX Gen Inv SymProofs Sem ListRel ExprProofs ExprMore OpProofs OpMore InstrProofs InstrMore DataProofs DataMore DefProofs BadProofs DataWalk OpWalk
  Colon Layout LineProofs LineTwo LineThree LineFour LineFive PassProofs.
Open Scope string_scope.
Open Scope list_scope.
Open Scope Z_scope.
Open Scope m_scope.

(** ** States that differ in nothing that matters between lines *)
Definition ff (s : state) := (s_c02 s, s_ill s, s_c64 s, s_final s, s_opened s, s_skip s, s_macdef s, s_fstack s, s_cfg s).
Lemma fr_ff s s' : fr s' = fr s -> ff s' = ff s.
Proof.
  intros H. unfold ff.
  rewrite (fr_eq_c02 _ _ H), (fr_eq_ill _ _ H), (fr_eq_c64 _ _ H), (fr_eq_final _ _ H), (fr_eq_opened _ _ H), (fr_eq_skip _ _ H), (fr_eq_macdef _ _ H).
  rewrite <- (fr_get_fstack s'), H, fr_get_fstack, <- (fr_get_cfg s'), H, fr_get_cfg. reflexivity.
Qed.
Definition blank (p : Z) (r : lrec) : Prop := l_body r = LNone /\ stated p r.
Lemma blank_addressed p pc k : Forall (blank p) k -> addressed pc (rev k).
Proof.
  intros H. apply Forall_rev in H. revert pc. induction H as [|r k' (E & _) H IH]; intros pc; cbn [addressed]; [exact I|]. rewrite E. split; [discriminate|apply IH].
Qed.
Lemma blank_listed p k : Forall (blank p) k -> listed k = [].
Proof.
  intros H. unfold listed. apply Forall_rev in H.
  induction H as [|r k' (E & _) H IH]; cbn; [reflexivity|]. rewrite E. exact IH.
Qed.
Record same (s s' : state) : Prop := mkSame {
  sa_dict : s_dict s' = s_dict s; sa_syms : s_syms s' = s_syms s; sa_nodes : s_nodes s' = s_nodes s; sa_scope : s_scope s' = s_scope s;
  sa_stop : s_stop s' = s_stop s; sa_errs : s_errs s' = s_errs s; sa_changed : s_changed s' = s_changed s; sa_pc : s_pc s' = s_pc s;
  sa_org : s_org_spec s' = s_org_spec s; sa_once : s_org_once s' = s_org_once s; sa_origin : s_origin s' = s_origin s;
  sa_out : s_out s' = s_out s; sa_total : s_total s' = s_total s; sa_ff : ff s' = ff s; sa_soft : s_soft s' = s_soft s;
  sa_pst : s_pstate s' = s_pstate s; sa_asg : s_pc_assigned s' = s_pc_assigned s; sa_list : exists k, s_list s' = k ++ s_list s /\ Forall (blank (s_pstate s)) k }.
Lemma same_refl s : same s s. Proof. constructor; try reflexivity. exists []. split; [reflexivity|constructor]. Qed.
Lemma same_trans a b c : same a b -> same b c -> same a c.
Proof.
  intros [? ? ? ? ? ? ? ? ? ? ? ? ? ? ? A3 ? (k & A1 & A2)] [? ? ? ? ? ? ? ? ? ? ? ? ? ? ? ? ? (k' & B1 & B2)]. constructor; try congruence.
  exists (k' ++ k). rewrite B1, A1, app_assoc. split; [reflexivity|]. apply Forall_app. rewrite A3 in B2. auto.
Qed.
Lemma ff_c64 s s' : ff s' = ff s -> s_c64 s' = s_c64 s. Proof. unfold ff. congruence. Qed.
Lemma ff_final s s' : ff s' = ff s -> s_final s' = s_final s. Proof. unfold ff. congruence. Qed.
Lemma ff_opened s s' : ff s' = ff s -> s_opened s' = s_opened s. Proof. unfold ff. congruence. Qed.
Lemma same_lkw s s' : same s s' -> lkw s s'.
Proof.
  intros H. pose proof (ff_c64 _ _ (sa_ff _ _ H)) as E1. pose proof (ff_opened _ _ (sa_ff _ _ H)) as E2. destruct (sa_list _ _ H) as (k & K1 & K2).
  constructor; unfold writing; rewrite ?(sa_errs _ _ H), ?(sa_soft _ _ H), ?(sa_org _ _ H), ?(sa_total _ _ H), ?E1, ?E2, ?(sa_asg _ _ H); auto; try lia; [apply H|exact (ff_final _ _ (sa_ff _ _ H))|].
  exists k. split; [exact K1|]. split; [revert K2; apply Forall_impl; intros r [_ X]; exact X|].
  split.
  - intros _ _ _. exists []. rewrite (blank_listed _ _ K2), (sa_out _ _ H), (sa_total _ _ H). cbn.
    split; [reflexivity|]. split; [lia|]. split; [auto|]. intros _ _ X. destruct (X eq_refl).
  - intros _. split; [rewrite (blank_listed _ _ K2), (sa_pc _ _ H); cbn; lia|apply (blank_addressed _ _ _ K2)].
Qed.
Lemma same_hv s s' : same s s' -> tab s -> hv0 s s'.
Proof. intros H T. apply hv0_frame; auto; apply H. Qed.
Lemma same_good s s' : same s s' -> good s -> good s'.
Proof. intros H G. apply (good_hv0 s); [apply same_hv; auto; apply G|apply H|exact G]. Qed.
Lemma same_meaning s s' : same s s' -> forall n, meaning s' n = meaning s n.
Proof. intros H n. unfold meaning, resolve, dl. rewrite (sa_dict _ _ H), (sa_syms _ _ H), (sa_scope _ _ H). reflexivity. Qed.
Lemma same_kept s s' : same s s' -> kept s s'.
Proof. intros H. apply kept_same; apply H. Qed.
Lemma same_input x s : same s (set_input x s). Proof. constructor; try reflexivity. exists []. split; [reflexivity|constructor]. Qed.
Lemma same_line x s : same s (set_line x s). Proof. constructor; try reflexivity. exists []. split; [reflexivity|constructor]. Qed.
Lemma same_file x s : same s (set_file x s). Proof. constructor; try reflexivity. exists []. split; [reflexivity|constructor]. Qed.
(** ** The records of the lines of a file *)
Definition on_line (f : cstr) (v : Z) (r : lrec) : Prop := l_file r = f /\ l_line r = v.
(** and the record shows bytes *)
Definition bodied (f : cstr) (v : Z) (r : lrec) : Prop := on_line f v r /\ l_body r <> LNone.
(** what one line adds *)
Definition lrecs (l : tline) (s s' : state) : Prop :=
  s_line s' = t_line l /\ exists k, s_list s' = rev k ++ s_list s /\ Forall (bodied (s_file s) (t_line l)) k.
(** the records of a file, oldest first: those of its lines one after the other, with marks before and after them *)
Inductive blocks (f : cstr) : list tline -> list lrec -> Prop :=
| BNil : blocks f [] []
| BCons l ls k k' : Forall (bodied f (t_line l)) k -> blocks f ls k' -> blocks f (l :: ls) (k ++ k').
Definition mark (f : cstr) (v : Z) (r : lrec) : Prop := on_line f v r /\ l_body r = LNone.
Definition last_line (v : Z) (ls : list tline) : Z := last (map t_line ls) v.
Definition file_block (f : cstr) (ls : list tline) (k : list lrec) : Prop :=
  exists b0 k1 b1 b2, k = b0 :: k1 ++ [b1; b2] /\ mark f 0 b0 /\ blocks f ls k1 /\ mark f (last_line 0 ls + 1) b1 /\ mark f (last_line 0 ls + 1) b2.
Lemma rev_block (b0 b1 b2 : lrec) k k2 x : rev ((b0 :: k ++ [b1; b2]) ++ k2) ++ x = rev k2 ++ b2 :: rev (k ++ [b1]) ++ b0 :: x.
Proof.
  change (b0 :: k ++ [b1; b2]) with ([b0] ++ (k ++ [b1; b2])). rewrite !rev_app_distr. cbn [rev app]. rewrite <- !app_assoc. cbn [app]. rewrite <- !app_assoc. reflexivity.
Qed.
Lemma last_line_cons v l ls : last_line v (l :: ls) = last_line (t_line l) ls.
Proof. unfold last_line. cbn [map]. generalize (t_line l) as w, (map t_line ls) as k. intros w k. revert v w. induction k as [|x k IH]; intros v w; [reflexivity|]. 
  change (last (w :: x :: k) v) with (last (x :: k) v). rewrite !IH. reflexivity. Qed.
Lemma same_null b s : exists s', when b list_null s = Ok tt s' /\ same s s' /\ s_input s' = s_input s /\ s_fstack s' = s_fstack s /\
  s_file s' = s_file s /\ s_line s' = s_line s /\ (b = true -> exists r, s_list s' = r :: s_list s /\ mark (s_file s) (s_line s) r).
Proof.
  unfold when. destruct b; [|exists s; split; [reflexivity|split; [apply same_refl|repeat split; discriminate]]].
  unfold list_null, add_list, bind, gets, modify. eexists. split; [reflexivity|]. split; [|repeat split; intros _; eexists; repeat split].
  constructor; try reflexivity. eexists [_]. split; [reflexivity|]. constructor; [repeat split|constructor].
Qed.

(** the records of lines with bytes, oldest first; those between them have no text *)
Inductive spread : list (Z * list Z) -> list lrec -> Prop :=
| SpNil k : Forall (fun r => l_body r = LNone) k -> spread [] k
| SpCons n b lb k0 k1 k2 : Forall (fun r => l_body r = LNone) k0 -> Forall (fun r => l_line r = n) k1 ->
    concat (map (fun r => body_bytes (l_body r)) k1) = b -> spread lb k2 -> spread ((n, b) :: lb) (k0 ++ k1 ++ k2).
Lemma spread_blank lb k0 k : Forall (fun r => l_body r = LNone) k0 -> spread lb k -> spread lb (k0 ++ k).
Proof.
  intros H S. destruct S as [k K|n b lb k1 k2 k3 K1 K2 K3 S]; [constructor; apply Forall_app; auto|]. rewrite app_assoc. constructor; auto. apply Forall_app; auto.
Qed.
Lemma blank_none p k : Forall (blank p) k -> Forall (fun r => l_body r = LNone) (rev k).
Proof. intros H. apply Forall_rev. revert H. apply Forall_impl. intros r H. apply H. Qed.
Lemma outs_says q b k s s' : outs q b s s' -> says k s s' -> listed k = b.
Proof.
  intros O (h & H1 & H2 & H3 & H4). destruct q; cbn [outs] in O; [destruct O as (-> & O1 & O2)|destruct O as (O1 & O2)].
  - rewrite O2 in H2. destruct (listed k); [reflexivity|]. cbn [length] in H2. lia.
  - rewrite O1 in H1. rewrite O2 in H2. rewrite !app_assoc in H1. apply app_inv_tail in H1.
    assert (L : length h = length (if (s_total s =? 0) && s_c64 s then [s_origin s / 256 mod 256; s_origin s mod 256] else [])).
    { destruct ((s_total s =? 0) && s_c64 s) eqn:C.
      - apply andb_prop in C as [C1 C2]. apply Z.eqb_eq in C1. destruct H3 as [->|(_ & _ & ->)]; [|reflexivity]. exfalso.
        apply (f_equal (@length Z)) in H1. rewrite !app_length in H1. destruct (listed k) as [|x y]; [cbn in H1; lia|]. apply H4; auto. discriminate.
      - destruct H3 as [->|(C1 & C2 & _)]; [reflexivity|]. rewrite C1, C2 in C. discriminate C. }
    apply (f_equal (@rev Z)) in H1. rewrite !rev_app_distr, !rev_involutive in H1.
    assert (G : forall (A : Type) (x y u v : list A), length x = length u -> x ++ y = u ++ v -> y = v).
    { clear. intros A x. induction x as [|a x IH]; intros y [|c u] v; cbn; try discriminate; [auto|]. intros [= E] [= _ E2]. eauto. }
    symmetry. apply (G _ _ _ _ _ (eq_trans (rev_length _) (eq_trans (eq_sym L) (eq_sym (rev_length _)))) H1).
Qed.

(** ** .ORG and * = *)
Definition org_of (l : tline) : option Z :=
  match t_label l, t_stmt l with None, SOrg (EInt o) => Some o | _, _ => None end.
Lemma org_move l o : org_of l = Some o -> move_of l = Some (EInt o).
Proof. unfold org_of, move_of. destruct (t_label l); [discriminate|]. destruct (t_stmt l); try discriminate. destruct e; try discriminate. congruence. Qed.
Record mres (e : expr) (s s' : state) : Prop := mkMres {
  o_good : good s'; o_kept : kept s s'; o_ff : ff s' = ff s; o_errs : s_errs s' = s_errs s; o_changed : s_changed s' = s_changed s;
  o_pc : value_at (meaning s) (s_pc s) e = Some (s_pc s'); o_origin : s_origin s' = s_pc s'; o_org : s_org_spec s' = true;
  o_out : s_out s' = s_out s; o_total : s_total s' = s_total s; o_input : s_input s' = s_input s;
  o_meaning : forall n, plain n -> meaning s' n = meaning s n; o_lk : lk s s'; o_list : s_list s' = s_list s; o_entered : entered s' (names e) }.
Record keep (s s' : state) : Prop := mkKeep {
  k_ff : ff s' = ff s; k_errs : s_errs s' = s_errs s; k_changed : s_changed s' = s_changed s; k_pc : s_pc s' = s_pc s; k_out : s_out s' = s_out s; k_total : s_total s' = s_total s;
  k_input : s_input s' = s_input s; k_list : s_list s' = s_list s; k_soft : s_soft s' = s_soft s; k_tag : ltag s' = ltag s; k_asg : s_pc_assigned s' = s_pc_assigned s;
  k_stop : s_stop s' = s_stop s; k_once : s_org_once s' = s_org_once s; k_org : s_org_spec s' = s_org_spec s }.
Lemma keep_trans a b c : keep a b -> keep b c -> keep a c.
Proof. intros [] []. constructor; congruence. Qed.
Lemma keep_nodes x s : keep s (set_nodes x s). Proof. constructor; reflexivity. Qed.
Lemma keep_line x s : keep s (set_line x s). Proof. constructor; reflexivity. Qed.
Lemma keep_evo s s' : evo s s' -> s_errs s' = s_errs s -> keep s s'.
Proof.
  intros E Er. pose proof (e_same _ _ E) as H. constructor; try exact Er.
  - exact (f_equal ff H).
  - exact (f_equal s_changed H).
  - exact (f_equal s_pc H).
  - exact (f_equal s_out H).
  - exact (f_equal s_total H).
  - exact (f_equal s_input H).
  - exact (f_equal s_list H).
  - exact (f_equal s_soft H).
  - exact (f_equal ltag H).
  - exact (f_equal s_pc_assigned H).
  - exact (f_equal s_stop H).
  - exact (f_equal s_org_once H).
  - exact (f_equal s_org_spec H).
Qed.
(** the operator node of the directive and its operand *)
Lemma move_build F o e s : good s -> okexpr F e ->
  exists p q s1, opr1 o e s = Ok (Some p) s1 /\ hv0 s s1 /\ keep s s1 /\ nth_error (s_nodes s1) p = Some (mkNode (KOpr o) [q]) /\ rep (meaning s) true s1 q e.
Proof.
  intros G (W & Ea & Pe & _). destruct (build_expr_rep e s (g_tab _ G) W (good_plain _ _ G Pe)) as (q & s1 & E1 & Ev & Er & Rp & _).
  unfold opr1, bindo, bind. rewrite E1. unfold some, bind, ret. rewrite alloc_eq.
  pose proof (h_base _ _ (hv_alloc (KOpr o) [q] s1 eq_refl (e_tab _ _ Ev))) as H2. eexists _, q, _. split; [reflexivity|].
  split; [exact (hv0_trans _ _ _ (h_base _ _ (hv_evo _ _ Ev)) H2)|]. split; [exact (keep_trans _ _ _ (keep_evo _ _ Ev Er) (keep_nodes _ _))|].
  split; [apply alloc_nth|]. exact (rep_hv _ _ _ _ _ _ H2 Rp).
Qed.
(** evaluating the operand *)
Lemma keep_eval C F q e s v : okexpr F e -> tab s -> s_stop s = false -> rep C true s q e -> value_at C (s_pc s) e = Some v ->
  exists s', expand F q s = Ok v s' /\ hv0 s s' /\ keep s s' /\ rep C false s' q e.
Proof.
  intros (_ & Ea & _ & Hh) T St R V. pose proof (eval_rep C true e F s q Hh T St R) as E. destruct (value_known _ _ _ _ Ea V) as [K _]. rewrite K in E. cbn [evaluates] in E.
  destruct E as (s1 & E1 & E2 & E3 & E4). exists s1. split; [exact E1|]. split; [apply (hv_evo _ _ E2)|]. split; [apply keep_evo; [exact E2|lia]|]. apply E4; auto.
Qed.
Lemma move_end a b s s4 s5 : hv0 s s4 -> keep s (set_pc_assigned (s_pc_assigned s) s4) -> s_pc_assigned s4 = s_pc_assigned s + 1 -> hv0 s4 s5 -> keep s4 s5 -> good s ->
  forall e, value_at (meaning s) (s_pc s) e = Some a -> entered s5 (names e) -> (forall n, In n (names e) -> plain n) -> mres e s (set_org_once b (set_org_spec true (set_origin a (set_pc a s5)))).
Proof.
  intros H4 K4 A4 H5 K5 G e V En Pe. set (s' := set_org_once _ _). destruct K4 as [B1 B2 B3 B4 B5 B6 B7 B8 B9 B10 B11 B12 B13 B14].
  change (ff (set_pc_assigned (s_pc_assigned s) s4)) with (ff s4) in B1. cbn [s_errs s_changed s_pc s_out s_total s_input s_list s_soft s_stop s_org_once s_org_spec set_pc_assigned] in *.
  change (ltag (set_pc_assigned (s_pc_assigned s) s4)) with (ltag s4) in B10.
  assert (H' : hv0 s s') by (apply (hv0_trans _ _ _ (hv0_trans _ _ _ H4 H5)), hv0_frame; auto; apply (h_tab _ _ H5)).
  assert (F' : ff s' = ff s) by (change (ff s') with (ff s5); rewrite (k_ff _ _ K5); exact B1).
  constructor.
  - apply (good_hv0 s); [exact H'|change (s_stop s') with (s_stop s5); rewrite (k_stop _ _ K5); exact B12|exact G].
  - apply H'.
  - exact F'.
  - change (s_errs s') with (s_errs s5). rewrite (k_errs _ _ K5). exact B2.
  - change (s_changed s') with (s_changed s5). rewrite (k_changed _ _ K5). exact B3.
  - exact V.
  - reflexivity.
  - reflexivity.
  - change (s_out s') with (s_out s5). rewrite (k_out _ _ K5). exact B5.
  - change (s_total s') with (s_total s5). rewrite (k_total _ _ K5). exact B6.
  - change (s_input s') with (s_input s5). rewrite (k_input _ _ K5). exact B7.
  - intros n Pn. apply (h_res _ _ H'); auto.
  - apply lk_start.
    + change (s_list s') with (s_list s5). rewrite (k_list _ _ K5). exact B8.
    + change (s_out s') with (s_out s5). rewrite (k_out _ _ K5). exact B5.
    + change (s_total s') with (s_total s5). rewrite (k_total _ _ K5). exact B6.
    + change (s_errs s') with (s_errs s5). rewrite (k_errs _ _ K5). exact B2.
    + change (s_soft s') with (s_soft s5). rewrite (k_soft _ _ K5). exact B9.
    + exact (ff_c64 _ _ F').
    + unfold writing. rewrite !Bool.andb_true_iff. intros [X _]. split; [rewrite (ff_opened _ _ F'); exact X|reflexivity].
    + change (ltag s') with (ltag s5). rewrite (k_tag _ _ K5). exact B10.
    + exact (ff_final _ _ F').
    + change (s_pc_assigned s') with (s_pc_assigned s5). rewrite (k_asg _ _ K5). lia.
    + right. change (s_pc_assigned s') with (s_pc_assigned s5). rewrite (k_asg _ _ K5). lia.
  - change (s_list s') with (s_list s5). rewrite (k_list _ _ K5). exact B8.
  - apply (entered_kept s5); [apply (hv0_frame s5 s'); auto; apply (h_tab _ _ H5)|exact Pe|exact En].
Qed.
Lemma run_move F e l s : move_of l = Some e -> okexpr F e -> good s ->
  bad s (run_line (expand (S F)) l s) \/ exists s', run_line (expand (S F)) l s = Ok (Some tt) s' /\ mres e s s'.
Proof.
  intros L Ok G. assert (X : t_label l = None /\ exists o, (o = OOrg \/ o = OPcAssign) /\ forall ex s, build_stmt ex true (t_stmt l) s = opr1 o e s).
  { unfold move_of in L. destruct (t_label l); [discriminate|]. split; [reflexivity|]. destruct (t_stmt l); try discriminate; injection L as ->; [exists OOrg|exists OPcAssign]; auto. }
  destruct X as (Lb & o & Ho & B). remember (run_line (expand (S F)) l s) as r eqn:Er. unfold run_line in Er. rewrite Lb in Er.
  unfold bind at 1, modify at 1 in Er. set (s0 := set_line (t_line l) s) in *. cbv zeta in Er. unfold bindo at 1, bind at 1 in Er. rewrite B in Er.
  assert (G0 : good s0) by apply good_line, G.
  destruct (move_build F o e s0 G0 Ok) as (p & q & s1 & E1 & H1 & K1 & N1 & R1). rewrite E1 in Er. unfold bind at 1, modify at 1 in Er.
  set (s3 := set_line (t_line l) s1) in *.
  assert (H3 : hv0 s s3). { apply (hv0_trans _ s0); [apply hv0_frame; auto; apply G|]. apply (hv0_trans _ s1); [exact H1|apply hv0_frame; auto; apply (h_tab _ _ H1)]. }
  assert (K3 : keep s s3) by exact (keep_trans _ _ _ (keep_line _ s) (keep_trans _ _ _ K1 (keep_line _ s1))).
  assert (St : s_stop s3 = false) by (rewrite (k_stop _ _ K3); apply G).
  assert (R3 : rep (meaning s) true s3 q e). { apply (rep_hv _ _ s1); [apply hv0_frame; auto; apply (h_tab _ _ H1)|exact R1]. }
  set (s4 := set_pc_assigned (s_pc_assigned s3 + 1) s3) in *.
  assert (H4 : hv0 s s4) by (apply (hv0_trans _ s3); [exact H3|apply hv0_frame; auto; apply (h_tab _ _ H3)]).
  assert (K4 : keep s (set_pc_assigned (s_pc_assigned s) s4)).
  { constructor; try reflexivity; try apply K3. }
  assert (R4 : rep (meaning s) true s4 q e) by (apply (rep_hv _ _ s3); [apply hv0_frame; auto; apply (h_tab _ _ H3)|exact R3]).
  assert (Pc4 : s_pc s4 = s_pc s) by exact (k_pc _ _ K3).
  assert (Er4 : s_errs s4 = s_errs s) by exact (k_errs _ _ K3).
  assert (A4 : s_pc_assigned s4 = s_pc_assigned s + 1) by (change (s_pc_assigned s4) with (s_pc_assigned s3 + 1); rewrite (k_asg _ _ K3); reflexivity).
  assert (On : s_org_once s4 = s_org_once s) by exact (k_once _ _ K3).
  unfold bind at 1 in Er. rewrite (expand_eq _ _ _ _ St N1) in Er.
  destruct (value_at (meaning s) (s_pc s) e) as [v|] eqn:V.
  - destruct (keep_eval (meaning s) F q e s4 v Ok (h_tab _ _ H4) St R4) as (s5 & E5 & H5 & K5 & R5); [rewrite Pc4; exact V|].
    assert (Pe : forall n, In n (names e) -> plain n) by apply Ok.
    assert (En : entered s5 (names e)).
    { pose proof (hv0_trans _ _ _ H4 H5) as H05. apply (entered_rep (meaning s) s5 q); auto; [apply (k_own _ _ (h_keep _ _ H05)), G|rewrite (h_scope _ _ H05); apply G]. }
    destruct Ho as [->| ->].
    + change (x_node (expand F) F p (mkNode (KOpr OOrg) [q]) s3) with (x_org (expand F) (mkNode (KOpr OOrg) [q]) s3) in Er.
      unfold x_org, opn in Er. cbn [n_ops nth_error] in Er. unfold bind at 1, modify at 1 in Er. fold s4 in Er. unfold bind at 1, gets at 1 in Er. rewrite On in Er.
      destruct (s_org_once s).
      * left. rewrite Er. unfold bind, err, modify, ret, bad. cbn [s_errs set_errs set_msgs]. rewrite Er4. lia.
      * right. unfold bind at 1, ret at 1 in Er. unfold bind at 1 in Er. rewrite E5 in Er. unfold bind, modify, ret in Er. eexists. split; [exact Er|].
        exact (move_end v true s s4 s5 H4 K4 A4 H5 K5 G e V En Pe).
    + change (x_node (expand F) F p (mkNode (KOpr OPcAssign) [q]) s3) with (x_pc_assign (expand F) (mkNode (KOpr OPcAssign) [q]) s3) in Er.
      unfold x_pc_assign, opn in Er. cbn [n_ops nth_error] in Er. unfold bind at 1, modify at 1 in Er. fold s4 in Er. unfold bind at 1, ret at 1 in Er.
      right. unfold bind at 1 in Er. rewrite E5 in Er. unfold bind, modify, ret in Er. eexists. split; [exact Er|].
      exact (move_end v (s_org_once s5) s s4 s5 H4 K4 A4 H5 K5 G e V En Pe).
  - left. rewrite Er.
    assert (Bq : bad s4 (expand F q s4)) by (apply (eval_bad (meaning s) true e); auto; [apply Ok|apply (h_tab _ _ H4)|rewrite Pc4; exact V]).
    destruct Ho as [->| ->].
    + change (x_node (expand F) F p (mkNode (KOpr OOrg) [q]) s3) with (x_org (expand F) (mkNode (KOpr OOrg) [q]) s3).
      unfold x_org, opn. cbn [n_ops nth_error]. unfold bind at 1, modify at 1. fold s4. unfold bind at 1, gets at 1. destruct (s_org_once s4).
      * unfold bind, err, modify, ret, bad. cbn [s_errs set_errs set_msgs]. rewrite Er4. lia.
      * unfold bind at 1, ret at 1. unfold bind at 1. destruct (expand F q s4) as [w s5| | |]; [|exact I..]. unfold bind, modify, ret. cbn [bad] in *.
        cbn [s_errs set_org_once set_org_spec set_origin set_pc]. lia.
    + change (x_node (expand F) F p (mkNode (KOpr OPcAssign) [q]) s3) with (x_pc_assign (expand F) (mkNode (KOpr OPcAssign) [q]) s3).
      unfold x_pc_assign, opn. cbn [n_ops nth_error]. unfold bind at 1, modify at 1. fold s4. unfold bind at 1, ret at 1. unfold bind at 1.
      destruct (expand F q s4) as [w s5| | |]; [|exact I..]. unfold bind, modify, ret. cbn [bad] in *. cbn [s_errs set_org_once set_org_spec set_origin set_pc]. lia.
Qed.

(** ** Reading the lines of the files one after the other *)
Section Run.
Variable P : tline -> state -> state -> Prop.
Inductive run : list tline -> state -> state -> Prop :=
| RunNil s s' : same s s' -> run [] s s'
| RunCons l ls s s0 s1 s2 : same s s0 -> P l s0 s1 -> run ls s1 s2 -> run (l :: ls) s s2.
Lemma run_before ls s s0 s1 : same s s0 -> run ls s0 s1 -> run ls s s1.
Proof.
  intros H R. destruct R as [s0 s1 S|l ls s0 s3 s4 s5 S Pl R]; [constructor; exact (same_trans _ _ _ H S)|].
  econstructor; [exact (same_trans _ _ _ H S)|exact Pl|exact R].
Qed.
Lemma run_after ls s s1 s2 : run ls s s1 -> same s1 s2 -> run ls s s2.
Proof. intros R. revert s2. induction R; intros s3 S; [constructor; eauto using same_trans|econstructor; eauto]. Qed.
Lemma run_app l1 l2 s s1 s2 : run l1 s s1 -> run l2 s1 s2 -> run (l1 ++ l2) s s2.
Proof. intros R. revert s2. induction R; intros s3 S; cbn [app]; [eapply run_before; eauto|econstructor; eauto]. Qed.
Lemma run_split l1 l2 s s2 : run (l1 ++ l2) s s2 -> exists s1, run l1 s s1 /\ run l2 s1 s2.
Proof.
  revert s. induction l1 as [|l l1 IH]; cbn [app]; intros s R.
  - exists s. split; [constructor; apply same_refl|exact R].
  - inversion R as [|? ? ? s0 s1 ? S Pl R1]; subst. destruct (IH s1 R1) as (s3 & R2 & R3). exists s3. split; auto. econstructor; eauto.
Qed.

Variable (c : config) (F : nat) (Q : list tline -> state -> Prop).
Hypothesis Qsame : forall ls s s', same s s' -> Q ls s -> Q ls s'.
Hypothesis Prec : forall l s s', P l s s' -> s_file s' = s_file s /\ s_final s' = s_final s /\ lrecs l s s'.
Hypothesis Qfront : forall ls s, Q ls s -> s_skip s = false /\ s_fstack s = [] /\ s_cfg s = c.
Hypothesis step : forall l ls s, Q (l :: ls) s ->
  bad s (run_line (expand F) l s) \/ exists s', run_line (expand F) l s = Ok (Some tt) s' /\ Q ls s' /\ P l s s' /\ s_input s' = s_input s.

Lemma parse_input_errs n s u s' : parse_input F n s = Ok u s' -> s_errs s <= s_errs s'.
Proof.
  intros H. pose proof (parse_input_prs _ Rmsgs_closed Rmsgs_build Rmsgs_pass F n s) as E. unfold prs, prs2 in E. rewrite H in E. apply R_errs, E.
Qed.
Lemma input_run fuel : forall ls more s u s', Q (ls ++ more) s -> s_input s = [map SrcLine ls] -> parse_input F fuel s = Ok u s' ->
  s_errs s' <= s_errs s -> run ls s s' /\ Q more s' /\
  s_file s' = s_file s /\ s_final s' = s_final s /\ s_line s' = last_line (s_line s) ls + 1 /\
  (s_final s = true -> exists k b, s_list s' = rev (k ++ [b]) ++ s_list s /\ blocks (s_file s) ls k /\ mark (s_file s) (s_line s') b).
Proof.
  induction fuel as [|fuel IH]; intros ls more s u s' H I E Er; [discriminate|]. cbn [parse_input] in E. unfold bind at 1, gets at 1 in E. rewrite I in E.
  destruct ls as [|l ls]; cbn [map] in E.
  - destruct (Qfront _ _ H) as (_ & Fs & _). unfold end_of_file in E. unfold bind at 1 2, modify at 1 in E. unfold bind at 1, gets at 1 in E. unfold bind at 1 in E.
    destruct (same_null (s_final (set_line (s_line s + 1) s)) (set_line (s_line s + 1) s)) as (s1 & E1 & S1 & I1 & F1 & Fl & Ln & Mk). rewrite E1 in E.
    unfold bind at 1, modify at 1 in E. unfold bind at 1, gets at 1 in E.
    replace (s_fstack (set_input (tl (s_input s1)) s1)) with (@nil (cstr * Z)) in E by (transitivity (s_fstack s1); [rewrite F1; symmetry; exact Fs|reflexivity]).
    unfold ret at 1 in E. set (s2 := set_input _ _) in E.
    assert (S2 : same s s2). { apply (same_trans _ (set_line (s_line s + 1) s)); [apply same_line|]. apply (same_trans _ s1); [exact S1|apply same_input]. }
    assert (I2 : s_input s2 = []). { change (tl (s_input s1) = []). rewrite I1. change (s_input (set_line (s_line s + 1) s)) with (s_input s). rewrite I. reflexivity. }
    destruct fuel as [|fuel]; [discriminate|]. cbn [parse_input] in E. unfold bind at 1, gets at 1 in E. rewrite I2 in E. unfold ret in E. injection E as _ <-.
    split; [constructor; exact S2|split; [exact (Qsame _ _ _ S2 H)|]]. split; [exact Fl|]. split; [exact (ff_final _ _ (sa_ff _ _ S2))|]. split; [exact Ln|].
    intros Fi. destruct (Mk Fi) as (r & K1 & K2). exists [], r. split; [exact K1|]. split; [constructor|]. change (s_line s2) with (s_line s1). rewrite Ln. exact K2.
  - unfold bind at 1, modify at 1 in E. set (s0 := set_input _ _) in E. assert (S0 : same s s0) by apply same_input.
    pose proof (Qsame _ _ _ S0 H) as H0. cbn [app] in H0. destruct (Qfront _ _ H0) as (Sk & _). unfold bind at 1 in E. unfold read_line in E.
    unfold bind at 1, gets at 1 in E. unfold bind at 1, gets at 1 in E. rewrite Sk in E.
    destruct (step l (ls ++ more) s0 H0) as [B|(s1 & E1 & Q1 & P1 & I1)].
    + exfalso. unfold bad in B. pose proof (sa_errs _ _ S0) as Ee. destruct (run_line (expand F) l s0) as [[[]|] s1| | |]; try discriminate.
      * apply parse_input_errs in E. lia.
      * unfold bind, err, modify in E. injection E as _ <-. change (s_errs s1 + 1 <= s_errs s) in Er. lia.
    + rewrite E1 in E. destruct (IH ls more s1 u s' Q1) as (R1 & Q2 & Fl & Fi & Ln & Rc); [rewrite I1; reflexivity|exact E| |].
      * pose proof (sa_errs _ _ S0). assert (s_errs s0 <= s_errs s1); [|lia].
        pose proof (run_line_prs2 _ _ SR SC SB F l s0) as X. unfold prs2 in X. rewrite E1 in X. apply R_errs, X.
      * split; [econstructor; eauto|]. split; [exact Q2|]. destruct (Prec _ _ _ P1) as (Ef & Ei & El & k & K1 & K2).
        split; [rewrite Fl, Ef; reflexivity|]. split; [rewrite Fi, Ei; reflexivity|]. split; [rewrite Ln, last_line_cons, El; reflexivity|].
        intros Fn. destruct Rc as (k' & b & B1 & B2 & B3); [rewrite Ei; exact Fn|]. exists (k ++ k'), b. rewrite Ef in B2, B3.
        split; [|split; [constructor; [exact K2|exact B2]|exact B3]]. rewrite B1, K1, <- (app_assoc k), (rev_app_distr k), <- (app_assoc (rev _)). reflexivity.
Qed.

(** the files, and the lines in them *)
Fixpoint all_lines (names : list cstr) (ls : list tline) : Prop :=
  match names with
  | [] => ls = []
  | n :: names => exists l1 l2, g_files c n = Some (map SrcLine l1) /\ all_lines names l2 /\ ls = l1 ++ l2
  end.
Lemma parse_files_errs names s u s' : parse_files F names s = Ok u s' -> s_errs s <= s_errs s'.
Proof.
  intros H. pose proof (parse_files_prs _ Rmsgs_closed Rmsgs_build Rmsgs_pass F names s) as E. unfold prs, prs2 in E. rewrite H in E. apply R_errs, E.
Qed.
(** the records of the files *)
Fixpoint all_blocks (names : list cstr) (k : list lrec) : Prop :=
  match names with
  | [] => k = []
  | n :: names => exists l1 k1 k2, g_files c n = Some (map SrcLine l1) /\ file_block n l1 k1 /\ all_blocks names k2 /\ k = k1 ++ k2
  end.
Lemma files_run names : forall ls s u s', all_lines names ls -> Q ls s -> parse_files F names s = Ok u s' ->
  s_errs s' <= s_errs s -> run ls s s' /\ Q [] s' /\ (s_final s = true -> exists k, s_list s' = rev k ++ s_list s /\ all_blocks names k).
Proof.
  induction names as [|n names IH]; intros ls s u s' A H E Er.
  - cbn in A. subst ls. cbn [parse_files] in E. unfold ret in E. injection E as _ <-. split; [constructor; apply same_refl|]. split; [exact H|]. intros _. exists []. split; reflexivity.
  - destruct A as (l1 & l2 & Fn & A & ->). cbn [parse_files] in E. unfold bind at 1 in E. unfold parse_file in E.
    unfold bind at 1, modify at 1 in E. unfold bind at 1, modify at 1 in E. unfold bind at 1, gets at 1 in E.
    replace (s_cfg (set_file n (set_line 0 s))) with c in E by (symmetry; apply (Qfront _ _ H)). rewrite Fn in E.
    unfold bind at 1, modify at 1 in E. unfold bind at 1, gets at 1 in E. unfold bind at 1 in E.
    set (s0 := set_input _ _) in E.
    assert (S0 : same s s0). { apply (same_trans _ (set_line 0 s)); [apply same_line|]. apply (same_trans _ (set_file n (set_line 0 s))); [apply same_file|apply same_input]. }
    destruct (same_null (s_final s0) s0) as (s1 & E1 & S1 & I1 & F1 & Fl & Ln & Mk). rewrite E1 in E. unfold bind at 1 in E.
    destruct (parse_input F F s1) as [u1 s2| | |] eqn:E2; try discriminate.
    destruct (same_null (s_final s0) s2) as (s3 & E3 & S3 & I3 & F3 & _ & _ & Mk3). rewrite E3 in E.
    assert (S01 : same s s1) by (eapply same_trans; eauto).
    pose proof (parse_input_errs _ _ _ _ E2) as M1. pose proof (parse_files_errs _ _ _ _ E) as M2. pose proof (sa_errs _ _ S01) as M3. pose proof (sa_errs _ _ S3) as M4.
    destruct (input_run F l1 l2 s1 u1 s2 (Qsame _ _ _ S01 H)) as (R1 & Q1 & Fl2 & Fi2 & Ln2 & Rc); [rewrite I1; reflexivity|exact E2|lia|].
    destruct (IH l2 s3 u s' A) as (R2 & Q2 & Rf).
    + exact (Qsame _ _ _ S3 Q1).
    + exact E.
    + lia.
    + split; [apply (run_before _ _ s1); auto; eapply run_app; eauto; eapply run_before; eauto|]. split; [exact Q2|].
      intros Fi. assert (Ef : s_file s1 = n) by (rewrite Fl; reflexivity). assert (El : s_line s1 = 0) by (rewrite Ln; reflexivity).
      assert (Fi1 : s_final s1 = true) by (rewrite (ff_final _ _ (sa_ff _ _ S01)); exact Fi).
      destruct (Mk Fi) as (b0 & N1 & N2). destruct (Rc Fi1) as (k & b1 & N3 & N4 & N5). destruct (Mk3 Fi) as (b2 & N6 & N7).
      destruct Rf as (k2 & N8 & N9); [rewrite (ff_final _ _ (sa_ff _ _ S3)), Fi2; exact Fi1|].
      rewrite Ef in N4, N5. rewrite Fl2, Ef in N7. rewrite Ln2, El in N5, N7.
      exists ((b0 :: k ++ [b1; b2]) ++ k2). split.
      * rewrite N8, N6, N3, N1. change (s_list s0) with (s_list s). rewrite rev_block. reflexivity.
      * exists l1, (b0 :: k ++ [b1; b2]), k2. split; [exact Fn|]. split; [|split; [exact N9|reflexivity]]. exists b0, k, b1, b2. auto.
Qed.
End Run.
