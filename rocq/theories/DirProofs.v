(** Directives that move the program counter (.ORG, * =, .DS), .LOAD and .PRINT. *)
From Coq Require Import String Lia.
From Verif Require Import Base BaseProofs Hash Dict DictProofs DictMore Str Opcodes OpcodesProofs Err State Sym Machine Build Pass Prog
  GenX Gen Inv SymProofs SymEx Sem ExprProofs ExprMore OpProofs OpMore InstrProofs InstrMore FarTwice DataProofs DataMore FillProofs.
Open Scope string_scope.
Open Scope list_scope.
Open Scope Z_scope.
Open Scope m_scope.
Ltac Zify.zify_post_hook ::= Z.div_mod_to_equations.

(** ** A directive with one operand *)
Lemma build_one (o : opr) e s : tab s -> wfe e = true -> plain_expr s e ->
  exists p q s1, (n <-o build_expr e ;; some (alloc (KOpr o) [n])) s = Ok (Some p) s1 /\ hv0 s s1 /\ obs s1 = obs s /\
    nth_error (s_nodes s1) p = Some (mkNode (KOpr o) [q]) /\ rep (meaning s) true s1 q e.
Proof.
  intros T W P. destruct (build_item_ok (IExpr e) s T (conj W P)) as (q & s1 & E1 & H1 & O1 & R1). cbn [build_item irep] in *.
  unfold bindo, bind. rewrite E1. unfold some, bind, ret. rewrite alloc_eq.
  destruct (hv_alloc_obs (KOpr o) [q] s1 eq_refl (h_tab _ _ H1)) as [H3 O3].
  do 3 eexists. split; [reflexivity|]. split; [exact (hv0_trans _ _ _ H1 H3)|]. split; [congruence|].
  split; [apply alloc_nth|]. exact (rep_hv _ _ _ _ _ _ H3 R1).
Qed.
Lemma one_arg F st o e v s : (forall ex first s, build_stmt ex first st s = (n <-o build_expr e ;; some (alloc (KOpr o) [n])) s) ->
  ready s -> operand_value s e v -> (height e <= F)%nat ->
  forall ex first, exists p q s1, build_stmt ex first st s = Ok (Some p) s1 /\ hv0 s s1 /\ obs s1 = obs s /\
    nth_error (s_nodes s1) p = Some (mkNode (KOpr o) [q]) /\
    (forall s2, hv0 s1 s2 -> s_stop s2 = false -> s_pc s2 = s_pc s1 -> exists s3, expand F q s2 = Ok v s3 /\ hv0 s2 s3 /\ obs s3 = obs s2).
Proof.
  intros B R V HF ex first. destruct (ready_tab _ R) as [T St]. destruct (operand_known _ _ _ V) as (W & P & _ & K & _).
  destruct (build_one o e s T W P) as (p & q & s1 & E & H & O & N & Rp). exists p, q, s1. rewrite B. split; [exact E|]. split; [exact H|]. split; [exact O|]. split; [exact N|].
  intros s2 H2 St2 Pc. destruct (eval_known _ _ _ v F s2 q HF (h_tab _ _ H2) St2 (rep_hv _ _ _ _ _ _ H2 Rp) ltac:(rewrite Pc, (obs_pc _ _ O); exact K)) as (s3 & E3 & H3 & O3 & _).
  exists s3. split; [exact E3|]. split; [exact H3|exact O3].
Qed.
Lemma expand_opr F s p o l : s_stop s = false -> nth_error (s_nodes s) p = Some (mkNode (KOpr o) l) ->
  expand (S F) p s = x_node (expand F) F p (mkNode (KOpr o) l) s.
Proof. intros St N. cbn [expand]. unfold bind at 1, gets at 1. rewrite St. unfold bind at 1, node_get, bind, gets. rewrite N. reflexivity. Qed.

(** all but the program counter, the origin and what is known of it *)
Definition rest_same (s s' : state) : Prop :=
  s_out s' = s_out s /\ s_total s' = s_total s /\ s_errs s' = s_errs s /\ s_console s' = s_console s /\ s_changed s' = s_changed s /\
  (forall n, plain n -> value_of s' n = value_of s n).
Lemma rest_obs s s1 s' : hv0 s s1 -> hv0 s1 s' -> s_out (obs s') = s_out (obs s1) -> s_total (obs s') = s_total (obs s1) -> s_errs (obs s') = s_errs (obs s1) ->
  s_console (obs s') = s_console (obs s1) -> s_changed (obs s') = s_changed (obs s1) -> obs s1 = obs s -> rest_same s s'.
Proof.
  intros H1 H2 A1 A2 A3 A4 A5 O. rewrite O in *. rewrite !obs_get_out, !obs_get_total, !obs_get_errs, !obs_get_console, !obs_get_changed in *.
  do 5 (split; [assumption|]). intros n Pn. apply value_of_hv; [exact (hv0_trans _ _ _ H1 H2)|exact Pn].
Qed.

(** ** .DS *)
Theorem ds_ok F first e v s : ready s -> operand_value s e v -> (height e <= F)%nat -> 0 <= v ->
  exists p s1 s2, build_stmt (expand (S F)) first (SDs e) s = Ok (Some p) s1 /\ expand (S F) p s1 = Ok v s2 /\
    s_pc s2 = s_pc s + Z.max 1 v /\ s_origin s2 = s_origin s /\ s_org_spec s2 = s_org_spec s /\ rest_same s s2.
Proof.
  intros R V HF Vp. destruct (one_arg F (SDs e) ODs e v s ltac:(reflexivity) R V HF (expand (S F)) first) as (p & q & s1 & E & H & O & N & A).
  pose proof (ready_tab _ R) as [_ St]. rewrite <- (obs_stop _ _ O) in St. destruct (A s1 (hv_refl _ (h_tab _ _ H)) St eq_refl) as (s2 & E2 & H2 & O2).
  exists p, s1. eexists. split; [exact E|]. rewrite (expand_opr F s1 p ODs [q] St N). change (x_node (expand F) F p (mkNode (KOpr ODs) [q]) s1) with (x_ds (expand F) (mkNode (KOpr ODs) [q]) s1).
  unfold x_ds, opn. cbn [n_ops nth_error]. unfold bind at 1, ret at 1. unfold bind at 1. rewrite E2. replace (v <? 0) with false by lia. unfold bind, modify, ret.
  split; [reflexivity|]. change (s_pc (set_pc ?a ?b)) with a. rewrite (obs_pc _ _ O2), (obs_pc _ _ O). split; [destruct (0 <? v) eqn:X; lia|].
  change (s_origin (set_pc ?a ?b)) with (s_origin b). change (s_org_spec (set_pc ?a ?b)) with (s_org_spec b).
  rewrite (obs_field s_origin _ _ O2 obs_get_origin), (obs_field s_origin _ _ O obs_get_origin), (obs_field s_org_spec _ _ O2 obs_get_org_spec), (obs_field s_org_spec _ _ O obs_get_org_spec).
  split; [reflexivity|]. split; [reflexivity|].
  apply (rest_obs s s1); [exact H| | | | | | |exact O].
  - apply (hv0_trans _ _ _ H2), hv0_frame; auto; apply (h_tab _ _ H2).
  - pose proof (obs_field s_out _ _ O2 obs_get_out) as Y. rewrite !obs_get_out. exact Y.
  - pose proof (obs_field s_total _ _ O2 obs_get_total) as Y. rewrite !obs_get_total. exact Y.
  - pose proof (obs_field s_errs _ _ O2 obs_get_errs) as Y. rewrite !obs_get_errs. exact Y.
  - pose proof (obs_field s_console _ _ O2 obs_get_console) as Y. rewrite !obs_get_console. exact Y.
  - pose proof (obs_field s_changed _ _ O2 obs_get_changed) as Y. rewrite !obs_get_changed. exact Y.
Qed.
Theorem ds_negative F first e v s : ready s -> operand_value s e v -> (height e <= F)%nat -> v < 0 ->
  exists p s1 s2, build_stmt (expand (S F)) first (SDs e) s = Ok (Some p) s1 /\ expand (S F) p s1 = Exit (-1) s2 /\ s_errs s2 = s_errs s + 1 /\ s_out s2 = s_out s.
Proof.
  intros R V HF Vp. destruct (one_arg F (SDs e) ODs e v s ltac:(reflexivity) R V HF (expand (S F)) first) as (p & q & s1 & E & H & O & N & A).
  pose proof (ready_tab _ R) as [_ St]. rewrite <- (obs_stop _ _ O) in St. destruct (A s1 (hv_refl _ (h_tab _ _ H)) St eq_refl) as (s2 & E2 & H2 & O2).
  exists p, s1. eexists. split; [exact E|]. rewrite (expand_opr F s1 p ODs [q] St N). change (x_node (expand F) F p (mkNode (KOpr ODs) [q]) s1) with (x_ds (expand F) (mkNode (KOpr ODs) [q]) s1).
  unfold x_ds, opn. cbn [n_ops nth_error]. unfold bind at 1, ret at 1. unfold bind at 1. rewrite E2. replace (v <? 0) with true by lia.
  split; [reflexivity|]. rewrite <- (obs_field s_errs _ _ O obs_get_errs), <- (obs_field s_errs _ _ O2 obs_get_errs), <- (obs_field s_out _ _ O obs_get_out), <- (obs_field s_out _ _ O2 obs_get_out).
  clear. split; reflexivity.
Qed.

(** ** * = and .ORG *)
Lemma asg_hv n s : tab s -> hv0 s (set_pc_assigned n s).
Proof. intros T. apply hv0_frame; auto. Qed.
Theorem star_ok F first e v s : ready s -> operand_value s e v -> (height e <= F)%nat ->
  exists p s1 s2, build_stmt (expand (S F)) first (SPcAssign e) s = Ok (Some p) s1 /\ expand (S F) p s1 = Ok 0 s2 /\
    s_pc s2 = v /\ s_origin s2 = v /\ s_org_spec s2 = true /\ s_org_once s2 = s_org_once s /\ rest_same s s2.
Proof.
  intros R V HF. destruct (one_arg F (SPcAssign e) OPcAssign e v s ltac:(reflexivity) R V HF (expand (S F)) first) as (p & q & s1 & E & H & O & N & A).
  pose proof (ready_tab _ R) as [_ St]. rewrite <- (obs_stop _ _ O) in St.
  destruct (A (set_pc_assigned (s_pc_assigned s1 + 1) s1) (asg_hv _ _ (h_tab _ _ H)) St eq_refl) as (s2 & E2 & H2 & O2).
  exists p, s1. eexists. split; [exact E|]. rewrite (expand_opr F s1 p OPcAssign [q] St N).
  change (x_node (expand F) F p (mkNode (KOpr OPcAssign) [q]) s1) with (x_pc_assign (expand F) (mkNode (KOpr OPcAssign) [q]) s1).
  unfold x_pc_assign, opn. cbn [n_ops nth_error]. unfold bind at 1, modify at 1. unfold bind at 1, ret at 1. unfold bind at 1. rewrite E2. unfold bind, modify, ret.
  split; [reflexivity|]. split; [reflexivity|]. split; [reflexivity|]. split; [reflexivity|].
  pose proof (obs_field s_org_once _ _ O2 obs_get_org_once) as X. split; [transitivity (s_org_once s2); [reflexivity|]; rewrite X; exact (obs_field s_org_once _ _ O obs_get_org_once)|].
  apply (rest_obs s s1); [exact H| | | | | | |exact O].
  - apply (hv0_trans _ _ _ (asg_hv (s_pc_assigned s1 + 1) _ (h_tab _ _ H))). apply (hv0_trans _ _ _ H2), hv0_frame; auto; apply (h_tab _ _ H2).
  - pose proof (obs_field s_out _ _ O2 obs_get_out) as Y. rewrite !obs_get_out. exact Y.
  - pose proof (obs_field s_total _ _ O2 obs_get_total) as Y. rewrite !obs_get_total. exact Y.
  - pose proof (obs_field s_errs _ _ O2 obs_get_errs) as Y. rewrite !obs_get_errs. exact Y.
  - pose proof (obs_field s_console _ _ O2 obs_get_console) as Y. rewrite !obs_get_console. exact Y.
  - pose proof (obs_field s_changed _ _ O2 obs_get_changed) as Y. rewrite !obs_get_changed. exact Y.
Qed.
Theorem org_ok F first e v s : ready s -> operand_value s e v -> (height e <= F)%nat -> s_org_once s = false ->
  exists p s1 s2, build_stmt (expand (S F)) first (SOrg e) s = Ok (Some p) s1 /\ expand (S F) p s1 = Ok 0 s2 /\
    s_pc s2 = v /\ s_origin s2 = v /\ s_org_spec s2 = true /\ s_org_once s2 = true /\ rest_same s s2.
Proof.
  intros R V HF Once. destruct (one_arg F (SOrg e) OOrg e v s ltac:(reflexivity) R V HF (expand (S F)) first) as (p & q & s1 & E & H & O & N & A).
  pose proof (ready_tab _ R) as [_ St]. rewrite <- (obs_stop _ _ O) in St. rewrite <- (obs_field s_org_once _ _ O obs_get_org_once) in Once.
  destruct (A (set_pc_assigned (s_pc_assigned s1 + 1) s1) (asg_hv _ _ (h_tab _ _ H)) St eq_refl) as (s2 & E2 & H2 & O2).
  exists p, s1. eexists. split; [exact E|]. rewrite (expand_opr F s1 p OOrg [q] St N).
  change (x_node (expand F) F p (mkNode (KOpr OOrg) [q]) s1) with (x_org (expand F) (mkNode (KOpr OOrg) [q]) s1).
  unfold x_org, opn. cbn [n_ops nth_error]. unfold bind at 1, modify at 1. unfold bind at 1, gets at 1. change (s_org_once (set_pc_assigned ?a ?b)) with (s_org_once b). rewrite Once.
  unfold bind at 1, ret at 1. unfold bind at 1. rewrite E2. unfold bind, modify, ret.
  split; [reflexivity|]. split; [reflexivity|]. split; [reflexivity|]. split; [reflexivity|]. split; [reflexivity|].
  apply (rest_obs s s1); [exact H| | | | | | |exact O].
  - apply (hv0_trans _ _ _ (asg_hv (s_pc_assigned s1 + 1) _ (h_tab _ _ H))). apply (hv0_trans _ _ _ H2), hv0_frame; auto; apply (h_tab _ _ H2).
  - pose proof (obs_field s_out _ _ O2 obs_get_out) as Y. rewrite !obs_get_out. exact Y.
  - pose proof (obs_field s_total _ _ O2 obs_get_total) as Y. rewrite !obs_get_total. exact Y.
  - pose proof (obs_field s_errs _ _ O2 obs_get_errs) as Y. rewrite !obs_get_errs. exact Y.
  - pose proof (obs_field s_console _ _ O2 obs_get_console) as Y. rewrite !obs_get_console. exact Y.
  - pose proof (obs_field s_changed _ _ O2 obs_get_changed) as Y. rewrite !obs_get_changed. exact Y.
Qed.
Theorem org_twice F first e v s : ready s -> operand_value s e v -> (height e <= F)%nat -> s_org_once s = true ->
  exists p s1 s2, build_stmt (expand (S F)) first (SOrg e) s = Ok (Some p) s1 /\ expand (S F) p s1 = Ok 0 s2 /\
    s_errs s2 = s_errs s + 1 /\ s_pc s2 = s_pc s /\ s_origin s2 = s_origin s /\ s_out s2 = s_out s.
Proof.
  intros R V HF Once. destruct (one_arg F (SOrg e) OOrg e v s ltac:(reflexivity) R V HF (expand (S F)) first) as (p & q & s1 & E & H & O & N & _).
  pose proof (ready_tab _ R) as [_ St]. rewrite <- (obs_stop _ _ O) in St. rewrite <- (obs_field s_org_once _ _ O obs_get_org_once) in Once.
  exists p, s1. eexists. split; [exact E|]. rewrite (expand_opr F s1 p OOrg [q] St N).
  change (x_node (expand F) F p (mkNode (KOpr OOrg) [q]) s1) with (x_org (expand F) (mkNode (KOpr OOrg) [q]) s1).
  unfold x_org. unfold bind at 1, modify at 1. unfold bind at 1, gets at 1. change (s_org_once (set_pc_assigned ?a ?b)) with (s_org_once b). rewrite Once.
  split; [reflexivity|]. rewrite <- (obs_field s_errs _ _ O obs_get_errs), <- (obs_field s_out _ _ O obs_get_out), <- (obs_field s_origin _ _ O obs_get_origin), <- (obs_pc _ _ O).
  repeat split; reflexivity.
Qed.

(** ** Code beyond the end of the file *)
Definition head_size (s : state) : Z := if (s_total s =? 0) && s_c64 s then 2 else 0.
Lemma header_total_eq s : s_total (header s) = s_total s + head_size s.
Proof. unfold header, head_size. destruct (_ && _); cbn [s_total put set_out set_total length]; lia. Qed.
Theorem gap_stops ex p s : s_opened s = true -> s_org_spec s = true -> s_origin s + s_total s + head_size s < s_pc s ->
  exists s', generate_output ex p s = Exit (-1) s' /\ s_errs s' = s_errs s + 1 /\
    s_out s' = (if (s_total s =? 0) && s_c64 s then [s_origin s / 256 mod 256; s_origin s mod 256] else []) ++ s_out s.
Proof.
  intros Op Os G. unfold generate_output. unfold bind at 1, gets at 1. unfold bind at 1, gets at 1. rewrite Op, Os. cbn [negb orb].
  unfold bind at 1, gets at 1. unfold bind at 1. rewrite write_header_eq by exact Os. fold (hdr s). unfold bind at 1, gets at 1.
  destruct (hdr_same s) as (_ & P & _ & Og & Tt). rewrite P, Og, Tt, header_total_eq. replace (0 <? _) with true by lia.
  eexists. split; [reflexivity|]. clear. unfold hdr. destruct (s_total s =? 0); [destruct (s_c64 s)|]; split; reflexivity.
Qed.

(** ** .LOAD *)
(** the bytes [b] have been written, and the program counter has moved by their number *)
Record stepped (b : list Z) (s s' : state) : Prop := mkStepped {
  st_hv : hv0 s s'; st_pc : s_pc s' = s_pc s + Z.of_nat (length b); st_out : data_written b s s';
  st_total : s_total s' = if s_final s && s_opened s then s_total s + head_size s + Z.of_nat (length b) else s_total s;
  st_errs : s_errs s' = s_errs s; st_stop : s_stop s' = s_stop s; st_final : s_final s' = s_final s; st_opened : s_opened s' = s_opened s;
  st_c64 : s_c64 s' = s_c64 s; st_origin : s_origin s' = s_origin s; st_console : s_console s' = s_console s }.
Lemma writes_fields l z : s_stop (writes l z) = s_stop z /\ s_final (writes l z) = s_final z /\ s_opened (writes l z) = s_opened z /\ s_c64 (writes l z) = s_c64 z /\
  s_origin (writes l z) = s_origin z /\ s_console (writes l z) = s_console z /\ s_errs (writes l z) = s_errs z.
Proof. unfold writes, header. destruct (_ && _); [destruct (_ && _)|]; cbn; auto 10. Qed.
Definition dst (z : state) : state := set_ety EtBytes (set_org_spec true z).
Lemma stepped_final b s s' : hv0 s s' -> obs s' = set_pc (s_pc s + Z.of_nat (length b)) (writes b (dst (obs s))) -> s_final s = true -> stepped b s s'.
Proof.
  intros H O Fi.
  destruct (writes_fields b (dst (obs s))) as (A1 & A2 & A3 & A4 & A5 & A6 & A7).
  assert (Wo : s_out (writes b (dst (obs s))) = if s_opened s then rev (map byte b) ++ (if (s_total s =? 0) && s_c64 s then [s_origin s / 256 mod 256; s_origin s mod 256] else []) ++ s_out s else s_out s).
  { generalize (obs_get_opened s) (obs_get_total s) (obs_get_c64 s) (obs_get_origin s) (obs_get_out s). generalize (obs s). clear. intros z Z1 Z2 Z3 Z4 Z5.
    unfold writes. change (s_opened (dst z)) with (s_opened z). change (s_org_spec (dst z)) with true. rewrite andb_true_r, Z1.
    destruct (s_opened s); [|exact Z5]. rewrite out_put, out_header.
    change (s_total (dst z)) with (s_total z). change (s_c64 (dst z)) with (s_c64 z). change (s_origin (dst z)) with (s_origin z). change (s_out (dst z)) with (s_out z).
    rewrite Z2, Z3, Z4, Z5. reflexivity. }
  assert (Wt : s_total (writes b (dst (obs s))) = if s_opened s then s_total s + head_size s + Z.of_nat (length b) else s_total s).
  { generalize (obs_get_opened s) (obs_get_total s) (obs_get_c64 s). unfold head_size. generalize (obs s). clear. intros z Z1 Z2 Z3.
    unfold writes. change (s_opened (dst z)) with (s_opened z). change (s_org_spec (dst z)) with true. rewrite andb_true_r, Z1.
    destruct (s_opened s); [|exact Z2]. change (s_total (put ?l ?x)) with (s_total x + Z.of_nat (length l)). rewrite header_total_eq. unfold head_size.
    change (s_total (dst z)) with (s_total z). change (s_c64 (dst z)) with (s_c64 z). rewrite Z2, Z3. reflexivity. }
  revert A1 A2 A3 A4 A5 A6 A7 Wo Wt O.
  generalize (obs_get_stop s) (obs_get_final s) (obs_get_opened s) (obs_get_c64 s) (obs_get_origin s) (obs_get_console s) (obs_get_errs s). generalize (obs s).
  intros z G1 G2 G3 G4 G5 G6 G7.
  change (s_stop (dst z)) with (s_stop z). change (s_final (dst z)) with (s_final z). change (s_opened (dst z)) with (s_opened z).
  change (s_c64 (dst z)) with (s_c64 z). change (s_origin (dst z)) with (s_origin z). change (s_console (dst z)) with (s_console z). change (s_errs (dst z)) with (s_errs z).
  rewrite G1, G2, G3, G4, G5, G6, G7.
  generalize (writes b (dst z)). intros w A1 A2 A3 A4 A5 A6 A7 Wo Wt O. constructor.
  - exact H.
  - rewrite <- (obs_get_pc s'), O. reflexivity.
  - unfold data_written. rewrite Fi. cbn [andb]. rewrite <- (obs_get_out s'), O, pc_out. exact Wo.
  - rewrite Fi. cbn [andb]. rewrite <- (obs_get_total s'), O, pc_total. exact Wt.
  - rewrite <- (obs_get_errs s'), O, pc_errs. exact A7.
  - rewrite <- (obs_get_stop s'), O, pc_stop. exact A1.
  - rewrite <- (obs_get_final s'), O, pc_final. exact A2.
  - rewrite <- (obs_get_opened s'), O, pc_opened. exact A3.
  - rewrite <- (obs_get_c64 s'), O, pc_c64. exact A4.
  - rewrite <- (obs_get_origin s'), O, pc_origin. exact A5.
  - rewrite <- (obs_get_console s'), O. exact A6.
Qed.
Lemma stepped_analysis b s s' : hv0 s s' -> obs s' = set_pc (s_pc s + Z.of_nat (length b)) (dst (obs s)) -> s_final s = false -> stepped b s s'.
Proof.
  intros H O Fi. assert (A : forall A (f : state -> A), (forall z, f (dst z) = f z) -> (forall v z, f (set_pc v z) = f z) -> (forall s, f (obs s) = f s) -> f s' = f s).
  { intros A f F1 F2 F3. rewrite <- (F3 s'), O, F2, F1. apply F3. }
  constructor.
  - exact H.
  - rewrite <- (obs_get_pc s'), O. reflexivity.
  - unfold data_written. rewrite Fi. cbn [andb]. apply (A _ s_out); auto using obs_get_out.
  - rewrite Fi. cbn [andb]. apply (A _ s_total); auto using obs_get_total.
  - apply (A _ s_errs); auto using obs_get_errs.
  - apply (A _ s_stop); auto using obs_get_stop.
  - apply (A _ s_final); auto using obs_get_final.
  - apply (A _ s_opened); auto using obs_get_opened.
  - apply (A _ s_c64); auto using obs_get_c64.
  - apply (A _ s_origin); auto using obs_get_origin.
  - apply (A _ s_console); auto using obs_get_console.
Qed.
Lemma stepped_nil s : tab s -> (s_final s && s_opened s = true -> head_size s = 0) -> stepped [] s s.
Proof.
  intros T H0. constructor; try reflexivity.
  - apply hv_refl, T.
  - cbn. lia.
  - unfold data_written. destruct (s_final s && s_opened s) eqn:X; [|reflexivity]. specialize (H0 eq_refl). unfold head_size in H0. destruct ((s_total s =? 0) && s_c64 s); [discriminate|reflexivity].
  - destruct (s_final s && s_opened s) eqn:X; [|reflexivity]. rewrite (H0 eq_refl). cbn. lia.
Qed.
Lemma stepped_app b1 b2 s s1 s2 : 0 <= s_total s -> b1 <> [] -> stepped b1 s s1 -> stepped b2 s1 s2 -> stepped (b1 ++ b2) s s2.
Proof.
  intros T0 B1 A B. assert (L : 0 < Z.of_nat (length b1)) by (destruct b1; [contradiction|cbn [length]; lia]).
  assert (H1 : s_final s && s_opened s = true -> (s_total s1 =? 0) && s_c64 s1 = false).
  { intros X. rewrite (st_total _ _ _ A), X. rewrite (proj2 (Z.eqb_neq _ 0)); [reflexivity|]. unfold head_size. destruct ((s_total s =? 0) && s_c64 s); lia. }
  pose proof (st_out _ _ _ A) as Oa. pose proof (st_out _ _ _ B) as Ob. pose proof (st_total _ _ _ A) as Ta. pose proof (st_total _ _ _ B) as Tb.
  unfold data_written, head_size in *. rewrite (st_final _ _ _ A), (st_opened _ _ _ A) in Ob, Tb. constructor.
  - exact (hv0_trans _ _ _ (st_hv _ _ _ A) (st_hv _ _ _ B)).
  - rewrite (st_pc _ _ _ B), (st_pc _ _ _ A), app_length. lia.
  - unfold data_written. destruct (s_final s && s_opened s) eqn:X; [|congruence]. rewrite (H1 eq_refl) in Ob. cbn [app] in Ob. rewrite Ob, Oa, map_app, rev_app_distr, <- !app_assoc. reflexivity.
  - destruct (s_final s && s_opened s) eqn:X; [|congruence]. rewrite (H1 eq_refl) in Tb. rewrite Tb, Ta, app_length. unfold head_size. lia.
  - rewrite (st_errs _ _ _ B). apply (st_errs _ _ _ A).
  - rewrite (st_stop _ _ _ B). apply (st_stop _ _ _ A).
  - rewrite (st_final _ _ _ B). apply (st_final _ _ _ A).
  - rewrite (st_opened _ _ _ B). apply (st_opened _ _ _ A).
  - rewrite (st_c64 _ _ _ B). apply (st_c64 _ _ _ A).
  - rewrite (st_origin _ _ _ B). apply (st_origin _ _ _ A).
  - rewrite (st_console _ _ _ B). apply (st_console _ _ _ A).
Qed.

Lemma load_step F s k v : tab s -> s_stop s = false -> (k = 1 /\ 0 <= v <= 255 \/ k = 2 /\ 0 <= v <= 65535) ->
  (s_final s = true -> data_gap s) -> 0 <= s_total s ->
  exists s', (modify (set_dsz k) ;;; c <- constant_node v ;; e <- alloc (KOpr OExprList) [c] ;; d <- alloc (KData k e) [] ;; expand (S (S (S F))) d) s = Ok 0 s' /\
    stepped (if k =? 1 then [v] else [v; v / 256]) s s'.
Proof.
  intros T St K G T0. set (b := if k =? 1 then [v] else [v; v / 256]).
  assert (T1 : tab (set_dsz k s)) by (apply (h_tab _ _ (hv0_frame s (set_dsz k s) T eq_refl eq_refl eq_refl eq_refl))).
  unfold bind at 1, modify at 1. unfold constant_node. unfold bind at 1. rewrite alloc_eq. unfold bind at 1. rewrite alloc_eq. unfold bind at 1. rewrite alloc_eq.
  set (s1 := set_dsz k s) in *. set (c := length (s_nodes s1)). destruct (hv_alloc_obs (KCon v false) [] s1 eq_refl T1) as [H2 O2].
  pose proof (alloc_nth (KCon v false) [] s1) as N2. fold c in N2. set (s2 := set_nodes (s_nodes s1 ++ [mkNode (KCon v false) []]) s1) in *.
  set (e := length (s_nodes s2)). destruct (hv_alloc_obs (KOpr OExprList) [c] s2 eq_refl (h_tab _ _ H2)) as [H3 O3].
  pose proof (alloc_nth (KOpr OExprList) [c] s2) as N3. fold e in N3. set (s3 := set_nodes (s_nodes s2 ++ [mkNode (KOpr OExprList) [c]]) s2) in *.
  set (d := length (s_nodes s3)). destruct (hv_alloc_obs (KData k e) [] s3 eq_refl (h_tab _ _ H3)) as [H4 O4].
  pose proof (alloc_nth (KData k e) [] s3) as N4. fold d in N4. set (s4 := set_nodes (s_nodes s3 ++ [mkNode (KData k e) []]) s3) in *.
  assert (H : hv0 s s4) by (apply (hv0_trans _ s1); [apply hv0_frame; auto|exact (hv0_trans _ _ _ H2 (hv0_trans _ _ _ H3 H4))]).
  assert (O : obs s4 = obs s) by (rewrite O4, O3, O2; unfold s1; apply obs_set_dsz).
  assert (Lr : lrep (meaning s) s4 e [IExpr (EInt v)]).
  { apply (LrepOne _ _ e c); [exact (opr_hv _ _ _ _ _ H4 N3)|]. cbn [irep]. apply RepInt. apply (con_hv s3 s4 c v H4). apply (con_hv s2 s3 c v H3). exact N2. }
  pose proof (hv_start k s4 (h_tab _ _ H)) as Hs. apply (lrep_hv _ _ _ _ _ Hs) in Lr.
  assert (St4 : s_stop s4 = false) by (rewrite (obs_stop _ _ O); exact St).
  rewrite (expand_data (S (S F)) s4 d k e St4 N4).
  assert (Sz : In k [0; 1; 2]) by (destruct K as [[-> _]|[-> _]]; cbn; auto).
  assert (Et : dety k = EtBytes) by (destruct K as [[-> _]|[-> _]]; reflexivity).
  assert (Is : forall pc, items_size (fun n => cval (meaning s n)) k pc [IExpr (EInt v)] = Some (Z.of_nat (length b))).
  { intros pc. unfold b. destruct K as [[-> _]|[-> _]]; reflexivity. }
  assert (Ib : forall pc, items_bytes (fun n => cval (meaning s n)) k pc [IExpr (EInt v)] = Some b).
  { intros pc. unfold b. cbn [items_bytes item_size item_bytes item_value_at sem]. unfold value_fits.
    destruct K as [[-> V]|[-> V]]; cbn [Z.eqb Pos.eqb]; [replace ((-254 <=? v) && (v <=? 255)) with true by lia|replace ((-65534 <=? v) && (v <=? 65535)) with true by lia]; reflexivity. }
  destruct (s_final s) eqn:Fi.
  - assert (Gd : no_gap (data_start k s4)).
    { unfold no_gap. intros W. change (s_pc (data_start k s4)) with (s_pc s4). change (s_origin (data_start k s4)) with (s_origin s4).
      change (s_opened s4 && true = true) in W. rewrite andb_true_r in W.
      rewrite (obs_pc _ _ O), (obs_field s_origin _ _ O obs_get_origin).
      replace (s_total (header (data_start k s4))) with (s_total (header s4)).
      - rewrite <- (header_obs s4), O, header_obs. apply (G eq_refl). rewrite <- (obs_field s_opened _ _ O obs_get_opened). exact W.
      - unfold header. change (s_total (data_start k s4)) with (s_total s4). change (s_c64 (data_start k s4)) with (s_c64 s4).
        destruct ((s_total s4 =? 0) && s_c64 s4); reflexivity. }
    destruct (list_final (meaning s) k [IExpr (EInt v)] e (S (S F)) (data_start k s4) (Z.of_nat (length b)) b Lr ltac:(cbn; lia) (h_tab _ _ Hs)
       St4 eq_refl eq_refl eq_refl eq_refl Sz ltac:(change (s_final s4 = true); rewrite (obs_field s_final _ _ O obs_get_final); exact Fi) Gd
       ltac:(change (0 <= s_total s4); rewrite (obs_field s_total _ _ O obs_get_total); exact T0) (Is _) (Ib _)) as (s5 & E5 & H5 & O5 & _).
    exists s5. split; [exact E5|]. apply stepped_final; [exact (hv0_trans _ _ _ H (hv0_trans _ _ _ Hs H5))| |exact Fi].
    rewrite O5, obs_start, O, Et. change (s_pc (data_start k s4)) with (s_pc s4). rewrite (obs_pc _ _ O). reflexivity.
  - destruct (list_analysis (meaning s) k [IExpr (EInt v)] e (S (S F)) (data_start k s4) (Z.of_nat (length b)) Lr ltac:(cbn; lia) (h_tab _ _ Hs)
       St4 eq_refl eq_refl eq_refl Sz ltac:(change (s_final s4 = false); rewrite (obs_field s_final _ _ O obs_get_final); exact Fi) (Is _)) as (s5 & E5 & H5 & O5 & _).
    exists s5. split; [exact E5|]. apply stepped_analysis; [exact (hv0_trans _ _ _ H (hv0_trans _ _ _ Hs H5))| |exact Fi].
    rewrite O5, obs_start, O, Et. change (s_pc (data_start k s4)) with (s_pc s4). rewrite (obs_pc _ _ O). reflexivity.
Qed.
Lemma stepped_gap b s s1 : 0 <= s_total s -> stepped b s s1 -> (s_final s = true -> data_gap s) -> s_final s1 = true -> data_gap s1.
Proof.
  intros T0 A G Fi Op. rewrite (st_final _ _ _ A) in Fi. rewrite (st_opened _ _ _ A) in Op. specialize (G Fi Op).
  rewrite header_total_eq in *. rewrite (st_pc _ _ _ A), (st_origin _ _ _ A). pose proof (st_total _ _ _ A) as Tt. rewrite Fi, Op in Tt. cbn [andb] in Tt.
  assert (0 <= head_size s1) by (unfold head_size; destruct (_ && _); lia). lia.
Qed.
Lemma stepped_bytes b b' s s' : map byte b = map byte b' -> stepped b s s' -> stepped b' s s'.
Proof.
  intros E A. assert (L : length b = length b') by (rewrite <- (map_length byte b), E; apply map_length). destruct A as [A1 A2 A3 A4 A5 A6 A7 A8 A9 A10 A11].
  constructor; auto; try (rewrite <- L; assumption). unfold data_written in *. rewrite <- E. exact A3.
Qed.
Lemma stepped_pos b s s' : 0 <= s_total s -> stepped b s s' -> 0 <= s_total s'.
Proof. intros T0 A. rewrite (st_total _ _ _ A). unfold head_size. destruct (s_final s && s_opened s); [|lia]. destruct (_ && _); lia. Qed.
Definition is_byte (b : Z) : Prop := 0 <= b <= 255.
Lemma load_loop_ok F : forall n l s, (length l <= n)%nat -> Forall is_byte l -> tab s -> s_stop s = false -> (s_final s = true -> data_gap s) -> 0 <= s_total s ->
  (l = [] -> s_final s && s_opened s = true -> head_size s = 0) ->
  exists s', load_loop (expand (S (S (S F)))) l s = Ok tt s' /\ stepped l s s'.
Proof.
  induction n as [|n IH]; intros l s Ln B T St G T0 H0.
  - destruct l; [|cbn in Ln; lia]. exists s. split; [reflexivity|]. apply stepped_nil; auto.
  - destruct l as [|a [|b l]].
    + exists s. split; [reflexivity|]. apply stepped_nil; auto.
    + apply Forall_inv in B. destruct (load_step F s 1 a T St (or_introl (conj eq_refl B)) G T0) as (s1 & E1 & A1). exists s1. split; [|exact A1].
      cbn [load_loop]. unfold bind at 1, modify at 1. unfold bind at 1, modify at 1 in E1. unfold bind in *. destruct (constant_node a _) as [c z| | |]; try discriminate E1.
      destruct (alloc _ _ z) as [e z1| | |]; try discriminate E1. destruct (alloc _ _ z1) as [d z2| | |]; try discriminate E1. rewrite E1. reflexivity.
    + inversion B as [|x1 y1 B1 B']; subst. inversion B' as [|x2 y2 B2 B3]; subst. unfold is_byte in B1, B2.
      assert (Bw : 0 <= a + b * 256 <= 65535) by lia.
      destruct (load_step F s 2 (a + b * 256) T St (or_intror (conj eq_refl Bw)) G T0) as (s1 & E1 & A1). change (2 =? 1) with false in A1. cbn match in A1.
      apply (stepped_bytes _ [a; b]) in A1; [|cbn [map]; unfold byte; f_equal; [lia|]; f_equal; lia].
      destruct (IH l s1 ltac:(cbn in Ln; lia) B3 (h_tab _ _ (st_hv _ _ _ A1)) ltac:(rewrite (st_stop _ _ _ A1); exact St) (stepped_gap _ _ _ T0 A1 G) (stepped_pos _ _ _ T0 A1)) as (s2 & E2 & A2).
      { intros _ X. rewrite (st_final _ _ _ A1), (st_opened _ _ _ A1) in X. unfold head_size. rewrite (st_total _ _ _ A1), X. rewrite (proj2 (Z.eqb_neq _ 0)); [reflexivity|].
        unfold head_size. cbn [length]. destruct ((s_total s =? 0) && s_c64 s); lia. }
      exists s2. split; [|exact (stepped_app [a; b] l s s1 s2 T0 ltac:(discriminate) A1 A2)].
      cbn [load_loop]. unfold bind at 1, modify at 1. unfold bind at 1, modify at 1 in E1. unfold bind in *. destruct (constant_node (a + b * 256) _) as [c z| | |]; try discriminate E1.
      destruct (alloc _ _ z) as [e z1| | |]; try discriminate E1. destruct (alloc _ _ z1) as [d z2| | |]; try discriminate E1. rewrite E1. exact E2.
Qed.
Theorem load_ok F first raw t l s : ready s -> text_of raw = Some t -> g_bins (s_cfg s) t = Some l -> Forall is_byte l -> l <> [] ->
  (s_final s = true -> no_hole s) -> 0 <= s_total s ->
  exists p s1 s2, build_stmt (expand (S (S (S (S F))))) first (SLoad raw) s = Ok (Some p) s1 /\ expand (S (S (S (S F)))) p s1 = Ok 1 s2 /\
    s_pc s2 = s_pc s + Z.of_nat (length l) /\ data_written l s s2 /\ s_errs s2 = s_errs s /\ (forall n, plain n -> value_of s2 n = value_of s n).
Proof.
  intros R Tx Bn B Ne G T0. destruct (ready_tab _ R) as [T St]. cbn [build_stmt]. unfold some. unfold bind at 1. unfold bind at 1. rewrite (string_node_ok raw t s Tx), alloc_eq. unfold ret at 1.
  destruct (hv_alloc_obs (KStr t) [] s eq_refl T) as [H1 O1]. pose proof (alloc_nth (KStr t) [] s) as N1. set (q := length (s_nodes s)) in *.
  set (s1 := set_nodes (s_nodes s ++ [mkNode (KStr t) []]) s) in *.
  destruct (hv_alloc_obs (KOpr OLoad) [q] s1 eq_refl (h_tab _ _ H1)) as [H2 O2]. pose proof (alloc_nth (KOpr OLoad) [q] s1) as N2. set (p := length (s_nodes s1)) in *.
  set (s2 := set_nodes (s_nodes s1 ++ [mkNode (KOpr OLoad) [q]]) s1) in *.
  assert (H : hv0 s s2) by exact (hv0_trans _ _ _ H1 H2). assert (O : obs s2 = obs s) by congruence.
  assert (St2 : s_stop s2 = false) by (rewrite (obs_stop _ _ O); exact St).
  assert (G2 : s_final s2 = true -> data_gap s2).
  { intros X. apply hole_gap. unfold no_hole. rewrite (obs_pc _ _ O), (obs_field s_origin _ _ O obs_get_origin), (obs_field s_total _ _ O obs_get_total). apply G. rewrite <- (obs_field s_final _ _ O obs_get_final). exact X. }
  destruct (load_loop_ok F (length l) l s2 (le_n _) B (h_tab _ _ H) St2 G2 ltac:(rewrite (obs_field s_total _ _ O obs_get_total); exact T0) ltac:(intros X; contradiction)) as (s3 & E3 & A3).
  exists p, s2, s3. split; [reflexivity|]. split.
  - rewrite (expand_opr _ s2 p OLoad [q] St2 N2). change (x_node ?a ?b p (mkNode (KOpr OLoad) [q]) s2) with (x_load a (mkNode (KOpr OLoad) [q]) s2).
    unfold x_load, opn, str_of. cbn [n_ops nth_error]. unfold bind at 1, ret at 1. unfold bind at 1. unfold bind at 1, node_get, gets at 1. unfold bind at 1.
    rewrite (str_hv s1 s2 q t H2 N1). unfold ret at 1. cbn [n_kind]. unfold ret at 1. unfold bind at 1, gets at 1.
    rewrite (obs_field s_cfg _ _ O obs_get_cfg), Bn. unfold bind. rewrite E3. reflexivity.
  - pose proof (st_out _ _ _ A3) as Ou. unfold data_written in *. rewrite (st_pc _ _ _ A3), (st_errs _ _ _ A3), Ou, (obs_pc _ _ O), (obs_field s_errs _ _ O obs_get_errs),
      (obs_field s_final _ _ O obs_get_final), (obs_field s_opened _ _ O obs_get_opened), (obs_field s_total _ _ O obs_get_total), (obs_field s_c64 _ _ O obs_get_c64), (obs_field s_origin _ _ O obs_get_origin), (obs_field s_out _ _ O obs_get_out).
    split; [reflexivity|]. split; [reflexivity|]. split; [reflexivity|]. intros n Pn. apply value_of_hv; [exact (hv0_trans _ _ _ H (st_hv _ _ _ A3))|exact Pn].
Qed.
Lemma load_missing F first raw t s : ready s -> text_of raw = Some t -> g_bins (s_cfg s) t = None ->
  exists p s1, build_stmt (expand (S F)) first (SLoad raw) s = Ok (Some p) s1 /\ expand (S F) p s1 = Ub UbNull.
Proof.
  intros R Tx Bn. destruct (ready_tab _ R) as [T St]. cbn [build_stmt]. unfold some. unfold bind at 1. unfold bind at 1. rewrite (string_node_ok raw t s Tx), alloc_eq. unfold ret at 1.
  destruct (hv_alloc_obs (KStr t) [] s eq_refl T) as [H1 O1]. pose proof (alloc_nth (KStr t) [] s) as N1. set (q := length (s_nodes s)) in *.
  set (s1 := set_nodes (s_nodes s ++ [mkNode (KStr t) []]) s) in *.
  destruct (hv_alloc_obs (KOpr OLoad) [q] s1 eq_refl (h_tab _ _ H1)) as [H2 O2]. pose proof (alloc_nth (KOpr OLoad) [q] s1) as N2. set (p := length (s_nodes s1)) in *.
  set (s2 := set_nodes (s_nodes s1 ++ [mkNode (KOpr OLoad) [q]]) s1) in *. assert (O : obs s2 = obs s) by congruence.
  assert (St2 : s_stop s2 = false) by (rewrite (obs_stop _ _ O); exact St).
  exists p, s2. split; [reflexivity|]. rewrite (expand_opr _ s2 p OLoad [q] St2 N2). change (x_node ?a ?b p (mkNode (KOpr OLoad) [q]) s2) with (x_load a (mkNode (KOpr OLoad) [q]) s2).
  unfold x_load, opn, str_of. cbn [n_ops nth_error]. unfold bind at 1, ret at 1. unfold bind at 1. unfold bind at 1, node_get, gets at 1. unfold bind at 1.
  rewrite (str_hv s1 s2 q t H2 N1). unfold ret at 1. cbn [n_kind]. unfold ret at 1. unfold bind at 1, gets at 1.
  rewrite (obs_field s_cfg _ _ O obs_get_cfg), Bn. reflexivity.
Qed.

(** ** .PRINT *)
(** the text of an item: a string after a space, a value as one or two bytes in hex *)
Definition hex_digit (d : Z) : Z := if d <? 10 then 48 + d else 55 + d.
Definition byte_text (v : Z) : cstr := [32; 36; hex_digit (v / 16); hex_digit (v mod 16)].
Definition value_text (v : Z) : cstr :=
  (if v / 256 mod 256 =? 0 then [] else byte_text (v / 256 mod 256)) ++ byte_text (v mod 256).
Definition item_says (env : cstr -> Z) (pc : Z) (i : item) : option cstr :=
  match i with
  | IExpr e => option_map value_text (item_value_at env pc e)
  | IStr raw => option_map (cons 32) (text_of raw)
  end.
Fixpoint items_say (env : cstr -> Z) (pc : Z) (l : list item) : option cstr :=
  match l with
  | [] => Some []
  | i :: l => match item_says env pc i, items_say env pc l with Some a, Some b => Some (a ++ b) | _, _ => None end
  end.
Lemma items_say_snoc env pc l i : items_say env pc (l ++ [i]) = match items_say env pc l, item_says env pc i with Some a, Some b => Some (a ++ b) | _, _ => None end.
Proof.
  induction l as [|j l IH]; cbn [app items_say]; [destruct (item_says env pc i); [rewrite app_nil_r|]; reflexivity|]. rewrite IH.
  destruct (item_says env pc j), (items_say env pc l), (item_says env pc i); try reflexivity. rewrite app_assoc. reflexivity.
Qed.
Definition saying (b : bool) (t : cstr) (z : state) : state := if b then set_console (rev (map (fun x => x mod 256) t) ++ s_console z) z else z.
Lemma saying_app b t u z : saying b u (saying b t z) = saying b (t ++ u) z.
Proof. unfold saying. destruct b; [|reflexivity]. rewrite map_app, rev_app_distr, <- app_assoc. destruct z; reflexivity. Qed.
Definition pety (all : bool) : etype := if all then EtPrintAll else EtPrint.
Lemma hex_text v : (if Z.land v 65280 / 256 =? 0 then [] else hex02 (Z.land v 65280 / 256)) ++ hex02 (Z.land v 255) = value_text v.
Proof. rewrite land_hi. change 255 with (Z.ones 8). rewrite Z.land_ones by lia. reflexivity. Qed.
Lemma hv_console v s : tab s -> hv0 s (set_console v s).
Proof. intros T. apply hv0_frame; auto. Qed.
Lemma say_saying b t s : when b (say t) s = Ok tt (saying b t s).
Proof. destruct b; reflexivity. Qed.
Lemma hv_saying b t s : tab s -> hv0 s (saying b t s).
Proof. intros T. unfold saying. destruct b; [apply hv_console, T|apply hv_refl, T]. Qed.
Lemma obs_saying b t s : obs (saying b t s) = saying b t (obs s).
Proof. unfold saying. destruct b; [|reflexivity]. rewrite obs_set_console, obs_get_console. reflexivity. Qed.
Lemma saying_fields b t z : s_pc (saying b t z) = s_pc z /\ s_stop (saying b t z) = s_stop z /\ s_final (saying b t z) = s_final z /\ s_ety (saying b t z) = s_ety z /\
  s_out (saying b t z) = s_out z /\ s_total (saying b t z) = s_total z /\ s_errs (saying b t z) = s_errs z.
Proof. unfold saying. destruct b; repeat split. Qed.
Lemma item_print C F s q i l sp all t : (item_height i <= F)%nat -> tab s -> s_stop s = false -> irep C true s q i -> item_eager i = true -> s_ety s = pety all ->
  item_says (fun n => cval (C n)) (s_pc s) i = Some t ->
  exists s', expr_list (expand F) (q :: l) sp s = expr_list (expand F) l sp s' /\ hv0 s s' /\ obs s' = saying (s_final s || all) t (obs s).
Proof.
  intros HF T St R Ea Et Sy. destruct i as [e|raw]; cbn [irep item_says item_eager item_height] in *.
  - destruct (item_value_at _ _ e) as [v|] eqn:V; [|discriminate]. injection Sy as <-. pose proof (item_value_known _ _ _ _ Ea V) as K.
    destruct (rep_kind _ _ _ _ _ R) as (x & N & Kk & Ks & Kx). rewrite (step_one _ _ _ _ _ _ N Kx).
    destruct (eval_ops C true e v F s q x HF T St R K N) as (w & s1 & E1 & H1 & O1 & R1 & P1 & D1 & U1 & N1).
    unfold bind at 1. rewrite E1. unfold bind at 1, gets at 1. rewrite (obs_field s_ety _ _ O1 obs_get_ety), Et.
    unfold bind at 1, node_get, gets at 1. unfold bind at 1. rewrite N1. unfold ret at 1.
    assert (Nk : forall A (a : cstr -> A) (b : A), (match n_kind x with KStr v => a v | _ => b end) = b) by (intros; destruct (n_kind x); try reflexivity; discriminate).
    assert (St1 := obs_stop _ _ O1). rewrite St in St1.
    destruct (eval_known C true e v F s1 q HF (h_tab _ _ H1) St1 R1 ltac:(rewrite (obs_pc _ _ O1); exact K)) as (s2 & E2 & H2 & O2 & _).
    exists (saying (s_final s || all) (value_text v) s2). split; [|split; [exact (hv0_trans _ _ _ H1 (hv0_trans _ _ _ H2 (hv_saying _ _ _ (h_tab _ _ H2))))|rewrite obs_saying, O2, O1; reflexivity]].
    unfold pety. destruct all; unfold bind at 1, bind at 1, elem_print; unfold bind at 1, gets at 1; rewrite Nk, (obs_field s_final _ _ O1 obs_get_final);
      unfold bind at 1; unfold bind at 1; rewrite E2; cbv zeta; rewrite hex_text, say_saying; reflexivity.
  - destruct R as (u & Tx & N). rewrite Tx in Sy. injection Sy as <-. rewrite (step_one _ _ _ _ _ _ N ltac:(discriminate)). cbn [n_ops expand_all]. unfold ret at 1. unfold bind at 1.
    unfold bind at 1, gets at 1. rewrite Et. unfold bind at 1, node_get, gets at 1. unfold bind at 1. rewrite N. unfold ret at 1.
    exists (saying (s_final s || all) (32 :: u) s). split; [|split; [exact (hv_saying _ _ _ T)|apply obs_saying]].
    unfold pety. destruct all; unfold bind at 1, bind at 1, elem_print; unfold bind at 1, gets at 1; cbn [n_kind]; unfold bind at 1; rewrite say_saying; reflexivity.
Qed.
Lemma list_print C all l p : forall F s t, lrep C s p l -> (list_fuel l <= F)%nat -> tab s -> s_stop s = false -> forallb item_eager l = true ->
  s_ety s = pety all -> items_say (fun n => cval (C n)) (s_pc s) l = Some t ->
  exists s', expand F p s = Ok 0 s' /\ hv0 s s' /\ obs s' = saying (s_final s || all) t (obs s).
Proof.
  intros F s t R. revert F t. induction R as [p q i N I|p a q l i N R IH I]; intros F t HF T St Ea Et Sy.
  - destruct F as [|F]; [unfold list_fuel in HF; cbn in HF; lia|]. rewrite (expand_list F s p _ St N).
    cbn [items_say] in Sy. destruct (item_says _ (s_pc s) i) as [m|] eqn:Im; [|discriminate]. injection Sy as <-.
    destruct (item_print C F s q i [] None all m ltac:(unfold list_fuel in HF; cbn in HF; lia) T St I ltac:(cbn in Ea; rewrite andb_true_r in Ea; exact Ea) Et Im) as (s' & E & H & O).
    exists s'. rewrite E, expr_list_nil, app_nil_r. auto.
  - destruct (list_fuel_snoc l i) as [L1 L2]. destruct F as [|F]; [lia|]. rewrite (expand_list F s p _ St N).
    destruct (lrep_node _ _ _ _ R) as (x & Nx). rewrite (expr_list_sub _ _ _ _ _ _ Nx).
    rewrite items_say_snoc in Sy. destruct (items_say _ (s_pc s) l) as [n1|] eqn:S1; [|discriminate].
    destruct (item_says _ (s_pc s) i) as [m|] eqn:Im; [|discriminate]. injection Sy as <-.
    rewrite forallb_app in Ea. apply andb_prop in Ea. destruct Ea as [Ea1 Ea2]. cbn in Ea2. rewrite andb_true_r in Ea2.
    destruct (IH F n1 ltac:(lia) T St Ea1 Et eq_refl) as (s1 & E1 & H1 & O1).
    destruct (saying_fields (s_final s || all) n1 (obs s)) as (A1 & A2 & A3 & A4 & _). rewrite <- O1 in A1, A2, A3, A4. rewrite !obs_get_pc in A1. rewrite !obs_get_stop in A2. rewrite !obs_get_final in A3. rewrite !obs_get_ety in A4.
    destruct (item_print C F s1 q i [] None all m ltac:(lia) (h_tab _ _ H1) ltac:(congruence) (irep_hv _ _ _ _ _ _ H1 I) Ea2 ltac:(congruence) ltac:(rewrite A1; exact Im)) as (s2 & E2 & H2 & O2).
    exists s2. unfold bind. rewrite E1, E2, expr_list_nil. split; [reflexivity|]. split; [exact (hv0_trans _ _ _ H1 H2)|].
    rewrite O2, O1, A3. apply saying_app.
Qed.
(** nothing but the console changes *)
Definition only_says (t : cstr) (s s' : state) : Prop :=
  s_console s' = rev (map (fun x => x mod 256) t) ++ s_console s /\
  s_pc s' = s_pc s /\ s_out s' = s_out s /\ s_total s' = s_total s /\ s_errs s' = s_errs s /\ (forall n, plain n -> value_of s' n = value_of s n).
Lemma set_ety_final e z : s_final (set_ety e z) = s_final z. Proof. reflexivity. Qed.
Lemma set_ety_pc e z : s_pc (set_ety e z) = s_pc z. Proof. reflexivity. Qed.
Lemma set_ety_out e z : s_out (set_ety e z) = s_out z. Proof. reflexivity. Qed.
Lemma set_ety_total e z : s_total (set_ety e z) = s_total z. Proof. reflexivity. Qed.
Lemma set_ety_errs e z : s_errs (set_ety e z) = s_errs z. Proof. reflexivity. Qed.
Lemma says_fields b e t z z' : z' = saying b t (set_ety e z) ->
  s_console z' = rev (map (fun x => x mod 256) (if b then t else [])) ++ s_console z /\ s_pc z' = s_pc z /\ s_out z' = s_out z /\ s_total z' = s_total z /\ s_errs z' = s_errs z.
Proof. intros ->. unfold saying. destruct b; repeat split. Qed.
Lemma print_frame all t s s' : obs s' = saying (s_final s || all) (t ++ [10]) (set_ety (pety all) (obs s)) -> hv0 s s' ->
  only_says (if s_final s || all then t ++ [10] else []) s s'.
Proof.
  intros O4 Hall. destruct (says_fields _ _ _ _ _ O4) as (A0 & A1 & A2 & A3 & A4).
  rewrite !obs_get_console in A0. rewrite !obs_get_pc in A1. rewrite !obs_get_out in A2. rewrite !obs_get_total in A3. rewrite !obs_get_errs in A4.
  unfold only_says. repeat (split; [assumption|]). intros n Pn. apply value_of_hv; auto.
Qed.
Lemma final_said b e t s s' : obs s' = saying b t (set_ety e (obs s)) -> s_final s' = s_final s.
Proof.
  intros O3. destruct (saying_fields b t (set_ety e (obs s))) as (_ & _ & A3 & _). rewrite <- O3 in A3. rewrite obs_get_final, set_ety_final, obs_get_final in A3. exact A3.
Qed.
Theorem print_ok F first all l t s : ready s -> l <> [] -> (forall i, In i l -> data_item s i) -> (list_fuel l <= F)%nat ->
  items_say (value_of s) (s_pc s) l = Some t ->
  exists p s1 s2, build_stmt (expand (S F)) first (SPrint all l) s = Ok (Some p) s1 /\ expand (S F) p s1 = Ok 0 s2 /\
    only_says (if s_final s || all then t ++ [10] else []) s s2.
Proof.
  intros Rd L P HF Sy. destruct (ready_tab s Rd) as [T St].
  assert (P1 : forall i, In i l -> item_plain s i) by (intros i Hi; apply data_item_plain, P, Hi).
  assert (P2 : forallb item_eager l = true) by (apply forallb_all; intros i Hi; apply data_item_plain with (s := s), P, Hi).
  assert (Sy' : items_say (fun n => cval (meaning s n)) (s_pc s) l = Some t).
  { rewrite <- Sy. clear. induction l as [|i l IH]; [reflexivity|]. cbn [items_say]. rewrite IH. f_equal. destruct i as [e|raw]; [|reflexivity]. cbn [item_says].
    rewrite (item_value_ext e _ _ _ (value_of_env s)). reflexivity. }
  destruct (build_items_ok l s T L P1) as (q & s1 & E1 & H1 & O1 & R1). set (o := if all then OPrintAll else OPrint).
  destruct (hv_alloc_obs (KOpr o) [q] s1 ltac:(destruct all; reflexivity) (h_tab _ _ H1)) as [H2 O2]. pose proof (alloc_nth (KOpr o) [q] s1) as N2. set (p := length (s_nodes s1)) in *.
  set (s2 := set_nodes (s_nodes s1 ++ [mkNode (KOpr o) [q]]) s1) in *. assert (O : obs s2 = obs s) by congruence. pose proof (hv0_trans _ _ _ H1 H2) as H.
  assert (St2 : s_stop s2 = false) by (rewrite (obs_stop _ _ O); exact St).
  assert (H3 : hv0 s2 (set_ety (pety all) s2)) by (apply hv0_frame; auto; apply (h_tab _ _ H)).
  destruct (list_print (meaning s) all l q F (set_ety (pety all) s2) t (lrep_hv _ _ _ _ _ (hv0_trans _ _ _ H2 H3) R1) HF (h_tab _ _ H3) St2 P2 eq_refl
    ltac:(change (s_pc (set_ety (pety all) s2)) with (s_pc s2); rewrite (obs_pc _ _ O); exact Sy')) as (s3 & E3 & H4 & O3).
  change (s_final (set_ety (pety all) s2)) with (s_final s2) in O3. rewrite (obs_field s_final _ _ O obs_get_final), obs_set_ety, O in O3.
  exists p, s2, (saying (s_final s || all) [10] s3). split; [|split].
  - cbn [build_stmt]. destruct l as [|i0 l0]; [contradiction|]. unfold bindo, bind. rewrite E1. unfold some, bind, ret. rewrite alloc_eq. reflexivity.
  - rewrite (expand_opr F s2 p o [q] St2 N2).
    assert (X : x_node (expand F) F p (mkNode (KOpr o) [q]) s2 = x_print (expand F) (mkNode (KOpr o) [q]) all s2) by (unfold o; destruct all; reflexivity). rewrite X.
    unfold x_print. unfold bind at 1, modify at 1. fold (pety all). cbn [n_ops expand_all]. unfold bind at 1. unfold bind at 1. rewrite E3. unfold ret at 1.
    unfold bind at 1, gets at 1. unfold bind at 1. rewrite (final_said _ _ _ _ _ O3), say_saying. reflexivity.
  - pose proof (hv0_trans _ _ _ H (hv0_trans _ _ _ H3 (hv0_trans _ _ _ H4 (hv_saying (s_final s || all) [10] s3 (h_tab _ _ H4))))) as Hall.
    assert (O4 : obs (saying (s_final s || all) [10] s3) = saying (s_final s || all) (t ++ [10]) (set_ety (pety all) (obs s))) by (rewrite obs_saying, O3; apply saying_app).
    revert O4 Hall. generalize (saying (s_final s || all) [10] s3). intros s' O4 Hall.     apply print_frame with (all := all); assumption.
Qed.

(** ** Processor switches *)
Definition settings (s : state) : bool * bool * bool := (s_c02 s, s_ill s, s_c64 s).
Definition Rset (s s' : state) : Prop := settings s' = settings s.
Lemma Rset_closed : closed (with_fix Rset).
Proof. close (fun a b c (H1 : Rset a b) (H2 : Rset b c) => eq_trans H2 H1 : Rset a c) ltac:(unfold Rset, settings in *; cbn; congruence). Qed.
Lemma expand_settings F p s : match expand F p s with Ok _ s' | Exit _ s' => settings s' = settings s | _ => True end.
Proof. pose proof (expand_prs _ Rset_closed F p s) as X. unfold prs2 in X. destruct (expand F p s); auto; apply X. Qed.
Definition switch (st : stmt) (c : bool * bool * bool) : option (bool * bool * bool) :=
  let '(c02, ill, c64) := c in
  match st with SCpu b => Some (b, ill, c64) | SIllegal b => Some (c02, b, c64) | SC64 => Some (c02, ill, true) | _ => None end.
Lemma switch_ok F first st c s : ready s -> switch st (settings s) = Some c ->
  exists p s1 s2, build_stmt (expand (S F)) first st s = Ok (Some p) s1 /\ expand (S F) p s1 = Ok 0 s2 /\
    settings s2 = c /\ s_pc s2 = s_pc s /\ rest_same s s2.
Proof.
  intros Rd. unfold switch, settings. destruct (ready_tab _ Rd) as [T St].
  assert (X : forall g, (forall z, s_stop (g z) = s_stop z) -> (forall z, s_nodes (g z) = s_nodes z) ->
     exists p s1 s2, (modify g ;;; some (alloc (KOpr OStatement) [])) s = Ok (Some p) s1 /\ expand (S F) p s1 = Ok 0 s2 /\ s2 = set_nodes (s_nodes s ++ [mkNode (KOpr OStatement) []]) (g s)).
  { intros g Gs Gn. unfold bind at 1, modify at 1. unfold some, bind. rewrite alloc_eq. do 3 eexists. split; [reflexivity|]. split; [|reflexivity].
    rewrite (expand_opr F _ _ OStatement []); [rewrite Gn; reflexivity|rewrite <- St; apply (Gs s)|apply alloc_nth]. }
  assert (Y : forall c0 i0 x0, rest_same s (set_nodes (s_nodes s ++ [mkNode (KOpr OStatement) []]) (set_c64 x0 (set_ill i0 (set_c02 c0 s))))).
  { intros. repeat split. }
  destruct st; try discriminate; intros [= <-]; cbn [build_stmt];
  match goal with |- context [modify ?g] => destruct (X g (fun _ => eq_refl) (fun _ => eq_refl)) as (p & s1 & s2 & E1 & E2 & ->) end;
  exists p, s1; eexists; (split; [exact E1|split; [exact E2|split; [reflexivity|split; [reflexivity|]]]]).
  - pose proof (Y c02 (s_ill s) (s_c64 s)) as Z. destruct s; exact Z.
  - pose proof (Y (s_c02 s) on (s_c64 s)) as Z. destruct s; exact Z.
  - pose proof (Y (s_c02 s) (s_ill s) true) as Z. destruct s; exact Z.
Qed.
