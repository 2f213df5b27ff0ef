(** Data directives for any values: an error is reported, or the program counter moves by the number of bytes (which does not
    depend on the values) and, in the final pass, the bytes of the values are written. *)
From Coq Require Import String Lia.
From Verif Require Import Base BaseProofs Hash Dict DictProofs DictMore Str Opcodes OpcodesProofs Err State Sym Machine Build Pass
  GenX Gen Inv SymProofs Sem ExprProofs ExprMore OpProofs OpMore InstrProofs InstrMore DataProofs DataMore BadProofs.
Open Scope string_scope.
Open Scope list_scope.
Open Scope Z_scope.
Open Scope m_scope.

Definition isize (size : Z) (i : item) : Z :=
  match i with IExpr _ => size | IStr raw => match text_of raw with Some t => Z.of_nat (length (text_bytes size t)) | None => 0 end end.
Fixpoint isizes (size : Z) (l : list item) : Z := match l with [] => 0 | i :: l => isize size i + isizes size l end.
Lemma isizes_snoc size l i : isizes size (l ++ [i]) = isizes size l + isize size i.
Proof. induction l; cbn; lia. Qed.
Lemma isize_nonneg size i : In size [1; 2] -> 0 <= isize size i.
Proof. intros H. destruct i as [e|c]; cbn; [destruct H as [<-|[<-|[]]]; lia|]. destruct (text_of c); lia. Qed.
Lemma isizes_nonneg size l : In size [1; 2] -> 0 <= isizes size l.
Proof. intros H. induction l; cbn; [lia|]. pose proof (isize_nonneg size a H). lia. Qed.
Definition inames (i : item) : list cstr := match i with IExpr e => inner_names e | IStr _ => [] end.
Lemma size_012 size : In size [1; 2] -> In size [0; 1; 2]. Proof. cbn. tauto. Qed.
Lemma dety_12 size : In size [1; 2] -> dety size = EtBytes. Proof. intros [<-|[<-|[]]]; reflexivity. Qed.
Lemma item_size_isize env size pc i n : In size [1; 2] -> item_size env size pc i = Some n -> n = isize size i.
Proof.
  intros Sz. destruct i as [e|c]; cbn [item_size isize].
  - destruct (item_value_at env pc e); [|discriminate]. intros [= <-]. destruct Sz as [<-|[<-|[]]]; reflexivity.
  - destruct (text_of c); [|discriminate]. congruence.
Qed.

Definition wout (b : list Z) (n : Z) (o : state) : state := set_pc (s_pc o + n) (if s_final o then writes b o else o).
Lemma item_walk C F s q i l sp size : (item_height i <= F)%nat -> tab s -> s_stop s = false -> irep C true s q i -> item_eager i = true ->
  s_ety s = dety size -> s_dsz s = size -> In size [1; 2] -> s_scope s = None -> owned s -> (forall n, In n (item_names i) -> plain n) ->
  (s_final s = true -> item_unknown C i = false /\ no_gap s /\ s_opened s && s_org_spec s = true) ->
  bad s (expr_list (expand F) (q :: l) sp s) \/
  exists s' b, expr_list (expand F) (q :: l) sp s = expr_list (expand F) l sp s' /\ hv s s' /\ obs s' = wout b (isize size i) (obs s) /\
    s_dsz s' = size /\ entered s' (inames i) /\
    (s_final s = true -> item_size (fun n => cval (C n)) size (s_pc s) i = Some (isize size i) /\ item_bytes (fun n => cval (C n)) size (s_pc s) i = Some b).
Proof.
  intros HF T St I Ea Et D Sz Sc Ow Pl G. destruct i as [e|raw].
  - cbn [irep item_eager item_height item_names item_unknown inames isize] in *.
    destruct (rep_kind _ _ _ _ _ I) as (x & N & Kk & Ks & Kx).
    destruct (eval_ops_w C true e F s q x HF T St I Ea N Sc Ow Pl) as [B|(w & s1 & E1 & H1 & O1 & R1 & D1 & U1 & N1 & En)].
    { left. rewrite (step_one _ _ _ _ _ _ N Kx). apply bad_bind; [exact B|apply (prs_expand_all _ _ SR _ (ER F))|].
      intros a s' HR. apply (prs_bind _ _ SR); [apply (prs_gets0 _ _ SR)|]. intros et s2 _ _.
      apply (prs_bind _ _ SR); [apply (prs_node_get _ _ SR)|]. intros xp s3 _ _.
      apply (prs_bind _ _ SR).
      - destruct et; first [apply (prs_elem_symbol _ _ SR _ (ER F))|apply (prs_elem_macro _ _ SR _ (ER F))|
          apply (prs_bind _ _ SR); [first [apply (prs_elem_bytes _ _ SR _ (ER F))|apply (prs_elem_strings _ _ SR _ (ER F))|apply (prs_elem_print _ _ SR _ (ER F))]
                                   |intros; apply (prs_ret _ _ SR)]].
      - intros [go sp'] s4 _ _. destruct go; [apply (prs_expr_list _ _ SR _ (ER F))|apply (prs_ret _ _ SR)]. }
    assert (Et1 : s_ety s1 = EtBytes) by (rewrite (obs_field s_ety _ _ O1 obs_get_ety), Et; apply dety_12, Sz).
    assert (F1 : s_final s1 = s_final s) by apply (obs_field s_final _ _ O1 obs_get_final).
    assert (P1 := obs_pc _ _ O1). assert (St1 := obs_stop _ _ O1). rewrite St in St1.
    assert (Nk : forall A (a : cstr -> A) (b : A), (match n_kind x with KStr v => a v | _ => b end) = b) by (intros; destruct (n_kind x); try reflexivity; discriminate).
    assert (X : expr_list (expand F) (q :: l) sp s =
      (when (negb (inner C e) && s_final s) (list_and_output (expand F) q) ;;;
       (d <- gets s_dsz ;; modify (fun s => set_pc (s_pc s + d) s)) ;;; expr_list (expand F) l sp) s1).
    { rewrite (step_one _ _ _ _ _ _ N Kx). unfold bind at 1. rewrite E1. unfold bind at 1, gets at 1. rewrite Et1.
      unfold bind at 1, node_get, gets at 1. unfold bind at 1. rewrite N1. unfold ret at 1.
      unfold elem_bytes. unfold bind at 1. unfold bind at 1. unfold bind at 1. rewrite U1. unfold bind at 1, gets at 1. rewrite F1, Kk. cbn [orb negb]. rewrite andb_false_r.
      unfold bind. destruct (when (negb (inner C e) && s_final s) (list_and_output (expand F) q) s1); auto. cbn [gets]. rewrite Nk. reflexivity. }
    rewrite X. clear X.
    destruct (s_final s) eqn:Fi.
    + destruct (G eq_refl) as (Un & Gp & Wr). rewrite Un. cbn [negb andb].
      assert (Gp1 : no_gap s1) by exact (no_gap_obs _ _ (eq_sym O1) Gp).
      destruct (value_at C (s_pc s) e) as [v|] eqn:V.
      * destruct (emit_value C true e v F s1 q size HF (h_tab _ _ H1) St1 R1 ltac:(rewrite P1; exact (value_known _ _ _ _ Ea V)) ltac:(congruence) (size_012 _ Sz) Gp1)
          as (s2 & E2 & H2 & O2 & D2 & R2).
        apply hvs_hv in H2; [|destruct Sz as [<-|[<-|[]]]; discriminate].
        destruct (value_fits size v) eqn:Vf.
        -- right. unfold when, bind, gets, modify. cbv beta iota. rewrite E2, D2. eexists. exists (value_bytes size v). split; [reflexivity|].
           pose proof (hvp_trans _ _ _ _ H1 H2) as H. split; [eapply hvp_move; [exact H|reflexivity..]|].
           assert (P2 : s_pc s2 = s_pc s).
           { rewrite <- (obs_get_pc s2), O2. destruct (wvalue_same size v (obs s1)) as [Y _]. rewrite Y. obs_simp. exact P1. }
           split.
           { rewrite obs_set_pc, O2, O1, P2. unfold wout, wvalue. obs_simp. rewrite Fi, Vf. reflexivity. }
           split; [exact D2|].
           split; [apply (entered_kept s1); [apply h_keep; exact (hv0_trans _ _ _ H2 (hv_pc _ _ (h_tab _ _ H2)))| |exact En]|].
           { intros n Hn. apply Pl. destruct e; auto. destruct Hn. }
           intros _. unfold value_at in V. cbn [item_size item_bytes]. rewrite V, Vf. split; [|reflexivity].
           f_equal. destruct Sz as [<-|[<-|[]]]; reflexivity.
        -- left. unfold when. unfold bind at 1. rewrite E2. apply (bad_obs s s1); [exact O1|].
           assert (Er : s_errs s1 < s_errs s2).
           { rewrite <- (obs_get_errs s2), O2. unfold wvalue. rewrite Vf. obs_simp.
             rewrite (obs_field s_opened _ _ O1 obs_get_opened), (obs_field s_org_spec _ _ O1 obs_get_org_spec), Wr. cbn. lia. }
           assert (Y : prs2 R R ((d <- gets s_dsz ;; modify (fun s => set_pc (s_pc s + d) s)) ;;; expr_list (expand F) l sp) s2).
           { apply (prs_bind _ _ SR); [|intros; apply (prs_expr_list _ _ SR _ (ER F))].
             apply (prs_bind _ _ SR); [apply (prs_gets0 _ _ SR)|]. intros d s3 _ _. apply prs_modify. apply (e_pc _ _ SR). }
           exact (bad_later _ _ _ Er Y).
      * left. apply (bad_obs s s1); [exact O1|]. unfold when. apply bad_bind.
        -- apply (emit_value_bad C true e); [exact HF|apply (h_tab _ _ H1)|exact St1|exact R1|congruence|rewrite P1; exact V].
        -- apply (prs_list_and_output _ _ SR _ (ER F)). congruence.
        -- intros a s2 _. apply (prs_bind _ _ SR); [|intros; apply (prs_expr_list _ _ SR _ (ER F))].
             apply (prs_bind _ _ SR); [apply (prs_gets0 _ _ SR)|]. intros d s3 _ _. apply prs_modify. apply (e_pc _ _ SR).
    + right. rewrite andb_false_r. unfold when, ret, bind, gets, modify. cbv beta iota. rewrite D1, D.
      eexists. exists []. split; [reflexivity|]. split; [eapply hv_trans; [exact H1|]; eapply hvp_move; [apply hvp_idle; [apply (h_tab _ _ H1)|exact F1]|reflexivity..]|].
      split; [rewrite obs_set_pc, O1, P1; unfold wout; obs_simp; rewrite Fi; reflexivity|]. split; [cbn; congruence|].
      split; [|discriminate]. apply (entered_kept s1); [apply h_keep, hv_pc, (h_tab _ _ H1)| |exact En].
      intros n Hn. apply Pl. destruct e; auto. destruct Hn.
  - right. destruct I as (t & Tx & N). cbn [isize item_size item_bytes inames]. rewrite Tx.
    destruct (item_text t F s q l sp size T St N Et D (size_012 _ Sz) ltac:(intros X; apply (G X))) as (s' & E & H & O & D').
    exists s', (text_bytes size t). split; [exact E|]. split; [exact H|]. split; [exact O|]. split; [exact D'|]. split; [intros n []|auto].
Qed.

Lemma wout_pc b n o : s_pc (wout b n o) = s_pc o + n. Proof. unfold wout. rewrite pc_pc. reflexivity. Qed.
Lemma if_writes {A} (f : state -> A) (b : bool) l o : (forall l o, f (writes l o) = f o) -> f (if b then writes l o else o) = f o.
Proof. intros H. destruct b; auto. Qed.
Lemma wout_final b n o : s_final (wout b n o) = s_final o.
Proof. unfold wout. rewrite pc_final. apply if_writes. intros. apply writes_same. Qed.
Lemma wout_stop b n o : s_stop (wout b n o) = s_stop o.
Proof. unfold wout. rewrite pc_stop. apply if_writes. intros. apply writes_more. Qed.
Lemma wout_ety b n o : s_ety (wout b n o) = s_ety o.
Proof. unfold wout. rewrite pc_ety. apply if_writes. intros. apply writes_ety. Qed.
Lemma wout_errs b n o : s_errs (wout b n o) = s_errs o.
Proof. unfold wout. rewrite pc_errs. apply if_writes. intros. apply writes_same. Qed.
Lemma wout_opened b n o : s_opened (wout b n o) = s_opened o.
Proof. unfold wout. rewrite pc_opened. apply if_writes. intros. apply writes_more. Qed.
Lemma wout_org_spec b n o : s_org_spec (wout b n o) = s_org_spec o.
Proof. unfold wout. rewrite pc_org_spec. apply if_writes. intros. apply writes_more. Qed.
Lemma wout_total b n o : 0 <= s_total o -> 0 <= s_total (wout b n o).
Proof. intros H. unfold wout. rewrite pc_total. destruct (s_final o); auto. apply writes_total, H. Qed.
Lemma wout_wout b1 n1 b2 n2 o : 0 <= s_total o -> wout b2 n2 (wout b1 n1 o) = wout (b1 ++ b2) (n1 + n2) o.
Proof.
  intros H. unfold wout at 1. rewrite wout_pc, wout_final. unfold wout. rewrite Z.add_assoc. destruct (s_final o).
  - rewrite set_pc_writes, writes_app by exact H. reflexivity.
  - rewrite set_pc_pc. reflexivity.
Qed.

Definition lnames (l : list item) : list cstr := flat_map inames l.
Lemma list_walk C size l p : forall F s, lrep C s p l -> (list_fuel l <= F)%nat -> tab s -> s_stop s = false -> forallb item_eager l = true ->
  s_ety s = dety size -> s_dsz s = size -> In size [1; 2] -> s_scope s = None -> owned s -> (forall i n, In i l -> In n (item_names i) -> plain n) ->
  0 <= s_total s ->
  (s_final s = true -> forallb (fun i => negb (item_unknown C i)) l = true /\ no_gap s /\ s_opened s && s_org_spec s = true) ->
  bad s (expand F p s) \/
  exists s' b, expand F p s = Ok 0 s' /\ hv s s' /\ obs s' = wout b (isizes size l) (obs s) /\ s_dsz s' = size /\ entered s' (lnames l) /\
    (s_final s = true -> items_size (fun n => cval (C n)) size (s_pc s) l = Some (isizes size l) /\ items_bytes (fun n => cval (C n)) size (s_pc s) l = Some b).
Proof.
  intros F s R0. revert F. induction R0 as [p q i N I|p a q l i N R0 IH I]; intros F HF T St Ea Et D Sz Sc Ow Pl Tt G.
  - destruct F as [|F]; [unfold list_fuel in HF; cbn in HF; lia|]. rewrite (expand_list F s p _ St N).
    destruct (item_walk C F s q i [] None size ltac:(unfold list_fuel in HF; cbn in HF; lia) T St I ltac:(cbn in Ea; rewrite andb_true_r in Ea; exact Ea) Et D Sz Sc Ow
      ltac:(intros n Hn; apply (Pl i n); cbn; auto)) as [B|(s' & b & E & H & O & D' & En & By)]; [|left; exact B|].
    { intros X. destruct (G X) as (G1 & G2). cbn in G1. rewrite andb_true_r in G1. apply negb_true_iff in G1. auto. }
    right. exists s', b. rewrite E, expr_list_nil. split; [reflexivity|]. split; [exact H|]. cbn [isizes lnames flat_map]. rewrite Z.add_0_r, app_nil_r.
    split; [exact O|]. split; [exact D'|]. split; [exact En|]. intros X. destruct (By X) as [B1 B2]. cbn [items_size items_bytes].
    rewrite B1, B2, Z.add_0_r, app_nil_r. auto.
  - destruct (list_fuel_snoc l i) as [L1 L2]. destruct F as [|F]; [lia|]. rewrite (expand_list F s p _ St N).
    destruct (lrep_node _ _ _ _ R0) as (x & Nx). rewrite (expr_list_sub _ _ _ _ _ _ Nx).
    rewrite forallb_app in Ea. apply andb_prop in Ea. destruct Ea as [Ea1 Ea2]. cbn in Ea2. rewrite andb_true_r in Ea2.
    assert (G1 : s_final s = true -> forallb (fun i => negb (item_unknown C i)) l = true /\ item_unknown C i = false).
    { intros X. destruct (G X) as (G1 & _). rewrite forallb_app in G1. apply andb_prop in G1. cbn in G1. rewrite andb_true_r, negb_true_iff in G1. exact G1. }
    destruct (IH F ltac:(lia) T St Ea1 Et D Sz Sc Ow ltac:(intros j n Hj; apply Pl, in_or_app; auto) Tt) as [B|(s1 & b1 & E1 & H1 & O1 & D1 & En1 & By1)].
    { intros X. destruct (G X) as (_ & G2). split; [apply (G1 X)|exact G2]. }
    { left. apply bad_bind; [exact B|apply ER|]. intros. apply (prs_expr_list _ _ SR _ (ER F)). }
    assert (P1 : s_pc s1 = s_pc s + isizes size l) by (rewrite <- (obs_get_pc s1), O1, wout_pc; obs_simp; reflexivity).
    assert (F1 : s_final s1 = s_final s) by (rewrite <- (obs_get_final s1), O1, wout_final; obs_simp; reflexivity).
    destruct (item_walk C F s1 q i [] None size ltac:(lia) (h_tab _ _ H1)
      ltac:(rewrite <- (obs_get_stop s1), O1, wout_stop; obs_simp; exact St) (irep_hv _ _ _ _ _ _ H1 I) Ea2
      ltac:(rewrite <- (obs_get_ety s1), O1, wout_ety; obs_simp; exact Et) D1 Sz
      ltac:(rewrite (h_scope _ _ H1); exact Sc) ltac:(apply (k_own _ _ (h_keep _ _ H1)), Ow)
      ltac:(intros n Hn; apply (Pl i n); auto; apply in_or_app; cbn; auto)) as [B|(s2 & b2 & E2 & H2 & O2 & D2 & En2 & By2)].
    { rewrite F1. intros X. split; [apply (G1 X)|]. destruct (G X) as (_ & G2 & G3). destruct (By1 X) as [B1 B2].
      split; [|rewrite <- (obs_get_opened s1), <- (obs_get_org_spec s1), O1, wout_opened, wout_org_spec; obs_simp; exact G3].
      apply (no_gap_writes b1 (isizes size l) s); auto.
      - rewrite (data_step _ size l Sz _ _ _ B1 B2). lia.
      - rewrite O1. unfold wout. obs_simp. rewrite X. reflexivity. }
    { left. unfold bind. rewrite E1. apply (bad_le s s1); [|exact B]. rewrite <- (obs_get_errs s1), O1, wout_errs. obs_simp. lia. }
    right. exists s2, (b1 ++ b2). unfold bind. rewrite E1, E2, expr_list_nil. split; [reflexivity|]. split; [exact (hv_trans _ _ _ H1 H2)|].
    split; [rewrite O2, O1, wout_wout, isizes_snoc; [reflexivity|obs_simp; exact Tt]|]. split; [exact D2|].
    split.
    + intros n Hn. unfold lnames in Hn. rewrite flat_map_app in Hn. apply in_app_or in Hn. destruct Hn as [Hn|Hn].
      * refine (entered_kept s1 s2 _ (h_keep _ _ H2) _ En1 n Hn). intros m Hm. unfold lnames in Hm. apply in_flat_map in Hm.
        destruct Hm as (j & J1 & J2). apply (Pl j m); [apply in_or_app; auto|]. destruct j as [e|]; [|destruct J2]. destruct e; auto. destruct J2.
      * cbn in Hn. rewrite app_nil_r in Hn. apply En2, Hn.
    + intros X. destruct (By1 X) as [B1 B2]. destruct (By2 ltac:(congruence)) as [B3 B4]. rewrite P1 in B3, B4.
      rewrite items_size_snoc, B1, B3, (items_bytes_snoc _ _ _ _ _ _ B1), B2, B3, B4, isizes_snoc. auto.
Qed.

(** the statement: built, then expanded in a state where a label may have been defined *)
Definition dstart (size : Z) (o : state) : state := set_ety (dety size) (set_org_spec true o).
Lemma data_walk C size l F s p q : nth_error (s_nodes s) p = Some (mkNode (KData size q) []) -> lrep C s q l ->
  tab s -> s_stop s = false -> In size [1; 2] -> forallb item_eager l = true -> (list_fuel l <= F)%nat ->
  s_scope s = None -> owned s -> (forall i n, In i l -> In n (item_names i) -> plain n) -> 0 <= s_total s ->
  (s_final s = true -> forallb (fun i => negb (item_unknown C i)) l = true /\ no_hole s /\ s_opened s = true) ->
  bad s (expand (S F) p s) \/
  exists s' b, expand (S F) p s = Ok 0 s' /\ hv s s' /\ obs s' = wout b (isizes size l) (dstart size (obs s)) /\ entered s' (lnames l) /\
    (s_final s = true -> items_bytes (fun n => cval (C n)) size (s_pc s) l = Some b /\ Z.of_nat (length b) = isizes size l).
Proof.
  intros N R0 T St Sz Ea HF Sc Ow Pl Tt G. pose proof (hv_start size s T) as H2.
  rewrite (expand_data F s p size q St N).
  destruct (list_walk C size l q F (data_start size s) (lrep_hv _ _ _ _ _ H2 R0) HF (h_tab _ _ H2) St Ea eq_refl eq_refl Sz Sc
     (k_own _ _ (h_keep _ _ H2) Ow) Pl Tt) as [B|(s' & b & E & H & O & D & En & By)].
  - intros X. change (s_final (data_start size s)) with (s_final s) in X. destruct (G X) as (G1 & G2 & G3). split; [exact G1|].
    split; [|change (s_opened s && true = true); rewrite G3; reflexivity].
    apply hole_gap in G2. unfold no_gap. intros W. change (s_pc (data_start size s)) with (s_pc s). change (s_origin (data_start size s)) with (s_origin s).
    replace (s_total (header (data_start size s))) with (s_total (header s)); [apply G2, G3|].
    unfold header. change (s_total (data_start size s)) with (s_total s). change (s_c64 (data_start size s)) with (s_c64 s).
    destruct ((s_total s =? 0) && s_c64 s); reflexivity.
  - left. exact B.
  - right. exists s', b. split; [exact E|]. split; [exact (hv_trans _ _ _ H2 H)|]. split; [rewrite O, obs_start; reflexivity|]. split; [exact En|].
    intros X. destruct (By X) as [B1 B2]. change (s_pc (data_start size s)) with (s_pc s) in B1, B2. split; [exact B2|].
    symmetry. apply (data_step _ size l Sz _ _ _ B1 B2).
Qed.
