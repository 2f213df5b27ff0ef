(** Instructions for any operands: an error is reported, or the instruction is encoded. *)
From Coq Require Import String Lia.
From Verif Require Import Base BaseProofs Hash Dict DictProofs DictMore Str Opcodes OpcodesProofs Err State Sym Machine Build Pass
  GenX Gen Inv SymProofs Sem ExprProofs ExprMore OpProofs OpMore InstrProofs InstrMore DataProofs BadProofs.
Open Scope string_scope.
Open Scope list_scope.
Open Scope Z_scope.
Open Scope m_scope.

(** an instruction without the mode is refused when the statement is built *)
Lemma not_usable g m v hu : In m src_modes -> (forall k, -1 <= g k) -> usable (hasg g) m = false -> snd (build_mode g m v hu) = -1.
Proof.
  intros I G U.
  assert (Hh : forall k, (g k =? -1) = negb (hasg g k)) by (intros; unfold hasg; now rewrite negb_involutive).
  unfold build_mode. rewrite !Hh. cbv zeta. rewrite !negb_involutive.
  assert (Hk : forall k, hasg g k = false -> g k = -1) by (intros k Hk; unfold hasg in Hk; apply negb_false_iff, Z.eqb_eq in Hk; exact Hk).
  unfold usable in U. apply orb_false_iff in U. destruct U as [U U3]. apply orb_false_iff in U. destruct U as [U1 U2].
  rewrite U1. cbn [negb]. rewrite U2, orb_true_r. rewrite (Hk _ U2).
  assert (short_mode m = zp_form m) as -> by (cbn in I; repeat (destruct I as [<-|I]; [vm_compute; reflexivity|]); destruct I).
  rewrite U3, andb_false_r. reflexivity.
Qed.

(** the mode the statement is built with can be encoded *)
Lemma built_mode g m v hu : In m src_modes -> (forall k, -1 <= g k) -> usable (hasg g) m = true ->
  let bm := build_mode g m v hu in
  snd bm = g (fst bm) /\ 0 <= snd bm /\ 0 <= fst bm < 15 /\ nbytes (fst bm) <> 0.
Proof.
  intros I G U bm. destruct hu.
  - destruct (select0_ok g m v I G U) as (S1 & S2 & _ & S4). fold bm in S1, S2, S4.
    apply andb_prop in S4. destruct S4 as [S4 S5]. apply andb_prop in S4. destruct S4 as [S4 S6].
    split; [exact S1|]. split; [|split; [lia|]]; [|apply Z.ltb_lt in S5; lia].
    rewrite S1. specialize (G (fst bm)). unfold hasg in S2. apply negb_true_iff, Z.eqb_neq in S2. lia.
  - destruct (select_ok g m v I G U) as (S1 & S2 & _ & S4 & _). fold bm in S1, S2, S4.
    apply andb_prop in S4. destruct S4 as [S4 S5]. apply andb_prop in S4. destruct S4 as [S4 S6].
    split; [exact S1|]. split; [|split; [lia|]]; [|intros Z; rewrite Z in S5; discriminate S5].
    rewrite S1. specialize (G (fst bm)). unfold hasg in S2. apply negb_true_iff, Z.eqb_neq in S2. lia.
Qed.

Lemma op_build_w instr f m e F s : form_mode f = Some (m, e) -> tab s -> s_stop s = false -> wfe e = true -> plain_expr s e ->
  not_A e -> eager e = true -> (height e <= F)%nat ->
  bad s (build_op (expand F) instr f s) \/
  usable (has_mode s instr) m = true /\
  exists v p q s1, known (meaning s) (s_pc s) e v /\ build_op (expand F) instr f s = Ok (Some p) s1 /\ hv s s1 /\ obs s1 = obs s /\
    rep (meaning s) false s1 q e /\
    nth_error (s_nodes s1) p = Some (mkNode (KOp instr (snd (build_mode (ops_of s instr) m v (unknown_name (meaning s) e)))
                                                      (fst (build_mode (ops_of s instr) m v (unknown_name (meaning s) e))) 0) [q]).
Proof.
  intros Ff T St W P NA Ea HF. destruct (value_at (meaning s) (s_pc s) e) as [v|] eqn:V.
  2:{ left. eapply build_op_bad; eauto. }
  pose proof (value_known _ _ _ _ Ea V) as K. pose proof (build_op_ok instr f m e v F s Ff T St W P NA HF K) as OK.
  destruct (usable (has_mode s instr) m) eqn:Us.
  - right. split; [reflexivity|]. exists v.
    destruct (built_mode (ops_of s instr) m v (unknown_name (meaning s) e) (form_src _ _ _ Ff) (ops_range s instr) Us) as (S1 & S2 & _).
    destruct (build_mode _ _ _ _) as [m2 c2]. cbn [fst snd] in *. destruct OK as (p & q & s1 & E & H & O & R0 & N). 
    rewrite (proj2 (Z.ltb_ge _ _) S2) in O. exists p, q, s1. auto 10.
  - left. pose proof (not_usable (ops_of s instr) m v (unknown_name (meaning s) e) (form_src _ _ _ Ff) (ops_range s instr) Us) as Nu.
    destruct (build_mode _ _ _ _) as [m2 c2]. cbn [fst snd] in *. destruct OK as (p & q & s1 & E & H & O & R0 & N). rewrite E. cbn [bad].
    rewrite Nu in O. change (-1 <? 0) with true in O. cbv iota in O. rewrite <- (obs_get_errs s1), O. cbn [s_errs set_errs]. lia.
Qed.

(** the jump of a branch out of reach *)
Lemma far_branch_bad C e v F s p q instr c sc : (height e <= F)%nat -> (1 <= F)%nat -> tab s -> s_stop s = false ->
  rep C false s q e -> known C (s_pc s) e v -> s_final s = true -> value_at C (s_pc s + 2) e = None -> unknown_name C e = false -> not_A e ->
  get_op_code (s_c02 s) (s_ill s) (invert instr) m_r <> -1 -> no_gap s ->
  nth_error (s_nodes s) p = Some (mkNode (KOp instr c m_r (s_pc s)) [q]) ->
  bad s (Machine.far_branch (expand F) p 0 m_r sc s).
Proof.
  intros HF HF1 T St Rp K Fn V U NA Hc G N.
  destruct (far_branch_front C e v F s p q instr c sc HF HF1 T St Rp K U NA Hc ltac:(auto) N) as (j & q' & s5 & -> & H5 & O5 & R5 & Jp & N5 & J5 & _).
  rewrite Fn in *. unfold when.
  assert (P5 : s_pc s5 = s_pc s + 2) by (rewrite <- (obs_get_pc s5), O5; apply pc_pc).
  assert (F5 : s_final s5 = true).
  { rewrite <- (obs_get_final s5), O5, pc_final. destruct (writes_same [get_op_code (s_c02 s) (s_ill s) (invert instr) m_r; 3] (obs s)) as (_ & _ & _ & _ & X & _).
    rewrite X. obs_simp. exact Fn. }
  assert (St5 : s_stop s5 = false).
  { rewrite <- (obs_get_stop s5), O5, pc_stop. destruct (writes_more [get_op_code (s_c02 s) (s_ill s) (invert instr) m_r; 3] (obs s)) as (_ & _ & _ & _ & _ & X & _).
    rewrite X. obs_simp. exact St. }
  assert (E5 : s_errs s5 = s_errs s).
  { rewrite <- (obs_get_errs s5), O5, pc_errs. destruct (writes_same [get_op_code (s_c02 s) (s_ill s) (invert instr) m_r; 3] (obs s)) as (_ & _ & X & _).
    rewrite X. obs_simp. reflexivity. }
  apply bad_bind.
  - unfold bind at 1, gets at 1. unfold bind at 1. rewrite (set_op_eq j _ _ _ _ _ _ s5 J5).
    set (s6 := set_nodes _ s5). assert (H6 : hv s5 s6) by (eapply hv_setop; [apply (h_tab _ _ H5)|exact J5]).
    assert (J6 : nth_error (s_nodes s6) j = Some (mkNode (KOp i_jmp 76 m_a (s_pc s5)) [q])) by (eapply upd_here, J5).
    apply bad_bind; [|apply (prs_list_and_output _ _ SR _ (ER F)); exact F5|intros a s7 HR; apply (prs_warn _ _ SR); rewrite (R_final _ _ HR); exact F5].
    unfold list_and_output. apply bad_bind; [|apply (prs_generate_list_node _ _ SR _ (ER F)); exact F5|].
    + apply (bad_le s s6); [change (s_errs s6) with (s_errs s5); lia|].
      apply (list_op_bad C e F s6 j q i_jmp 76 m_a (s_pc s5)); auto.
      * apply (h_tab _ _ H6).
      * exact (rep_hv _ _ _ _ _ _ H6 R5).
      * vm_compute; intuition congruence.
      * reflexivity.
      * change (s_pc s6) with (s_pc s5). rewrite P5. exact V.
    + intros a s7 HR. assert (F7 : s_final s7 = true) by (rewrite (R_final _ _ HR); exact F5).
      apply (prs_bind _ _ SR); [apply (prs_generate_output _ _ SR _ (ER F)), F7|]. intros. apply (prs_ret _ _ SR).
  - apply prs_gets. apply (prs_bind _ _ SR); [apply (prs_set_op _ _ SR)|]. intros a s6 _ HR. 
    assert (F6 : s_final s6 = true) by (rewrite (R_final _ _ HR); exact F5).
    apply (prs_bind _ _ SR); [apply (prs_list_and_output _ _ SR _ (ER F)); exact F6|]. intros b s7 _ HR7. apply (prs_warn _ _ SR). rewrite (R_final _ _ HR7). exact F6.
  - intros. apply (prs_far_rest _ _ SR).
Qed.
Lemma x_op_code_far_bad C e v F s p q instr c npc0 : (height e <= F)%nat -> (1 <= F)%nat -> tab s -> s_stop s = false ->
  rep C false s q e -> known C (s_pc s) e v -> s_final s = true -> value_at C (s_pc s + 2) e = None -> unknown_name C e = false -> not_A e ->
  far m_r (s_pc s) v = true ->
  get_op_code (s_c02 s) (s_ill s) (invert instr) m_r <> -1 -> no_gap (org s) ->
  nth_error (s_nodes s) p = Some (mkNode (KOp instr c m_r npc0) [q]) ->
  bad s (x_op_code (expand F) p s).
Proof.
  intros HF HF1 T St Rp K Fn V U NA Fr Hc G N.
  destruct (x_op_code_prefix F s p q instr c m_r npc0 C e T Rp St ltac:(vm_compute; intuition congruence) ltac:(discriminate) N U) as (s2 & -> & H2 & O2 & N2).
  destruct (org_same s) as (D1 & D2 & D3 & D4 & D5 & D6 & D7).
  assert (P2 : s_pc s2 = s_pc s) by (rewrite (obs_pc _ _ O2); exact D2).
  assert (St2 : s_stop s2 = false) by (rewrite (obs_stop _ _ O2), D3; exact St).
  apply (bad_le s s2); [rewrite (obs_errs _ _ O2), D7; lia|].
  pose proof (rep_hv _ _ _ _ _ _ H2 Rp) as R2.
  apply bad_bind; [|apply (prs_op_loop _ _ SR _ (ER F))|intros a s' _; apply (prs_x_op_rest _ _ SR _ (ER F))].
  rewrite op_loop_rest. unfold bind at 1. rewrite (op_info_eq _ _ _ _ _ _ _ N2). cbn [nth_error]. unfold bind at 1, ret at 1.
  destruct (eval_known C false e v F s2 q HF (h_tab _ _ H2) St2 R2 ltac:(rewrite P2; exact K)) as (s3 & E3 & H3 & O3 & R3 & P3 & _).
  unfold bind at 1. rewrite E3. pose proof (P3 _ _ _ _ _ _ N2) as N3. unfold op_rest.
  assert (Q : exists xq, nth_error (s_nodes s3) q = Some xq).
  { destruct (nth_error (s_nodes s3) q) eqn:Z; [eauto|]. apply nth_error_None in Z. apply rep_height in R3. lia. }
  destruct Q as (xq & Nq). unfold bind at 1, node_get at 1. unfold bind at 1, gets at 1. rewrite Nq. unfold ret at 1.
  unfold bind at 1, gets at 1. pose proof (rep_name_char _ _ _ _ _ _ R3 Nq) as Hch. cbv zeta in Hch. rewrite Hch, andb_false_r.
  change (op_bytes_of m_r) with 2. change (2 <? 2) with false. rewrite !andb_false_r.
  change (m_r =? m_r) with true. cbn [andb length Nat.eqb]. unfold far in Fr. change (m_r =? m_r) with true in Fr. cbn [andb] in Fr. rewrite Fr.
  assert (O3' : obs s3 = obs (org s)) by congruence.
  assert (L1 : s_pc s3 = s_pc s) by (rewrite <- D2; apply (obs_field s_pc _ _ O3'), obs_get_pc).
  assert (L3 : s_c02 s3 = s_c02 s) by (rewrite <- D4; apply (obs_field s_c02 _ _ O3'), obs_get_c02).
  assert (L4 : s_ill s3 = s_ill s) by (rewrite <- D5; apply (obs_field s_ill _ _ O3'), obs_get_ill).
  assert (L5 : s_final s3 = s_final s) by (rewrite <- D6; apply (obs_field s_final _ _ O3'), obs_get_final).
  apply (bad_obs s2 s3); [exact O3|].
  apply bad_bind; [|apply (prs_far_branch _ _ SR _ (ER F))|].
  - apply (far_branch_bad C e v F s3 p q instr c c); auto.
    + apply (h_tab _ _ H3).
    + rewrite (obs_stop _ _ O3). exact St2.
    + rewrite L1; exact K.
    + congruence.
    + rewrite L1. exact V.
    + rewrite L3, L4. exact Hc.
    + eapply no_gap_obs; [symmetry; exact O3'|exact G].
    + rewrite L1. exact N3.
  - intros [|] s4 _; [apply (prs_ret _ _ SR)|apply (prs_op_loop _ _ SR _ (ER F))].
Qed.

(** expanding an instruction with an operand *)
Definition op_sizes (C : cstr -> core_t) (g ginv : Z -> Z) (m : Z) (e : expr) (s : state) (o : state) : Prop :=
  (unknown_name C e = true /\ s_final s = false /\ o = step_op (g m :: operand m (s_pc s) 0) false (obs s)) \/
  (unknown_name C e = false /\ exists v, known C (s_pc s) e v /\
     ((far m (s_pc s) v = false /\ snd (adjust g m v) = false /\
         o = step_op (g (fst (adjust g m v)) :: operand (fst (adjust g m v)) (s_pc s) v) false (obs s)) \/
      (m = m_r /\ far m_r (s_pc s) v = true /\ exists v2, (s_final s = true -> known C (s_pc s + 2) e v2) /\ o = step_far (ginv m_r) v2 (obs s)))).
Lemma op_walk C e F s p q instr c m npc0 : nth_error (s_nodes s) p = Some (mkNode (KOp instr c m npc0) [q]) ->
  (height e <= F)%nat -> (1 <= F)%nat -> tab s -> s_stop s = false -> rep C false s q e -> eager e = true -> not_A e ->
  c = ops_of s instr m -> 0 <= c -> 0 <= m < 15 -> nbytes m <> 0 ->
  (s_final s = true -> unknown_name C e = false /\ no_hole s) ->
  bad s (expand (S F) p s) \/
  exists s', expand (S F) p s = Ok 0 s' /\ hv s s' /\ op_sizes C (ops_of s instr) (ops_of s (invert instr)) m e s (obs s').
Proof.
  intros N HF HF1 T St Rp Ea NA Hc C0 M B G. rewrite (expand_op _ _ _ _ _ _ _ _ St N).
  assert (Gp : s_final s = true -> no_gap (org s)) by (intros X; apply no_hole_gap, (G X)).
  destruct (unknown_name C e) eqn:U.
  - destruct (s_final s) eqn:Fi; [destruct (G eq_refl); discriminate|]. right.
    destruct (x_op_code_unk C e 0 F s p q instr c m npc0 HF T St Rp) as (s' & E & H & O & _); auto; try (rewrite Fi; discriminate).
    exists s'. split; [exact E|]. split; [exact H|]. left. split; [exact U|]. split; [exact Fi|]. rewrite <- Hc. exact O.
  - destruct (value_at C (s_pc s) e) as [v|] eqn:V.
    2:{ left. eapply x_op_code_bad; eauto. }
    pose proof (value_known _ _ _ _ Ea V) as K.
    destruct (far m (s_pc s) v) eqn:Fr.
    + assert (m = m_r) as -> by (unfold far in Fr; apply andb_prop in Fr; apply Z.eqb_eq, Fr).
      assert (Hi : ops_of s (invert instr) m_r <> -1) by (apply invert_branch; unfold ops_of in Hc; lia).
      destruct (s_final s) eqn:Fi.
      * destruct (value_at C (s_pc s + 2) e) as [v2|] eqn:V2.
        -- right. destruct (x_op_code_far C e v v2 F s p q instr c npc0 HF HF1 T St Rp K) as (q' & s' & E & H & O & _); auto.
           { intros _. exact (value_known _ _ _ _ Ea V2). }
           exists s'. split; [exact E|]. split; [exact H|]. right. split; [exact U|]. exists v. split; [exact K|]. right.
           split; [reflexivity|]. split; [exact Fr|]. exists v2. split; [intros _; exact (value_known _ _ _ _ Ea V2)|exact O].
        -- left. eapply x_op_code_far_bad; eauto.
      * right. destruct (x_op_code_far C e v 0 F s p q instr c npc0 HF HF1 T St Rp K) as (q' & s' & E & H & O & _); auto; try (rewrite Fi; discriminate).
        exists s'. split; [exact E|]. split; [exact H|]. right. split; [exact U|]. exists v. split; [exact K|]. right.
        split; [reflexivity|]. split; [exact Fr|]. exists 0. split; [rewrite Fi; discriminate|exact O].
    + destruct (x_op_code_ok C e v F s p q instr c m npc0 HF T St Rp K U M B Fr Hc C0 Gp N) as (s' & E & H & O & _).
      fold (ops_of s instr) in O. destruct (snd (adjust (ops_of s instr) m v)) eqn:Ad.
      * left. rewrite E. cbn [bad]. destruct (step_op_emits _ _ _ _ O) as [_ X]. lia.
      * right. exists s'. split; [exact E|]. split; [exact H|]. right. split; [exact U|]. exists v. split; [exact K|]. left. auto.
Qed.
