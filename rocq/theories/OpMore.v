(** Instructions without operand, with operands that have no value yet, and branches out of range. *)
From Coq Require Import String Lia.
From Verif Require ListRel.
From Verif Require Import Base BaseProofs Hash Dict DictProofs DictMore Str Opcodes OpcodesProofs Err State Sym Machine Build Pass
  GenX Gen Inv SymProofs Sem ExprProofs OpProofs.
Open Scope string_scope.
Open Scope list_scope.
Open Scope Z_scope.
Open Scope m_scope.
Ltac Zify.zify_post_hook ::= Z.div_mod_to_equations.

(** states that write alike *)
Lemma no_gap_obs a b : obs a = obs b -> no_gap a -> no_gap b.
Proof.
  intros O G. unfold no_gap in *.
  assert (W : s_opened b = s_opened a /\ s_org_spec b = s_org_spec a /\ s_pc b = s_pc a /\ s_origin b = s_origin a
       /\ s_total b = s_total a /\ s_c64 b = s_c64 a).
  { repeat split; [pose proof (f_equal s_opened O) as Z|pose proof (f_equal s_org_spec O) as Z|pose proof (f_equal s_pc O) as Z
        |pose proof (f_equal s_origin O) as Z|pose proof (f_equal s_total O) as Z|pose proof (f_equal s_c64 O) as Z];
      obs_simp_in Z; symmetry; exact Z. }
  destruct W as (W1 & W2 & W3 & W4 & W5 & W6). rewrite W1, W2, W3, W4.
  assert (T1 : s_total (header b) = s_total (header a)).
  { unfold header. rewrite W4, W5, W6. destruct ((s_total a =? 0) && s_c64 a); [|exact W5]. cbn. now rewrite W5. }
  rewrite T1. exact G.
Qed.

Lemma when_org s : when (0 <? s_pc_assigned s) (modify (set_org_spec true)) s = Ok tt (org s).
Proof. unfold when, org. destruct (0 <? _); reflexivity. Qed.

(** the end of expand_op_code_node, without operand *)
Lemma op_tail0 F s p instr c' m' npc sc sm : tab s -> 0 <= m' < 15 -> nbytes m' = 0 -> (s_final s = true -> no_gap s) ->
  nth_error (s_nodes s) p = Some (mkNode (KOp instr c' m' npc) []) -> npc = s_pc s -> (s_final s = true -> 0 <= c' < 256) ->
  exists s',
    (f <- gets s_final ;;
      when f (list_and_output (expand F) p) ;;;
      inf <- op_info p ;;
      let '(_, _, mode, _, _) := inf in
      b <- mode_bytes mode ;;
      modify (fun s => set_pc (s_pc s + b + 1) s) ;;;
      b <- mode_bytes mode ;;
      modify (fun s => set_code_gen (s_code_gen s + b + 1) s) ;;;
      set_op p (fun i _ _ c => KOp i sc sm c) ;;;
      ret 0) s = Ok 0 s' /\ hv s s' /\
    obs s' = (let s3 := if s_final s then writes [c'] (obs s) else obs s in
              set_code_gen (s_code_gen s3 + 1) (set_pc (s_pc s3 + 1) s3)) /\
    nth_error (s_nodes s') p = Some (mkNode (KOp instr sc sm npc) []).
Proof.
  intros T M B G N Np Bo. unfold bind at 1, gets at 1.
  assert (X : exists s1, when (s_final s) (list_and_output (expand F) p) s = Ok tt s1 /\ hvp 1 s s1 /\
      obs s1 = (if s_final s then writes [c'] (obs s) else obs s) /\
      nth_error (s_nodes s1) p = Some (mkNode (KOp instr c' m' npc) [])).
  { unfold when. destruct (s_final s) eqn:Fn.
    - destruct (emit_op0 F s p instr c' m' npc T M B (G eq_refl) N Np (Bo eq_refl)) as (s1 & E1 & H1 & O1 & N1). pose proof (N1 _ _ _ _ _ _ N). eauto 10.
    - exists s. split; [reflexivity|]. split; [apply hvp_idle; auto|]. auto. }
  destruct X as (s1 & E1 & H1 & O1 & N1). unfold bind at 1. rewrite E1.
  unfold bind at 1. rewrite (op_info_eq _ _ _ _ _ _ _ N1). unfold bind at 1. rewrite mode_bytes_ok by auto.
  unfold bind at 1, modify at 1. unfold bind at 1. rewrite mode_bytes_ok by auto. unfold bind at 1, modify at 1.
  rewrite B. set (s2 := set_pc _ s1). set (s3 := set_code_gen _ s2).
  assert (H3 : hv s s3) by (apply (hvp_move 1 s s1); auto; unfold s3, s2; cbn [s_pc set_code_gen set_pc]; lia).
  assert (N3 : nth_error (s_nodes s3) p = Some (mkNode (KOp instr c' m' npc) [])) by exact N1.
  unfold bind at 1. rewrite (set_op_eq _ _ _ _ _ _ _ _ N3). unfold ret. eexists. split; [reflexivity|].
  split; [eapply hv_trans; [exact H3|]; eapply hv_setop; [apply (h_tab _ _ H3)|exact N3]|].
  split; [|eapply upd_here; exact N3].
  obs_simp. unfold s3. obs_simp. unfold s2. obs_simp.
  change (s_code_gen (set_pc (s_pc s1 + 0 + 1) s1)) with (s_code_gen s1).
  rewrite <- !Z.add_assoc. rewrite <- (obs_get_pc s1), <- (obs_get_code_gen s1), O1. reflexivity.
Qed.

Theorem x_op_code0 F s p instr c m npc0 : tab s -> 0 <= m < 15 -> nbytes m = 0 -> 
  (s_final s = true -> no_gap (org s)) ->
  nth_error (s_nodes s) p = Some (mkNode (KOp instr c m npc0) []) -> (s_final s = true -> 0 <= c < 256) ->
  exists s', x_op_code (expand F) p s = Ok 0 s' /\ hv s s' /\ obs s' = step_op [c] false (obs s) /\
    nth_error (s_nodes s') p = Some (mkNode (KOp instr c m (s_pc s)) []).
Proof.
  intros T M B G N Bo. unfold x_op_code. unfold bind at 1. rewrite (op_info_eq _ _ _ _ _ _ _ N).
  unfold bind at 1, gets at 1. unfold bind at 1. rewrite when_org.
  destruct (org_same s) as (D1 & D2 & D3 & D4 & D5 & D6 & D7). pose proof (hv_org s T) as H1.
  unfold bind at 1, gets at 1. rewrite D2.
  assert (N1 : nth_error (s_nodes (org s)) p = Some (mkNode (KOp instr c m npc0) [])) by (rewrite D1; exact N).
  unfold bind at 1. rewrite (set_op_eq _ _ _ _ _ _ _ _ N1).
  set (s2 := set_nodes _ (org s)).
  assert (H2 : hv (org s) s2) by (eapply hv_setop; [apply (h_tab _ _ H1)|exact N1]).
  assert (N2 : nth_error (s_nodes s2) p = Some (mkNode (KOp instr c m (s_pc s)) [])) by (eapply upd_here, N1).
  assert (O2 : obs s2 = obs (org s)) by apply obs_set_nodes.
  assert (B0 : (0 <? op_bytes_of m) = false).
  { clear -M B. revert B. revert m M. refine (nth15 _ _). intros m I. cbn in I.
    repeat (destruct I as [<-|I]; [vm_compute; intuition congruence|]). destruct I. }
  cbv zeta. rewrite B0. unfold bind at 1, ret at 1. unfold bind at 1, ret at 1.
  unfold bind at 1. rewrite (op_info_eq _ _ _ _ _ _ _ N2). cbn [negb andb]. unfold bind at 1, ret at 1.
  destruct (op_tail0 F s2 p instr c m (s_pc s) c m (h_tab _ _ H2) M B) as (s5 & E5 & H5 & O5 & N5).
  { intros Fn. unfold s2 in Fn. cbn [s_final set_nodes] in Fn. rewrite D6 in Fn. eapply no_gap_obs; [symmetry; exact O2|exact (G Fn)]. }
  { exact N2. } { symmetry. exact D2. } { intros Fn. unfold s2 in Fn. cbn [s_final set_nodes] in Fn. rewrite D6 in Fn. exact (Bo Fn). }
  exists s5. split; [exact E5|]. split; [exact (hv_trans _ _ _ H1 (hv_trans _ _ _ H2 H5))|]. split; [|exact N5].
  rewrite O5, O2. change (s_final s2) with (s_final (org s)). rewrite D6, obs_org. unfold step_op. obs_simp.
  change (Z.of_nat (length [c])) with 1. reflexivity.
Qed.

(** an operand with a name that has no value yet: the mode stays as built *)
Theorem x_op_code_unk C e v F s p q instr c m npc0 : (height e <= F)%nat -> tab s -> s_stop s = false -> rep C false s q e ->
  (s_final s = true -> known C (s_pc s) e v) -> unknown_name C e = true -> 0 <= m < 15 -> nbytes m <> 0 -> (s_final s = true -> far m (s_pc s) v = false) ->
  (s_final s = true -> no_gap (org s)) ->
  nth_error (s_nodes s) p = Some (mkNode (KOp instr c m npc0) [q]) -> (s_final s = true -> 0 <= c < 256) ->
  exists s', x_op_code (expand F) p s = Ok 0 s' /\ hv s s' /\ obs s' = step_op (c :: operand m (s_pc s) v) false (obs s) /\
    nth_error (s_nodes s') p = Some (mkNode (KOp instr c m (s_pc s)) [q]).
Proof.
  intros HF T St R K U M B Fr G N Bo. unfold x_op_code. unfold bind at 1. rewrite (op_info_eq _ _ _ _ _ _ _ N).
  unfold bind at 1, gets at 1. unfold bind at 1. rewrite when_org.
  destruct (org_same s) as (D1 & D2 & D3 & D4 & D5 & D6 & D7). pose proof (hv_org s T) as H1.
  unfold bind at 1, gets at 1. rewrite D2.
  assert (N1 : nth_error (s_nodes (org s)) p = Some (mkNode (KOp instr c m npc0) [q])) by (rewrite D1; exact N).
  unfold bind at 1. rewrite (set_op_eq _ _ _ _ _ _ _ _ N1).
  set (s2 := set_nodes _ (org s)).
  assert (H2 : hv (org s) s2) by (eapply hv_setop; [apply (h_tab _ _ H1)|exact N1]).
  assert (N2 : nth_error (s_nodes s2) p = Some (mkNode (KOp instr c m (s_pc s)) [q])) by (eapply upd_here, N1).
  assert (O2 : obs s2 = obs (org s)) by apply obs_set_nodes.
  pose proof (hv_trans _ _ _ H1 H2) as H12. pose proof (rep_hv _ _ _ _ _ _ H12 R) as R2.
  assert (P2 : s_pc s2 = s_pc s) by exact D2. assert (St2 : s_stop s2 = false) by (rewrite <- St; exact D3).
  assert (B0 : (0 <? op_bytes_of m) = true).
  { clear -M B. revert B. revert m M. refine (nth15 _ _). intros m I. cbn in I.
    repeat (destruct I as [<-|I]; [vm_compute; intuition congruence|]). destruct I. }
  cbv zeta. rewrite B0. unfold bind at 1. rewrite (has_uninitialized_rep _ _ _ _ _ _ N2 R2). rewrite U.
  unfold bind at 1, ret at 1. unfold bind at 1. rewrite (op_info_eq _ _ _ _ _ _ _ N2). cbn [negb andb]. unfold bind at 1, ret at 1.
  assert (Nb : 0 < nbytes m) by (pose proof (nbytes_range m); lia).
  destruct (op_tail C e v F s2 p q instr c m (s_pc s) c m HF (h_tab _ _ H2) St2 R2 ltac:(rewrite P2; change (s_final s2) with (s_final (org s)); rewrite D6; exact K) M Nb)
    as (s5 & E5 & H5 & O5 & N5 & _).
  { intros Fn. unfold s2 in Fn. cbn [s_final set_nodes] in Fn. rewrite D6 in Fn. exact (Fr Fn). }
  { intros Fn. unfold s2 in Fn. cbn [s_final set_nodes] in Fn. rewrite D6 in Fn. eapply no_gap_obs; [symmetry; exact O2|exact (G Fn)]. }
  { exact N2. } { symmetry. exact P2. } { intros Fn. unfold s2 in Fn. cbn [s_final set_nodes] in Fn. rewrite D6 in Fn. exact (Bo Fn). }
  exists s5. split; [exact E5|]. split; [exact (hv_trans _ _ _ H12 H5)|]. split; [|exact N5].
  rewrite O5, O2. change (s_final s2) with (s_final (org s)). rewrite D6, obs_org. unfold step_op. obs_simp.
  cbn [length]. rewrite Nat2Z.inj_succ, operand_length by auto. reflexivity.
Qed.

(** constants stay *)
Lemma hv_const s s' q v l : hv0 s s' -> nth_error (s_nodes s) q = Some (mkNode (KCon v false) l) ->
  nth_error (s_nodes s') q = Some (mkNode (KCon v false) l).
Proof.
  intros H N. destruct (h_node _ _ H _ _ N) as (x' & Hx & Nx). rewrite Hx.
  inversion Nx as [y y' Y| |]; subst. inversion Y; reflexivity.
Qed.

(** ** A branch out of range *)
Definition step_far (c2 v2 : Z) (s : state) : state :=
  let s1 := org s in
  let s2 := if s_final s then writes [c2; 3] s1 else s1 in
  let s3 := set_pc (s_pc s2 + 2) s2 in
  let s4 := if s_final s then set_warns (s_warns s3 + 1) (writes [76; v2; v2 / 256] s3) else s3 in
  set_pc (s_pc s4 + 3) s4.

Lemma build_jmp c02 ill v hu : build_mode (get_op_code c02 ill i_jmp) m_a v hu = (m_a, 76).
Proof. unfold build_mode. destruct c02, ill, (over v 255), hu; vm_compute; reflexivity. Qed.


Lemma header_more s : s_opened (header s) = s_opened s /\ s_org_spec (header s) = s_org_spec s /\ s_origin (header s) = s_origin s /\
  s_c64 (header s) = s_c64 s /\ s_warns (header s) = s_warns s /\ s_stop (header s) = s_stop s.
Proof. unfold header. destruct ((s_total s =? 0) && s_c64 s); repeat split. Qed.
Lemma writes_more l s : s_opened (writes l s) = s_opened s /\ s_org_spec (writes l s) = s_org_spec s /\ s_origin (writes l s) = s_origin s /\
  s_c64 (writes l s) = s_c64 s /\ s_warns (writes l s) = s_warns s /\ s_stop (writes l s) = s_stop s /\
  s_total (writes l s) = (if s_opened s && s_org_spec s then s_total (header s) + Z.of_nat (length l) else s_total s).
Proof.
  unfold writes. destruct (s_opened s && s_org_spec s); [|auto 10]. destruct (header_more s) as (A1 & A2 & A3 & A4 & A5 & A6).
  cbn [put s_opened s_org_spec s_origin s_c64 s_warns s_stop s_total set_out set_total]. auto 10.
Qed.

Lemma no_gap_step l s t : obs t = set_pc (s_pc s + Z.of_nat (length l)) (writes l (obs s)) -> no_gap s -> no_gap t.
Proof.
  intros O G. unfold no_gap in *. intros W.
  assert (Ft : s_opened t = s_opened s /\ s_org_spec t = s_org_spec s /\ s_pc t = s_pc s + Z.of_nat (length l) /\ s_origin t = s_origin s /\
     s_c64 t = s_c64 s /\ s_total t = (if s_opened s && s_org_spec s then s_total (header s) + Z.of_nat (length l) else s_total s)).
  { repeat split; [pose proof (f_equal s_opened O) as Z|pose proof (f_equal s_org_spec O) as Z|pose proof (f_equal s_pc O) as Z
        |pose proof (f_equal s_origin O) as Z|pose proof (f_equal s_c64 O) as Z|pose proof (f_equal s_total O) as Z];
      rewrite <- obs_writes in Z; cbn [s_opened s_org_spec s_pc s_origin s_total s_c64 set_pc] in Z; obs_simp_in Z; rewrite Z; auto;
      apply (writes_more l s). }
  destruct Ft as (W1 & W2 & W3 & W4 & W5 & W6). rewrite W1, W2 in W. specialize (G W). rewrite W in W6.
  assert (Ht : s_total t <= s_total (header t)).
  { unfold header. destruct ((s_total t =? 0) && s_c64 t); [|lia]. unfold put. cbn [s_total set_out set_total length]. lia. }
  rewrite W3, W4. lia.
Qed.

(** up to the jump *)
Lemma far_branch_front C e v F s p q instr c sc : (height e <= F)%nat -> (1 <= F)%nat -> tab s -> s_stop s = false ->
  rep C false s q e -> known C (s_pc s) e v -> unknown_name C e = false -> not_A e ->
  let c2 := get_op_code (s_c02 s) (s_ill s) (invert instr) m_r in
  c2 <> -1 -> (s_final s = true -> no_gap s) ->
  nth_error (s_nodes s) p = Some (mkNode (KOp instr c m_r (s_pc s)) [q]) ->
  exists j q' s5, far_branch (expand F) p 0 m_r sc s =
      (when (s_final s) (pc <- gets s_pc ;; set_op j (fun i o m _ => KOp i o m pc) ;;; list_and_output (expand F) j ;;;
         warn_ error_branch_out_of_range) ;;; far_rest p j m_r sc) s5 /\ hv s s5 /\
    obs s5 = set_pc (s_pc s + 2) (if s_final s then writes [c2; 3] (obs s) else obs s) /\ rep C false s5 q e /\ j <> p /\
    nth_error (s_nodes s5) p = Some (mkNode (KOp (invert instr) c2 m_r (s_pc s)) [q']) /\
    nth_error (s_nodes s5) j = Some (mkNode (KOp i_jmp 76 m_a 0) [q]) /\
    (if s_final s then nth_error (s_nodes s5) q' = Some (mkNode (KCon (s_pc s + 5) false) []) else q' = q).
Proof.
  intros HF HF1 T St R K U NA c2 Hc G N. unfold far_branch. unfold bind at 1. rewrite (set_op_eq _ _ _ _ _ _ _ _ N).
  set (s1 := set_nodes _ s). assert (H1 : hv s s1) by (eapply hv_setop; [exact T|exact N]).
  assert (N1 : nth_error (s_nodes s1) p = Some (mkNode (KOp (invert instr) c m_r (s_pc s)) [q])) by (eapply upd_here, N).
  unfold bind at 1. rewrite (op_info_eq _ _ _ _ _ _ _ N1). unfold bind at 1, op_code at 1, gets at 1.
  change (get_op_code (s_c02 s1) (s_ill s1) (invert instr) m_r) with c2. rewrite (proj2 (Z.eqb_neq _ _) Hc).
  unfold bind at 1. cbn [nth_error]. unfold ret at 1.
  pose proof (rep_hv _ _ _ _ _ _ H1 R) as R1.
  pose proof (opcode_node_ok C false e v F s1 q i_jmp m_a HF (h_tab _ _ H1) St R1 K NA) as OK.
  rewrite build_jmp in OK. destruct OK as (j & s2 & E2 & H2 & O2 & R2 & J2 & K2').
  unfold bind at 1. rewrite E2. change (76 <? 0) with false in O2. cbv iota in O2.
  assert (O2' : obs s2 = obs s) by (rewrite O2; unfold s1; apply obs_set_nodes).
  pose proof (K2' _ _ _ _ _ _ N1) as N2.
  unfold bind at 1. rewrite (set_op_eq _ _ _ _ _ _ _ _ N2).
  set (s3 := set_nodes _ s2). assert (H3 : hv s2 s3) by (eapply hv_setop; [apply (h_tab _ _ H2)|exact N2]).
  assert (N3 : nth_error (s_nodes s3) p = Some (mkNode (KOp (invert instr) c2 m_r (s_pc s)) [q])) by (eapply upd_here, N2).
  assert (O3 : obs s3 = obs s) by (unfold s3; rewrite obs_set_nodes; exact O2').
  assert (Jp : j <> p) by (intros ->; rewrite J2 in N2; discriminate N2).
  assert (J3 : nth_error (s_nodes s3) j = Some (mkNode (KOp i_jmp 76 m_a 0) [q])).
  { unfold s3. cbn [s_nodes set_nodes]. rewrite nth_upd_other by auto. exact J2. }
  pose proof (rep_hv _ _ _ _ _ _ H3 R2) as R3.
  pose proof (hv_trans _ _ _ H1 (hv_trans _ _ _ H2 H3)) as H13.
  assert (P3 : s_pc s3 = s_pc s) by (apply (obs_field s_pc _ _ O3), obs_get_pc).
  assert (F3 : s_final s3 = s_final s) by (apply (obs_field s_final _ _ O3), obs_get_final).
  assert (S3 : s_stop s3 = false) by (rewrite <- St; apply (obs_field s_stop _ _ O3), obs_get_stop).
  unfold bind at 1, gets at 1. rewrite F3.
  (* the branch *)
  assert (X : exists q' s4,
     when (s_final s) (pc <- gets s_pc ;; k <- constant_node (pc + 5) ;; x <- node_get p ;;
       node_set p (mkNode (n_kind x) (upd 0 k (n_ops x))) ;;; list_and_output (expand F) p) s3 = Ok tt s4 /\ hvp 2 s3 s4 /\
     obs s4 = (if s_final s then writes [c2; 3] (obs s) else obs s) /\ rep C false s4 q e /\
     nth_error (s_nodes s4) p = Some (mkNode (KOp (invert instr) c2 m_r (s_pc s)) [q']) /\
     nth_error (s_nodes s4) j = Some (mkNode (KOp i_jmp 76 m_a 0) [q]) /\
     (if s_final s then nth_error (s_nodes s4) q' = Some (mkNode (KCon (s_pc s + 5) false) []) else q' = q)).
  { unfold when. destruct (s_final s) eqn:Fn.
    2:{ exists q, s3. split; [reflexivity|]. split; [apply hvp_idle; [apply (h_tab _ _ H3)|congruence]|]. auto 10. }
    unfold bind at 1, gets at 1. rewrite P3. unfold bind at 1, constant_node. rewrite alloc_eq.
    set (k := length (s_nodes s3)). set (s4 := set_nodes (s_nodes s3 ++ _) s3).
    assert (H4 : hv s3 s4) by (apply hv_alloc; [reflexivity|apply (h_tab _ _ H3)]).
    assert (N4 : nth_error (s_nodes s4) p = Some (mkNode (KOp (invert instr) c2 m_r (s_pc s)) [q])) by (apply ops_kept_alloc; exact N3).
    assert (J4 : nth_error (s_nodes s4) j = Some (mkNode (KOp i_jmp 76 m_a 0) [q])) by (apply ops_kept_alloc; exact J3).
    assert (Q4 : nth_error (s_nodes s4) k = Some (mkNode (KCon (s_pc s + 5) false) [])) by apply alloc_nth.
    unfold bind at 1, node_get at 1. unfold bind at 1, gets at 1. rewrite N4. unfold ret at 1. cbn [n_kind n_ops upd].
    unfold bind at 1, node_set at 1, modify at 1. set (s5 := set_nodes _ s4).
    assert (H5 : hv s4 s5) by (eapply hv_setop; [apply (h_tab _ _ H4)|exact N4]).
    assert (N5 : nth_error (s_nodes s5) p = Some (mkNode (KOp (invert instr) c2 m_r (s_pc s)) [k])) by (eapply upd_here, N4).
    assert (kp : k <> p). { intros X. rewrite X in Q4. rewrite Q4 in N4. discriminate N4. }
    assert (Q5 : nth_error (s_nodes s5) k = Some (mkNode (KCon (s_pc s + 5) false) [])).
    { unfold s5. cbn [s_nodes set_nodes]. rewrite nth_upd_other by auto. exact Q4. }
    assert (J5 : nth_error (s_nodes s5) j = Some (mkNode (KOp i_jmp 76 m_a 0) [q])).
    { unfold s5. cbn [s_nodes set_nodes]. rewrite nth_upd_other by auto. exact J4. }
    assert (O5 : obs s5 = obs s) by (unfold s5, s4; rewrite !obs_set_nodes; exact O3).
    assert (R5 : rep C false s5 k (EInt (s_pc s + 5))) by (apply RepInt; exact Q5).
    destruct (emit_op C (EInt (s_pc s + 5)) (s_pc s + 5) F s5 p k (invert instr) c2 m_r (s_pc s)) as (s6 & E6 & H6 & O6 & K6).
    { cbn. lia. } { apply (h_tab _ _ H5). } { rewrite <- St. apply (obs_field s_stop _ _ O5), obs_get_stop. } { exact R5. }
    { split; reflexivity. } { vm_compute; intuition congruence. } { reflexivity. }
    { unfold far. replace (s_pc s + 5 - (s_pc s + 2)) with 3 by lia. reflexivity. }
    { eapply no_gap_obs; [symmetry; exact O5|apply G; reflexivity]. } { exact N5. } { symmetry. exact P3. }
    { pose proof (get_op_code_range (s_c02 s) (s_ill s) (invert instr) m_r). unfold c2 in *. lia. }
    exists k, s6. split; [exact E6|]. split; [exact (hvp_trans _ _ _ _ H4 (hvp_trans _ _ _ _ H5 H6))|].
    split. { rewrite O6, O5. unfold operand. replace (s_pc s + 5 - (s_pc s + 2)) with 3 by lia. reflexivity. }
    split. { eapply rep_hv; [exact H6|]. eapply rep_hv; [exact H5|]. eapply rep_hv; [exact H4|exact R3]. }
    split; [apply K6, N5|]. split; [apply K6, J5|].
    exact (hv_const _ _ _ _ _ H6 Q5). }
  destruct X as (q' & s4 & E4 & H4 & O4 & R4 & N4 & J4 & Q4). unfold bind at 1. rewrite E4.
  unfold bind at 1. rewrite (op_info_eq _ _ _ _ _ _ _ N4). unfold bind at 1. rewrite mode_bytes_ok by (vm_compute; intuition congruence).
  unfold bind at 1, modify at 1. change (nbytes m_r) with 1.
  set (s5 := set_pc _ s4). assert (H5 : hv s3 s5) by (apply (hvp_move 2 s3 s4); auto; unfold s5; cbn [s_pc set_pc]; lia).
  assert (P4 : s_pc s4 = s_pc s).
  { rewrite <- (obs_get_pc s4), O4. destruct (s_final s); [rewrite (proj1 (writes_same _ _))|]; apply obs_get_pc. }
  assert (O5 : obs s5 = set_pc (s_pc s + 2) (if s_final s then writes [c2; 3] (obs s) else obs s)).
  { unfold s5. rewrite obs_set_pc, O4, P4. rewrite <- Z.add_assoc. reflexivity. }
  exists j, q', s5. split; [reflexivity|]. split; [exact (hv_trans _ _ _ H13 H5)|]. split; [exact O5|].
  split; [|auto]. assert (H5' : hv0 s4 s5) by (apply hv0_frame; auto; apply (h_tab _ _ H4)). exact (rep_hv _ _ _ _ _ _ H5' R4).
Qed.
Lemma far_branch_ok C e v v2 F s p q instr c sc : (height e <= F)%nat -> (1 <= F)%nat -> tab s -> s_stop s = false ->
  rep C false s q e -> known C (s_pc s) e v -> (s_final s = true -> known C (s_pc s + 2) e v2) -> unknown_name C e = false -> not_A e ->
  let c2 := get_op_code (s_c02 s) (s_ill s) (invert instr) m_r in
  c2 <> -1 -> (s_final s = true -> no_gap s) ->
  nth_error (s_nodes s) p = Some (mkNode (KOp instr c m_r (s_pc s)) [q]) ->
  exists q' s', far_branch (expand F) p 0 m_r sc s = Ok true s' /\ hv s s' /\
    obs s' = (let s2 := if s_final s then writes [c2; 3] (obs s) else obs s in
              let s3 := set_pc (s_pc s2 + 2) s2 in
              let s4 := if s_final s then set_warns (s_warns s3 + 1) (writes [76; v2; v2 / 256] s3) else s3 in
              set_pc (s_pc s4 + 3) s4) /\
    nth_error (s_nodes s') p = Some (mkNode (KOp (invert instr) sc m_r (s_pc s)) [q']) /\
    (if s_final s then nth_error (s_nodes s') q' = Some (mkNode (KCon (s_pc s + 5) false) []) else q' = q).
Proof.
  intros HF HF1 T St R K K2 U NA c2 Hc G N.
  destruct (far_branch_front C e v F s p q instr c sc HF HF1 T St R K U NA Hc G N) as (j & q' & s5 & -> & H15 & O5 & R5 & Jp & N4 & J4 & Q4).
  fold c2 in O5, N4.
  assert (P5 : s_pc s5 = s_pc s + 2) by (rewrite <- (obs_get_pc s5), O5; reflexivity).
  assert (X : exists s6,
     when (s_final s) (pc <- gets s_pc ;; set_op j (fun i o m _ => KOp i o m pc) ;;; list_and_output (expand F) j ;;;
       warn_ error_branch_out_of_range) s5 = Ok tt s6 /\ hvp 3 s5 s6 /\
     obs s6 = (if s_final s then set_warns (s_warns (obs s5) + 1) (writes [76; v2; v2 / 256] (obs s5)) else obs s5) /\
     nth_error (s_nodes s6) p = Some (mkNode (KOp (invert instr) c2 m_r (s_pc s)) [q']) /\
     (exists jc, nth_error (s_nodes s6) j = Some (mkNode (KOp i_jmp 76 m_a jc) [q])) /\
     (if s_final s then nth_error (s_nodes s6) q' = Some (mkNode (KCon (s_pc s + 5) false) []) else q' = q)).
  { unfold when. destruct (s_final s) eqn:Fn.
    2:{ exists s5. split; [reflexivity|]. split; [apply hvp_idle; [apply (h_tab _ _ H15)|rewrite (ListRel.lk_final _ _ (h_lk _ _ H15)); exact Fn]|]. eauto 10. }
    unfold bind at 1, gets at 1. unfold bind at 1. rewrite (set_op_eq j _ _ _ _ _ _ s5 J4).
    set (s6 := set_nodes _ s5). assert (H6 : hv s5 s6) by (eapply hv_setop; [apply (h_tab _ _ H15)|exact J4]).
    assert (J6 : nth_error (s_nodes s6) j = Some (mkNode (KOp i_jmp 76 m_a (s_pc s5)) [q])) by (eapply upd_here, J4).
    assert (N6 : nth_error (s_nodes s6) p = Some (mkNode (KOp (invert instr) c2 m_r (s_pc s)) [q'])).
    { unfold s6. cbn [s_nodes set_nodes]. rewrite nth_upd_other by auto. exact N4. }
    assert (Q6 : nth_error (s_nodes s6) q' = Some (mkNode (KCon (s_pc s + 5) false) [])).
    { exact (hv_const _ _ _ _ _ H6 Q4). }
    assert (O6 : obs s6 = obs s5) by (unfold s6; apply obs_set_nodes).
    assert (P6 : s_pc s6 = s_pc s + 2) by exact P5.
    assert (S6 : s_stop s6 = false).
    { rewrite <- (obs_get_stop s6), O6, O5. rewrite <- obs_writes, <- obs_set_pc, obs_get_stop. cbn [s_stop set_pc].
      rewrite <- St. apply (writes_more [c2; 3] s). }
    destruct (emit_op C e v2 F s6 j q i_jmp 76 m_a (s_pc s5)) as (s7 & E7 & H7 & O7 & K7).
    { exact HF. } { apply (h_tab _ _ H6). } { exact S6. }
    { eapply rep_hv; [exact H6|exact R5]. } { rewrite P6. apply K2. reflexivity. }
    { vm_compute; intuition congruence. } { reflexivity. } { reflexivity. }
    { eapply no_gap_obs; [symmetry; exact O6|]. eapply (no_gap_step [c2; 3] s); [|apply G; reflexivity]. exact O5. }
    { exact J6. } { reflexivity. } { lia. }
    unfold bind at 1. rewrite E7. unfold warn_, modify.
    eexists. split; [reflexivity|]. split; [eapply hvp_trans; [exact H6|]; eapply hvp_frame; [exact H7|reflexivity..]|].
    split. { rewrite obs_set_warns, O7, O6. replace (s_warns s7) with (s_warns (obs s5)); [reflexivity|].
      rewrite <- (obs_get_warns s7), O7, O6. symmetry. apply (writes_more _ (obs s5)). }
    cbn [s_nodes set_warns]. split; [apply K7, N6|]. split; [eexists; apply K7, J6|].
    exact (hv_const _ _ _ _ _ H7 Q6). }
  destruct X as (s6 & E6 & H6 & O6 & N6 & (jc & J6) & Q6). unfold bind at 1. rewrite E6. unfold far_rest.
  unfold bind at 1. rewrite (op_info_eq _ _ _ _ _ _ _ J6). unfold bind at 1. rewrite mode_bytes_ok by (vm_compute; intuition congruence).
  change (nbytes m_a) with 2. unfold bind at 1, modify at 1.
  set (s7 := set_pc _ s6). assert (H7 : hv s5 s7) by (apply (hvp_move 3 s5 s6); auto; unfold s7; cbn [s_pc set_pc]; lia).
  unfold bind at 1. rewrite (set_op_eq p _ _ _ _ _ _ s7 N6). unfold ret.
  exists q'. eexists. split; [reflexivity|].
  assert (H8 : hv s7 (set_nodes (upd p {| n_kind := KOp (invert instr) sc m_r (s_pc s); n_ops := [q'] |} (s_nodes s7)) s7)).
  { eapply hv_setop; [apply (h_tab _ _ H7)|exact N6]. }
  split; [exact (hv_trans _ _ _ H15 (hv_trans _ _ _ H7 H8))|].
  split.
  { rewrite obs_set_nodes. unfold s7. rewrite obs_set_pc. rewrite <- Z.add_assoc. change (2 + 1) with 3.
    rewrite <- (obs_get_pc s6), O6, O5.
    assert (Pw : s_pc (if s_final s then writes [c2; 3] (obs s) else obs s) = s_pc s).
    { destruct (s_final s); [rewrite (proj1 (writes_same _ _))|]; apply obs_get_pc. }
    cbv zeta. rewrite Pw. reflexivity. }
  split; [eapply upd_here; exact N6|].
  destruct (s_final s); [|exact Q6]. exact (hv_const _ _ _ _ _ H8 Q6).
Qed.

Theorem x_op_code_far C e v v2 F s p q instr c npc0 : (height e <= F)%nat -> (1 <= F)%nat -> tab s -> s_stop s = false ->
  rep C false s q e -> known C (s_pc s) e v -> (s_final s = true -> known C (s_pc s + 2) e v2) -> unknown_name C e = false -> not_A e ->
  far m_r (s_pc s) v = true ->
  let c2 := get_op_code (s_c02 s) (s_ill s) (invert instr) m_r in
  c2 <> -1 -> (s_final s = true -> no_gap (org s)) ->
  nth_error (s_nodes s) p = Some (mkNode (KOp instr c m_r npc0) [q]) ->
  exists q' s', x_op_code (expand F) p s = Ok 0 s' /\ hv s s' /\ obs s' = step_far c2 v2 (obs s) /\
    nth_error (s_nodes s') p = Some (mkNode (KOp (invert instr) c m_r (s_pc s)) [q']) /\
    (if s_final s then nth_error (s_nodes s') q' = Some (mkNode (KCon (s_pc s + 5) false) []) else q' = q).
Proof.
  intros HF HF1 T St R K K2 U NA Fr c2 Hc G N. unfold x_op_code. unfold bind at 1. rewrite (op_info_eq _ _ _ _ _ _ _ N).
  unfold bind at 1, gets at 1. unfold bind at 1. rewrite when_org.
  destruct (org_same s) as (D1 & D2 & D3 & D4 & D5 & D6 & D7). pose proof (hv_org s T) as H1.
  unfold bind at 1, gets at 1. rewrite D2.
  assert (N1 : nth_error (s_nodes (org s)) p = Some (mkNode (KOp instr c m_r npc0) [q])) by (rewrite D1; exact N).
  unfold bind at 1. rewrite (set_op_eq _ _ _ _ _ _ _ _ N1).
  set (s2 := set_nodes _ (org s)).
  assert (H2 : hv (org s) s2) by (eapply hv_setop; [apply (h_tab _ _ H1)|exact N1]).
  assert (N2 : nth_error (s_nodes s2) p = Some (mkNode (KOp instr c m_r (s_pc s)) [q])) by (eapply upd_here, N1).
  assert (O2 : obs s2 = obs (org s)) by apply obs_set_nodes.
  pose proof (hv_trans _ _ _ H1 H2) as H12. pose proof (rep_hv _ _ _ _ _ _ H12 R) as R2.
  assert (P2 : s_pc s2 = s_pc s) by exact D2. assert (St2 : s_stop s2 = false) by (rewrite <- St; exact D3).
  cbv zeta. change (0 <? op_bytes_of m_r) with true. cbv iota.
  unfold bind at 1. rewrite (has_uninitialized_rep _ _ _ _ _ _ N2 R2). rewrite U. cbn [length op_loop].
  unfold bind at 1. unfold bind at 1. rewrite (op_info_eq _ _ _ _ _ _ _ N2). cbn [nth_error]. unfold bind at 1, ret at 1.
  destruct (eval_known C false e v F s2 q HF (h_tab _ _ H2) St2 R2 ltac:(rewrite P2; exact K)) as (s3 & E3 & H3 & O3 & R3 & P3 & _).
  unfold bind at 1. rewrite E3. pose proof (P3 _ _ _ _ _ _ N2) as N3.
  assert (Q : exists xq, nth_error (s_nodes s3) q = Some xq).
  { destruct (nth_error (s_nodes s3) q) eqn:Z; [eauto|]. apply nth_error_None in Z. apply rep_height in R3. lia. }
  destruct Q as (xq & Nq). unfold bind at 1, node_get at 1. unfold bind at 1, gets at 1. rewrite Nq. unfold ret at 1.
  unfold bind at 1, gets at 1. pose proof (rep_name_char _ _ _ _ _ _ R3 Nq) as Hch. cbv zeta in Hch. rewrite Hch, andb_false_r.
  change (op_bytes_of m_r) with 2. change (2 <? 2) with false. rewrite !andb_false_r.
  change (m_r =? m_r) with true. cbn [andb length Nat.eqb]. unfold far in Fr. change (m_r =? m_r) with true in Fr. cbn [andb] in Fr. rewrite Fr.
  assert (O3' : obs s3 = obs (org s)) by congruence.
  assert (L : s_pc s3 = s_pc s /\ s_stop s3 = false /\ s_c02 s3 = s_c02 s /\ s_ill s3 = s_ill s /\ s_final s3 = s_final s).
  { rewrite <- D2, <- D4, <- D5, <- D6, <- St2. change (s_stop s2) with (s_stop (org s)).
    repeat split; [apply (obs_field s_pc _ _ O3'), obs_get_pc|apply (obs_field s_stop _ _ O3'), obs_get_stop
      |apply (obs_field s_c02 _ _ O3'), obs_get_c02|apply (obs_field s_ill _ _ O3'), obs_get_ill|apply (obs_field s_final _ _ O3'), obs_get_final]. }
  destruct L as (L1 & L2 & L3 & L4 & L5).
  destruct (far_branch_ok C e v v2 F s3 p q instr c c HF HF1 (h_tab _ _ H3) L2 R3) as (q' & s4 & E4 & H4 & O4 & N4 & Q4).
  { rewrite L1; exact K. } { rewrite L1, L5; exact K2. } { exact U. } { exact NA. } { rewrite L3, L4. exact Hc. }
  { intros Fn. rewrite L5 in Fn. eapply no_gap_obs; [symmetry; exact O3'|exact (G Fn)]. } { rewrite L1. exact N3. }
  unfold bind at 1. rewrite E4. unfold ret. exists q', s4. split; [reflexivity|].
  split; [exact (hv_trans _ _ _ H12 (hv_trans _ _ _ H3 H4))|]. rewrite L1 in N4, Q4. rewrite L5 in Q4. rewrite L3, L4, L5, O3', obs_org in O4.
  split; [|auto]. rewrite O4. unfold step_far. obs_simp. reflexivity.
Qed.

(** all branches have an opcode after inversion *)
Lemma invert_branch c02 ill i : get_op_code c02 ill i m_r <> -1 -> get_op_code c02 ill (invert i) m_r <> -1.
Proof.
  assert (A : forallb (fun i => (get_op_code c02 ill i m_r =? -1) || negb (get_op_code c02 ill (invert i) m_r =? -1)) (zseq 0 200) = true).
  { destruct c02, ill; vm_compute; reflexivity. }
  intros H. destruct (Z_le_gt_dec 0 i) as [H0|H0]; [destruct (Z_lt_ge_dec i 200) as [H1|H1]|].
  - rewrite forallb_forall in A. specialize (A i ltac:(apply zseq_in; lia)). apply orb_true_iff in A as [A|A].
    + apply Z.eqb_eq in A. congruence.
    + apply negb_true_iff, Z.eqb_neq in A. exact A.
  - assert (E : invert i = i); [|rewrite E; exact H]. clear A H.
    unfold invert, i_bcs, i_bcc, i_bne, i_beq, i_bmi, i_bpl. repeat match goal with |- context[i =? ?k] => destruct (Z.eqb_spec i k); [lia|] end. reflexivity.
  - assert (E : invert i = i); [|rewrite E; exact H]. clear A H.
    unfold invert, i_bcs, i_bcc, i_bne, i_beq, i_bmi, i_bpl. repeat match goal with |- context[i =? ?k] => destruct (Z.eqb_spec i k); [lia|] end. reflexivity.
Qed.
