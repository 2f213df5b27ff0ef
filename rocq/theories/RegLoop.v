(** The code of register loops (expand.cc:558-678). *)
From Coq Require Import String Lia.
From Verif Require Import Base BaseProofs Hash Dict DictProofs DictMore Str Opcodes Cpu CpuStep OpcodesProofs Err State Sym Machine Build Pass Prog
  GenX Gen Inv SymProofs SymEx Sem ExprProofs ExprMore OpProofs OpMore InstrProofs InstrMore FarTwice DataProofs DataMore FillProofs.
Open Scope string_scope.
Open Scope list_scope.
Open Scope Z_scope.
Open Scope m_scope.
Ltac Zify.zify_post_hook ::= Z.div_mod_to_equations.

(** the final pass, with the file open and an origin known *)
Definition writing (s : state) : bool := s_final s && s_opened s && (s_org_spec s || (0 <? s_pc_assigned s)).

(** [adds l s s']: the bytes [l] have been added to the output, and nothing else has changed that matters here *)
Record adds (l : list Z) (s s' : state) : Prop := {
  a_hv : hv s s';
  a_pc : s_pc s' = s_pc s + Z.of_nat (length l);
  a_out : s_out s' = rev (map byte l) ++ (if (s_total s =? 0) && s_c64 s then [s_origin s / 256 mod 256; s_origin s mod 256] else []) ++ s_out s;
  a_total : s_total s' = s_total s + Z.of_nat (length l) + (if (s_total s =? 0) && s_c64 s then 2 else 0);
  a_writing : writing s' = true;
  a_final : s_final s' = s_final s;
  a_c64 : s_c64 s' = s_c64 s;
  a_origin : s_origin s' = s_origin s;
  a_c02 : s_c02 s' = s_c02 s;
  a_ill : s_ill s' = s_ill s;
  a_stop : s_stop s' = s_stop s;
  a_errs : s_errs s' = s_errs s;
  a_forx : s_forx s' = s_forx s;
  a_fory : s_fory s' = s_fory s }.

Lemma adds_trans l1 l2 s s1 s2 : l1 <> [] -> 0 <= s_total s -> adds l1 s s1 -> adds l2 s1 s2 -> adds (l1 ++ l2) s s2.
Proof.
  intros N T [] [].
  assert (0 < Z.of_nat (length l1)) by (destruct l1; [contradiction|cbn [length]; lia]).
  assert (X : (s_total s1 =? 0) && s_c64 s1 = false). { replace (s_total s1 =? 0) with false; [reflexivity|]. destruct ((s_total s =? 0) && s_c64 s); lia. }
  rewrite X in *. constructor; try congruence.
  - eapply hv_trans; eauto.
  - rewrite app_length. lia.
  - rewrite a_out1, a_out0, map_app, rev_app_distr, <- !app_assoc. reflexivity.
  - rewrite app_length. lia.
Qed.
Lemma adds_nil_r l s s1 : adds l s s1 -> adds (l ++ []) s s1.
Proof. rewrite app_nil_r. auto. Qed.
Lemma adds_hole l s s' : 0 <= s_total s -> adds l s s' -> no_hole s -> no_hole s'.
Proof. intros T [] H. unfold no_hole in *. rewrite a_pc0, a_total0, a_origin0. destruct (_ && _); lia. Qed.
Lemma adds_pos l s s' : 0 <= s_total s -> adds l s s' -> 0 <= s_total s'.
Proof. intros T []. destruct (_ && _); lia. Qed.

(** ** Fields of the state after an instruction *)
Definition same_frame (z z' : state) : Prop :=
  s_final z' = s_final z /\ s_c64 z' = s_c64 z /\ s_origin z' = s_origin z /\ s_c02 z' = s_c02 z /\ s_ill z' = s_ill z /\ s_stop z' = s_stop z /\
  s_errs z' = s_errs z /\ s_forx z' = s_forx z /\ s_fory z' = s_fory z /\ s_opened z' = s_opened z /\
  s_org_spec z' || (0 <? s_pc_assigned z') = s_org_spec z || (0 <? s_pc_assigned z).
Lemma same_trans a b c : same_frame a b -> same_frame b c -> same_frame a c.
Proof. unfold same_frame. intuition congruence. Qed.
Lemma same_org z : same_frame z (org z).
Proof. unfold org. destruct (0 <? s_pc_assigned z) eqn:X; unfold same_frame; cbn [s_final s_c64 s_origin s_c02 s_ill s_stop s_errs s_forx s_fory s_opened s_org_spec s_pc_assigned set_org_spec];
  rewrite ?X, ?orb_true_r; auto 15. Qed.
Lemma same_put l z : same_frame z (put l z).
Proof. unfold put, same_frame. cbn. auto 15. Qed.
Lemma same_header z : same_frame z (header z).
Proof. unfold header. destruct (_ && _); [apply same_put|]. unfold same_frame; auto 15. Qed.
Lemma same_pc v z : same_frame z (set_pc v z). Proof. unfold same_frame; cbn; auto 15. Qed.
Lemma same_warns v z : same_frame z (set_warns v z). Proof. unfold same_frame; cbn; auto 15. Qed.
Lemma same_gen v z : same_frame z (set_code_gen v z). Proof. unfold same_frame; cbn; auto 15. Qed.
Lemma same_writes l z : same_frame z (writes l z).
Proof. unfold writes. destruct (_ && _); [|unfold same_frame; auto 15]. eapply same_trans; [apply same_header|apply same_put]. Qed.
Lemma same_obs s : same_frame (obs s) s.
Proof.
  unfold same_frame. rewrite obs_get_final, obs_get_c64, obs_get_origin, obs_get_c02, obs_get_ill, obs_get_stop, obs_get_errs, obs_get_forx, obs_get_fory, obs_get_opened,
    obs_get_org_spec, obs_get_pc_assigned. auto 15.
Qed.
Lemma same_sym a b : same_frame a b -> same_frame b a.
Proof. unfold same_frame. intuition congruence. Qed.
Lemma same_eq z z' : z = z' -> same_frame z z'.
Proof. intros ->. unfold same_frame; auto 15. Qed.

Lemma org_org z : s_org_spec (org z) = s_org_spec z || (0 <? s_pc_assigned z).
Proof. unfold org. destruct (0 <? s_pc_assigned z); [rewrite orb_true_r|rewrite orb_false_r]; reflexivity. Qed.
Lemma org_keep z : s_opened (org z) = s_opened z /\ s_total (org z) = s_total z /\ s_c64 (org z) = s_c64 z /\ s_origin (org z) = s_origin z /\
  s_out (org z) = s_out z /\ s_pc (org z) = s_pc z.
Proof. unfold org. destruct (0 <? s_pc_assigned z); auto 10. Qed.
Lemma writes_fields l z : s_opened z && s_org_spec z = true ->
  s_out (writes l z) = rev (map byte l) ++ (if (s_total z =? 0) && s_c64 z then [s_origin z / 256 mod 256; s_origin z mod 256] else []) ++ s_out z /\
  s_total (writes l z) = s_total z + Z.of_nat (length l) + (if (s_total z =? 0) && s_c64 z then 2 else 0) /\ s_pc (writes l z) = s_pc z.
Proof.
  intros W. unfold writes. rewrite W, out_put, out_header. split; [reflexivity|].
  split; [|unfold header; destruct ((s_total z =? 0) && s_c64 z); reflexivity].
  transitivity (s_total (header z) + Z.of_nat (length l)); [reflexivity|]. unfold header. destruct ((s_total z =? 0) && s_c64 z).
  - transitivity (s_total z + 2 + Z.of_nat (length l)); [reflexivity|lia].
  - lia.
Qed.
Lemma writing_parts s : writing s = true -> s_final s = true /\ s_opened s = true /\ s_org_spec s || (0 <? s_pc_assigned s) = true.
Proof. unfold writing. intros H. apply andb_prop in H as [H H3]. apply andb_prop in H as [H1 H2]. auto. Qed.
Lemma pc_set_gen v z : s_pc (set_code_gen v z) = s_pc z. Proof. reflexivity. Qed.
Lemma out_set_gen v z : s_out (set_code_gen v z) = s_out z. Proof. reflexivity. Qed.
Lemma total_set_gen v z : s_total (set_code_gen v z) = s_total z. Proof. reflexivity. Qed.
Lemma pc_set_warns v z : s_pc (set_warns v z) = s_pc z. Proof. reflexivity. Qed.
Lemma out_set_warns v z : s_out (set_warns v z) = s_out z. Proof. reflexivity. Qed.
Lemma total_set_warns v z : s_total (set_warns v z) = s_total z. Proof. reflexivity. Qed.

Lemma adds_of l s s' z : hv s s' -> writing s = true -> obs s' = z -> same_frame (obs s) z -> s_pc z = s_pc s + Z.of_nat (length l) ->
  s_out z = rev (map byte l) ++ (if (s_total s =? 0) && s_c64 s then [s_origin s / 256 mod 256; s_origin s mod 256] else []) ++ s_out s ->
  s_total z = s_total s + Z.of_nat (length l) + (if (s_total s =? 0) && s_c64 s then 2 else 0) -> adds l s s'.
Proof.
  intros H W O F P U T. subst z. rewrite obs_get_pc, obs_get_out, obs_get_total in *.
  assert (X : same_frame s s') by (eapply same_trans; [apply same_sym, same_obs|]; eapply same_trans; [exact F|apply same_obs]).
  destruct X as (X1 & X2 & X3 & X4 & X5 & X6 & X7 & X8 & X9 & X10 & X11). constructor; auto.
  unfold writing in *. rewrite X1, X10, X11. exact W.
Qed.
Lemma adds_step l s s' : hv s s' -> writing s = true -> obs s' = step_op l false (obs s) -> adds l s s'.
Proof.
  intros H W O. destruct (writing_parts _ W) as (W1 & W2 & W3). unfold step_op in O. rewrite obs_get_final, W1 in O. cbv zeta in O.
  rewrite <- (obs_get_opened s) in W2. rewrite <- (obs_get_org_spec s), <- (obs_get_pc_assigned s) in W3.
  refine (adds_of l s s' _ H W O _ _ _ _).
  - eapply same_trans; [apply same_org|]. eapply same_trans; [apply same_writes|]. eapply same_trans; [apply same_pc|apply same_gen].
  - rewrite pc_set_gen, pc_pc. destruct (org_keep (obs s)) as (K1 & K2 & K3 & K4 & K5 & K6).
    destruct (writes_fields l (org (obs s))) as (F1 & F2 & F3); [rewrite K1, org_org, W2, W3; reflexivity|]. rewrite F3, K6, obs_get_pc. reflexivity.
  - rewrite out_set_gen, pc_out. destruct (org_keep (obs s)) as (K1 & K2 & K3 & K4 & K5 & K6).
    destruct (writes_fields l (org (obs s))) as (F1 & F2 & F3); [rewrite K1, org_org, W2, W3; reflexivity|].
    rewrite F1, K2, K3, K4, K5, obs_get_total, obs_get_c64, obs_get_origin, obs_get_out. reflexivity.
  - rewrite total_set_gen, pc_total. destruct (org_keep (obs s)) as (K1 & K2 & K3 & K4 & K5 & K6).
    destruct (writes_fields l (org (obs s))) as (F1 & F2 & F3); [rewrite K1, org_org, W2, W3; reflexivity|].
    rewrite F2, K2, K3, obs_get_total, obs_get_c64. reflexivity.
Qed.
Lemma adds_far c2 v2 s s' : hv s s' -> writing s = true -> 0 <= s_total s -> obs s' = step_far c2 v2 (obs s) -> adds [c2; 3; 76; v2; v2 / 256] s s'.
Proof.
  intros H W T O. destruct (writing_parts _ W) as (W1 & W2 & W3). unfold step_far in O. rewrite obs_get_final, W1 in O. cbv zeta in O.
  rewrite <- (obs_get_opened s) in W2. rewrite <- (obs_get_org_spec s), <- (obs_get_pc_assigned s) in W3. rewrite <- (obs_get_total s) in T.
  assert (X : exists za zb, obs s' = set_pc (s_pc zb + 3) zb /\ same_frame (org (obs s)) za /\ same_frame za zb /\ s_pc za = s_pc (obs s) + 2 /\ s_pc zb = s_pc za /\ s_out za = rev (map byte [c2; 3]) ++ (if (s_total (obs s) =? 0) && s_c64 (obs s) then [s_origin (obs s) / 256 mod 256; s_origin (obs s) mod 256] else []) ++ s_out (obs s) /\ s_total za = s_total (obs s) + 2 + (if (s_total (obs s) =? 0) && s_c64 (obs s) then 2 else 0) /\ s_out zb = rev (map byte [76; v2; v2 / 256]) ++ s_out za /\ s_total zb = s_total za + 3).
  { revert O W2 W3 T. clear. generalize (obs s). intros z O W2 W3 T. destruct (org_keep z) as (K1 & K2 & K3 & K4 & K5 & K6).
    pose proof (org_org z) as K7. pose proof (same_org z) as K8.
    revert O K1 K2 K3 K4 K5 K6 K7 K8. generalize (org z). intros y O K1 K2 K3 K4 K5 K6 K7 K8.
    assert (Wy : s_opened y && s_org_spec y = true) by (rewrite K1, K7, W2, W3; reflexivity).
    destruct (writes_fields [c2; 3] y Wy) as (F1 & F2 & F3). pose proof (same_writes [c2; 3] y) as F4.
    assert (F5 : s_opened (writes [c2; 3] y) && s_org_spec (writes [c2; 3] y) = true).
    { unfold writes. rewrite Wy. unfold header. destruct ((s_total y =? 0) && s_c64 y); exact (eq_sym Wy) || exact Wy || reflexivity. }
    revert O F1 F2 F3 F4 F5. generalize (writes [c2; 3] y). intros x O F1 F2 F3 F4 F5.
    assert (V1 : s_opened (set_pc (s_pc x + 2) x) && s_org_spec (set_pc (s_pc x + 2) x) = true) by exact F5.
    pose proof (same_pc (s_pc x + 2) x) as V2. pose proof (pc_total (s_pc x + 2) x) as V3. pose proof (pc_out (s_pc x + 2) x) as V4.
    pose proof (pc_pc (s_pc x + 2) x) as V5.
    revert O V1 V2 V3 V4 V5. generalize (set_pc (s_pc x + 2) x). intros w O V1 V2 V3 V4 V5.
    exists w. eexists. split; [exact O|].
    destruct (writes_fields [76; v2; v2 / 256] w V1) as (G1 & G2 & G3). pose proof (same_writes [76; v2; v2 / 256] w) as G4.
    rewrite pc_set_warns, out_set_warns, total_set_warns.
    split; [eapply same_trans; eauto|]. split; [eapply same_trans; [exact G4|apply same_warns]|].
    change (Z.of_nat (length [c2; 3])) with 2 in F2. change (Z.of_nat (length [76; v2; v2 / 256])) with 3 in G2.
    assert (L : (s_total w =? 0) && s_c64 w = false). { replace (s_total w =? 0) with false; [reflexivity|]. destruct ((s_total y =? 0) && s_c64 y); lia. }
    rewrite L in G1, G2. rewrite K2, K3, K4, K5 in F1. rewrite K2, K3 in F2.
    rewrite G3. split; [lia|]. split; [reflexivity|]. split; [rewrite V4; exact F1|]. split; [lia|]. split; [exact G1|lia]. }
  destruct X as (za & zb & X1 & X2 & X3 & X4 & X5 & X6 & X7 & X8 & X9).
  rewrite obs_get_pc in X4. rewrite obs_get_total, obs_get_c64, obs_get_origin, obs_get_out in X6. rewrite obs_get_total, obs_get_c64 in X7.
  refine (adds_of _ s s' _ H W X1 _ _ _ _).
  - eapply same_trans; [apply same_org|]. eapply same_trans; [exact X2|]. eapply same_trans; [exact X3|apply same_pc].
  - rewrite pc_pc. cbn [length]. lia.
  - rewrite pc_out, X8, X6. cbn [map rev app]. reflexivity.
  - rewrite pc_total, X9, X7. cbn [length]. lia.
Qed.


(** ** The instructions of the loop *)
Lemma bind_ok {A B} (m : M A) (k : A -> M B) s r s' : bind m k s = Ok r s' -> exists a s1, m s = Ok a s1 /\ k a s1 = Ok r s'.
Proof. unfold bind. destruct (m s); try discriminate. eauto. Qed.
Lemma opcode_node_fresh ex op m ops s p s' : opcode_node ex op m ops s = Ok p s' -> p = length (s_nodes s).
Proof.
  unfold opcode_node. unfold bind at 1, op_code at 1, gets at 1. unfold bind at 1. rewrite alloc_eq. intros H.
  do 7 (apply bind_ok in H as (? & ? & _ & H)). apply bind_ok in H as (? & ? & _ & H). unfold ret in H. congruence.
Qed.
Lemma build_at C e v F s q instr m0 m c : (height e <= F)%nat -> tab s -> s_stop s = false -> rep C false s q e -> known C (s_pc s) e v -> not_A e ->
  build_mode (get_op_code (s_c02 s) (s_ill s) instr) m0 v (unknown_name C e) = (m, c) -> 0 <= c ->
  exists p s', opcode_node (expand F) instr m0 [q] s = Ok p s' /\ hv s s' /\ obs s' = obs s /\ rep C false s' q e /\
    nth_error (s_nodes s') p = Some (mkNode (KOp instr c m 0) [q]) /\ ops_kept s s' /\ p = length (s_nodes s).
Proof.
  intros HF T St R K NA B Hc. pose proof (opcode_node_ok C false e v F s q instr m0 HF T St R K NA) as X. rewrite B in X.
  destruct X as (p & s' & X1 & X2 & X3 & X4 & X5 & X6). exists p, s'. replace (c <? 0) with false in X3 by lia.
  pose proof (opcode_node_fresh _ _ _ _ _ _ _ X1). auto 10.
Qed.

(** a constant operand *)
Definition con (C : cstr -> core_t) (v : Z) : known C 0 (EInt v) v := conj eq_refl eq_refl.
Lemma con_known C pc v : known C pc (EInt v) v. Proof. split; reflexivity. Qed.

Definition op1 (instr m v : Z) (ex : nat -> M Z) : M Z := k <- constant_node v ;; p <- opcode_node ex instr m [k] ;; ex p.
Definition op0 (instr : Z) (ex : nat -> M Z) : M Z := p <- opcode_node ex instr m_i [] ;; ex p.

Lemma hv_hole_of s s' : obs s' = obs s -> no_hole s -> no_hole s'.
Proof. intros O H. unfold no_hole in *. rewrite (obs_pc _ _ O), (obs_field s_origin _ _ O obs_get_origin), (obs_field s_total _ _ O obs_get_total). exact H. Qed.
Lemma adds_obs l s s1 s' : hv s s1 -> obs s1 = obs s -> adds l s1 s' -> adds l s s'.
Proof.
  intros H O []. pose proof (obs_pc _ _ O) as P1. pose proof (obs_field s_origin _ _ O obs_get_origin) as P2. pose proof (obs_field s_total _ _ O obs_get_total) as P3.
  pose proof (obs_field s_c64 _ _ O obs_get_c64) as P4. pose proof (obs_field s_out _ _ O obs_get_out) as P5. pose proof (obs_field s_final _ _ O obs_get_final) as P6.
  pose proof (obs_field s_c02 _ _ O obs_get_c02) as P7. pose proof (obs_field s_ill _ _ O obs_get_ill) as P8. pose proof (obs_field s_stop _ _ O obs_get_stop) as P9.
  pose proof (obs_field s_errs _ _ O obs_get_errs) as P10. pose proof (obs_field s_forx _ _ O obs_get_forx) as P11. pose proof (obs_field s_fory _ _ O obs_get_fory) as P12.
  rewrite P3, P4, P2, P5 in a_out0. rewrite P3, P4 in a_total0. constructor; try congruence. eapply hv_trans; eauto.
Qed.


Lemma alloc_con v s : tab s -> exists k s', constant_node v s = Ok k s' /\ hv s s' /\ obs s' = obs s /\ nth_error (s_nodes s') k = Some (mkNode (KCon v false) []) /\
  ops_kept s s' /\ (length (s_nodes s) <= length (s_nodes s'))%nat.
Proof.
  intros T. unfold constant_node. rewrite alloc_eq. eexists _, _. split; [reflexivity|]. split; [apply hv_alloc; [reflexivity|exact T]|].
  split; [reflexivity|]. split; [apply alloc_nth|]. split; [apply ops_kept_alloc|]. cbn [s_nodes set_nodes]. rewrite app_length. lia.
Qed.

(** opcode bytes *)
Definition opbyte (i m : Z) (b : Z) : Prop := forall c02 ill, get_op_code c02 ill i m = b.
Ltac opb := intros [|] [|]; vm_compute; reflexivity.
Definition imm_of (i : Z) : Z := if i =? i_ldx then 162 else if i =? i_ldy then 160 else if i =? i_cpx then 224 else 192.
Lemma imm_byte i : In i [i_ldx; i_ldy; i_cpx; i_cpy] -> opbyte i m_I (imm_of i) /\ opbyte i m_r (-1).
Proof. intros [<-|[<-|[<-|[<-|[]]]]]; split; opb. Qed.
Definition imp_of (i : Z) : Z := if i =? i_inx then 232 else if i =? i_iny then 200 else if i =? i_dex then 202 else 136.
Lemma imp_byte i : In i [i_inx; i_iny; i_dex; i_dey] -> opbyte i m_i (imp_of i) /\ opbyte i m_r (-1).
Proof. intros [<-|[<-|[<-|[<-|[]]]]]; split; opb. Qed.
Definition rel_of (i : Z) : Z := if i =? i_bcc then 144 else if i =? i_bcs then 176 else 208.
Definition not_of (i : Z) : Z := if i =? i_bcc then 176 else if i =? i_bcs then 144 else 240.
Lemma rel_byte i : In i [i_bcc; i_bcs; i_bne] -> opbyte i m_r (rel_of i) /\ opbyte (invert i) m_r (not_of i).
Proof. intros [<-|[<-|[<-|[]]]]; split; opb. Qed.
Lemma imm_mode i c02 ill v hu : In i [i_ldx; i_ldy; i_cpx; i_cpy] -> build_mode (get_op_code c02 ill i) m_I v hu = (m_I, imm_of i).
Proof. intros I. unfold build_mode. destruct I as [<-|[<-|[<-|[<-|[]]]]]; destruct c02, ill, (over v 255), hu; vm_compute; reflexivity. Qed.
Lemma rel_mode i c02 ill v hu : In i [i_bcc; i_bcs; i_bne] -> build_mode (get_op_code c02 ill i) m_r v hu = (m_r, rel_of i).
Proof. intros I. unfold build_mode. destruct I as [<-|[<-|[<-|[]]]]; destruct c02, ill, (over v 255), hu; vm_compute; reflexivity. Qed.

Lemma writing_obs s s' : obs s' = obs s -> writing s = true -> writing s' = true.
Proof.
  intros O. unfold writing. rewrite (obs_field s_final _ _ O obs_get_final), (obs_field s_opened _ _ O obs_get_opened),
    (obs_field s_org_spec _ _ O obs_get_org_spec), (obs_field s_pc_assigned _ _ O obs_get_pc_assigned). auto.
Qed.

Lemma op1_built instr m v F s c : (1 <= F)%nat -> tab s -> s_stop s = false ->
  (forall c02 ill hu, build_mode (get_op_code c02 ill instr) m v hu = (m, c)) -> 0 <= c ->
  exists k p s', op1 instr m v (expand F) s = expand F p s' /\ hv s s' /\ obs s' = obs s /\ rep (meaning s) false s' k (EInt v) /\
    nth_error (s_nodes s') p = Some (mkNode (KOp instr c m 0) [k]) /\ ops_kept s s' /\ (length (s_nodes s) <= p)%nat.
Proof.
  intros HF T St B Hc. unfold op1. destruct (alloc_con v s T) as (k & s1 & E1 & H1 & O1 & N1 & Q1 & L1). unfold bind at 1. rewrite E1.
  destruct (build_at (meaning s) (EInt v) v F s1 k instr m m c) as (p & s2 & E2 & H2 & O2 & R2 & N2 & Q2 & L2); auto.
  - apply (h_tab _ _ H1).
  - rewrite (obs_stop _ _ O1). exact St.
  - constructor; exact N1.
  - apply con_known.
  - exact I.
  - exists k, p, s2. unfold bind. rewrite E2. split; [reflexivity|]. split; [eapply hv_trans; eauto|]. split; [congruence|]. split; [exact R2|]. split; [exact N2|]. split; [eapply ops_kept_trans; eauto|lia].
Qed.

Lemma imm_bytes instr v F s : In instr [i_ldx; i_ldy; i_cpx; i_cpy] -> 0 <= v <= 255 -> tab s -> s_stop s = false -> writing s = true -> no_hole s ->
  exists s', op1 instr m_I v (expand (S (S F))) s = Ok 0 s' /\ adds [imm_of instr; v] s s' /\ ops_kept s s'.
Proof.
  intros I V T St W NH. destruct (imm_byte _ I) as (B1 & B2).
  assert (Hc : 0 <= imm_of instr) by (destruct I as [<-|[<-|[<-|[<-|[]]]]]; vm_compute; congruence).
  destruct (op1_built instr m_I v (S (S F)) s (imm_of instr)) as (k & p & s1 & E1 & H1 & O1 & R1 & N1 & Q1 & L1); auto; [lia|intros; apply imm_mode, I|].
  assert (St1 : s_stop s1 = false) by (rewrite (obs_stop _ _ O1); exact St).
  pose proof (x_op_code_ok (meaning s) (EInt v) v (S F) s1 p k instr (imm_of instr) m_I 0) as X. cbv zeta in X. rewrite (B1 (s_c02 s1) (s_ill s1)) in X.
  assert (A : adjust (get_op_code (s_c02 s1) (s_ill s1) instr) m_I v = (m_I, false)).
  { unfold adjust. change (nbytes m_I =? 0) with false. change (m_I =? m_r) with false. change (nbytes m_I =? 1) with true. cbv iota.
    rewrite over_8. replace ((0 <=? v) && (v <=? 255)) with true by lia. reflexivity. }
  rewrite A in X. cbn [fst snd] in X. rewrite (B1 (s_c02 s1) (s_ill s1)) in X.
  destruct X as (s2 & E2 & H2 & O2 & N2 & U2); auto.
  - cbn [height]. lia.
  - apply (h_tab _ _ H1).
  - apply con_known.
  - split; [discriminate|reflexivity].
  - discriminate.
  - intros _. apply no_hole_gap, (hv_hole_of s s1 O1 NH).
  - exists s2. rewrite E1, (expand_op _ _ _ _ _ _ _ _ St1 N1). split; [exact E2|].
    split; [apply (adds_obs _ s s1); auto; apply adds_step; auto; apply (writing_obs s s1 O1 W)|].
    intros q i o m c l Nq. apply U2; [|apply Q1, Nq]. assert (q < length (s_nodes s))%nat by (apply nth_error_Some; congruence). lia.
Qed.

Lemma imp_bytes instr F s : In instr [i_inx; i_iny; i_dex; i_dey] -> tab s -> s_stop s = false -> writing s = true -> no_hole s ->
  exists s', op0 instr (expand (S F)) s = Ok 0 s' /\ adds [imp_of instr] s s'.
Proof.
  intros I T St W NH. destruct (imp_byte _ I) as (B1 & B2).
  assert (Hc : 0 <= imp_of instr) by (destruct I as [<-|[<-|[<-|[<-|[]]]]]; vm_compute; congruence).
  destruct (opcode_node_implied instr s (expand (S F)) T (B2 _ _)) as (p & s1 & E1 & H1 & O1 & N1).
  rewrite (B1 (s_c02 s) (s_ill s)) in *. replace (imp_of instr <? 0) with false in O1 by lia.
  assert (St1 : s_stop s1 = false) by (rewrite (obs_stop _ _ O1); exact St).
  destruct (x_op_code0 F s1 p instr (imp_of instr) m_i 0) as (s2 & E2 & H2 & O2 & N2); auto.
  - apply (h_tab _ _ H1).
  - split; [discriminate|reflexivity].
  - intros _. apply no_hole_gap, (hv_hole_of s s1 O1 NH).
  - intros _. destruct I as [<-|[<-|[<-|[<-|[]]]]]; vm_compute; intuition congruence.
  - exists s2. unfold op0, bind. rewrite E1, (expand_op _ _ _ _ _ _ _ _ St1 N1). split; [exact E2|].
    apply (adds_obs _ s s1); auto. apply adds_step; auto. apply (writing_obs s s1 O1 W).
Qed.

(** a branch to [v] from [pc] *)
Definition branch_back (instr pc v : Z) : list Z :=
  if (128 <? v - (pc + 2)) || (v - (pc + 2) <? -127) then [not_of instr; 3; 76; v; v / 256] else [rel_of instr; Z.land (v - (pc + 2)) 255].
Lemma rel_bytes instr v F s : In instr [i_bcc; i_bcs; i_bne] -> tab s -> s_stop s = false -> writing s = true -> no_hole s -> 0 <= s_total s ->
  exists s', op1 instr m_r v (expand (S (S F))) s = Ok 0 s' /\ adds (branch_back instr (s_pc s) v) s s'.
Proof.
  intros I T St W NH Tt. destruct (rel_byte _ I) as (B1 & B2).
  assert (Hc : 0 <= rel_of instr) by (destruct I as [<-|[<-|[<-|[]]]]; vm_compute; congruence).
  assert (Hn : not_of instr <> -1) by (destruct I as [<-|[<-|[<-|[]]]]; vm_compute; congruence).
  destruct (op1_built instr m_r v (S (S F)) s (rel_of instr)) as (k & p & s1 & E1 & H1 & O1 & R1 & N1 & _); auto; [lia|intros; apply rel_mode, I|].
  assert (St1 : s_stop s1 = false) by (rewrite (obs_stop _ _ O1); exact St).
  assert (G1 : s_final s1 = true -> no_gap (org s1)) by (intros _; apply no_hole_gap, (hv_hole_of s s1 O1 NH)).
  unfold branch_back. rewrite <- (obs_pc _ _ O1).
  assert (X : forall b, far m_r (s_pc s1) v = b -> (128 <? v - (s_pc s1 + 2)) || (v - (s_pc s1 + 2) <? -127) = b) by (intros b <-; reflexivity).
  destruct (far m_r (s_pc s1) v) eqn:Fr; rewrite (X _ eq_refl).
  - destruct (x_op_code_far (meaning s) (EInt v) v v (S F) s1 p k instr (rel_of instr) 0) as (q' & s2 & E2 & H2 & O2 & N2 & _); auto.
    + cbn [height]. lia.
    + lia.
    + apply (h_tab _ _ H1).
    + apply con_known.
    + intros _. apply con_known.
    + exact Logic.I.
    + rewrite (B2 (s_c02 s1) (s_ill s1)). exact Hn.
    + rewrite (B2 (s_c02 s1) (s_ill s1)) in O2. exists s2. rewrite E1, (expand_op _ _ _ _ _ _ _ _ St1 N1). split; [exact E2|].
      apply (adds_obs _ s s1); auto. apply adds_far; auto; [apply (writing_obs s s1 O1 W)|].
      rewrite (obs_field s_total _ _ O1 obs_get_total). exact Tt.
  - pose proof (x_op_code_ok (meaning s) (EInt v) v (S F) s1 p k instr (rel_of instr) m_r 0) as Y. cbv zeta in Y. rewrite (B1 (s_c02 s1) (s_ill s1)) in Y.
    assert (A : adjust (get_op_code (s_c02 s1) (s_ill s1) instr) m_r v = (m_r, false)) by reflexivity.
    rewrite A in Y. cbn [fst snd] in Y. rewrite (B1 (s_c02 s1) (s_ill s1)) in Y.
    destruct Y as (s2 & E2 & H2 & O2 & N2 & _); auto.
    + cbn [height]. lia.
    + apply (h_tab _ _ H1).
    + apply con_known.
    + split; [discriminate|reflexivity].
    + discriminate.
    + exists s2. rewrite E1, (expand_op _ _ _ _ _ _ _ _ St1 N1). split; [exact E2|].
      apply (adds_obs _ s s1); auto. apply adds_step; auto. apply (writing_obs s s1 O1 W).
Qed.

(** ** The loop *)
Lemma op1_then ex instr m v (K : Z -> M Z) s u s' : op1 instr m v ex s = Ok u s' ->
  (k <- constant_node v ;; c <- opcode_node ex instr m [k] ;; w <- ex c ;; K w) s = K u s'.
Proof.
  unfold op1, bind. destruct (constant_node v s) as [k s1| | |]; try discriminate. destruct (opcode_node ex instr m [k] s1) as [c s2| | |]; try discriminate.
  intros ->. reflexivity.
Qed.
Lemma op1_unit ex instr m v s u s' : op1 instr m v ex s = Ok u s' ->
  (k <- constant_node v ;; c <- opcode_node ex instr m [k] ;; _ <- ex c ;; ret tt) s = Ok tt s'.
Proof.
  unfold op1, bind. destruct (constant_node v s) as [k s1| | |]; try discriminate. destruct (opcode_node ex instr m [k] s1) as [c s2| | |]; try discriminate.
  intros ->. reflexivity.
Qed.
Lemma op0_then ex instr (K : Z -> M Z) s u s' : op0 instr ex s = Ok u s' -> (c <- opcode_node ex instr m_i [] ;; w <- ex c ;; K w) s = K u s'.
Proof. unfold op0, bind. destruct (opcode_node ex instr m_i [] s) as [c s2| | |]; try discriminate. intros ->. reflexivity. Qed.

(** the code of a loop over X (or Y) from [a] to [b], upwards or downwards, with the body [bd], the first instruction at [pc] *)
Definition reg_code (isx up : bool) (a b pc : Z) (bd : list Z) : list Z :=
  let first := [imm_of (if isx then i_ldx else i_ldy); a] in
  let next := [imp_of (if up then if isx then i_inx else i_iny else if isx then i_dex else i_dey)] in
  let test := if b =? 0 then [] else [imm_of (if isx then i_cpx else i_cpy); if up && (b <? 255) then b + 1 else b] in
  let br := if up then if b <? 255 then i_bcc else i_bne else i_bcs in
  let code := first ++ bd in
  if a =? b then code
  else let code2 := code ++ next ++ test in code2 ++ branch_back br (pc + Z.of_nat (length code2)) (pc + 2).

Definition counter (isx : bool) : state -> Z := if isx then s_forx else s_fory.
Definition set_counter (isx : bool) : Z -> state -> state := if isx then set_forx else set_fory.

Lemma adds_counter isx v l s s' : tab s -> adds l (set_counter isx (counter isx s + 1) s) s' -> v = counter isx s -> adds l s (set_counter isx v s').
Proof.
  intros T [] ->.
  assert (H0 : hv s (set_counter isx (counter isx s + 1) s)) by (destruct isx; apply hv_frame; auto).
  assert (H1 : hv s' (set_counter isx (counter isx s) s')) by (destruct isx; apply hv_frame; auto; apply (h_tab _ _ a_hv0)).
  destruct isx; cbn [set_counter counter s_pc s_out s_total s_c64 s_origin s_final s_c02 s_ill s_stop s_errs s_forx s_fory set_forx set_fory] in *;
    (constructor; auto; eapply hv_trans; [exact H0|]; eapply hv_trans; [exact a_hv0|exact H1]).
Qed.

(** what is asked of the body *)
Definition body_emits (F : nat) (isx : bool) (n : nat) (bd : list Z) (s : state) : Prop :=
  forall s1, hv s s1 -> ops_kept s s1 -> s_stop s1 = false -> writing s1 = true -> no_hole s1 -> 0 <= s_total s1 -> counter isx s1 = 1 -> s_pc s1 = s_pc s + 2 ->
    exists u s2, expand F n s1 = Ok u s2 /\ adds bd s1 s2.

Lemma adds_keeps l s s' : adds l s s' -> 0 <= s_total s -> s_stop s = false -> writing s = true -> no_hole s ->
  s_stop s' = false /\ writing s' = true /\ no_hole s' /\ 0 <= s_total s' /\ tab s'.
Proof.
  intros A T St W NH. split; [rewrite (a_stop _ _ _ A); exact St|]. split; [apply (a_writing _ _ _ A)|].
  split; [eapply adds_hole; eauto|]. split; [eapply adds_pos; eauto|apply (h_tab _ _ (a_hv _ _ _ A))].
Qed.

(** from the [ld] on, in a state where the counter has been raised *)
Lemma reg_tail F isx up a b n2 bd s : (0 <= a <= 255) -> (0 <= b <= 255) -> tab s -> s_stop s = false -> writing s = true -> no_hole s -> 0 <= s_total s ->
  counter isx s = 1 -> body_emits (S (S F)) isx n2 bd s ->
  forall (fin : M Z), exists s2, adds (reg_code isx up a b (s_pc s) bd) s s2 /\
  (k0 <- constant_node a ;; init <- opcode_node (expand (S (S F))) (if isx then i_ldx else i_ldy) m_I [k0] ;; _ <- expand (S (S F)) init ;;
   loop_pc <- gets s_pc ;; _ <- expand (S (S F)) n2 ;;
   if a =? b then fin
   else
     nx <- opcode_node (expand (S (S F))) (if up then (if isx then i_inx else i_iny) else (if isx then i_dex else i_dey)) m_i [] ;;
     _ <- expand (S (S F)) nx ;;
     (if b =? 0 then ret tt
      else k <- constant_node (if up && (b <? 255) then b + 1 else b) ;; c <- opcode_node (expand (S (S F))) (if isx then i_cpx else i_cpy) m_I [k] ;;
           _ <- expand (S (S F)) c ;; ret tt) ;;;
     (k <- constant_node loop_pc ;; c <- opcode_node (expand (S (S F))) (if up then if b <? 255 then i_bcc else i_bne else i_bcs) m_r [k] ;;
      _ <- expand (S (S F)) c ;; ret tt) ;;;
     fin) s = fin s2.
Proof.
  intros Ha Hb T St W NH Tt Ct B fin.
  destruct (imm_bytes (if isx then i_ldx else i_ldy) a F s) as (s1 & E1 & A1 & Q1); auto; [destruct isx; cbn; auto|].
  destruct (adds_keeps _ _ _ A1 Tt St W NH) as (St1 & W1 & NH1 & Tt1 & T1).
  assert (P1 : s_pc s1 = s_pc s + 2) by (rewrite (a_pc _ _ _ A1); reflexivity).
  assert (C1 : counter isx s1 = 1) by (rewrite <- Ct; destruct isx; [apply (a_forx _ _ _ A1)|apply (a_fory _ _ _ A1)]).
  destruct (B s1 (a_hv _ _ _ A1) Q1 St1 W1 NH1 Tt1 C1 P1) as (u2 & s2 & E2 & A2).
  destruct (adds_keeps _ _ _ A2 Tt1 St1 W1 NH1) as (St2 & W2 & NH2 & Tt2 & T2).
  pose proof (fun N => adds_trans _ _ _ _ _ N Tt A1 A2) as A12. specialize (A12 ltac:(discriminate)).
  rewrite (op1_then _ _ _ _ _ _ _ _ E1). unfold bind at 1, gets. unfold bind at 1. rewrite E2. unfold reg_code. cbv zeta.
  destruct (a =? b). { exists s2. split; [exact A12|reflexivity]. }
  destruct (imp_bytes (if up then if isx then i_inx else i_iny else if isx then i_dex else i_dey) (S F) s2) as (s3 & E3 & A3); auto;
    [destruct up, isx; cbn; auto|].
  destruct (adds_keeps _ _ _ A3 Tt2 St2 W2 NH2) as (St3 & W3 & NH3 & Tt3 & T3).
  rewrite (op0_then _ _ _ _ _ _ E3).
  assert (X : exists s4, (if b =? 0 then ret tt
      else k <- constant_node (if up && (b <? 255) then b + 1 else b) ;; c <- opcode_node (expand (S (S F))) (if isx then i_cpx else i_cpy) m_I [k] ;;
           _ <- expand (S (S F)) c ;; ret tt) s3 = Ok tt s4 /\
      adds ([imp_of (if up then if isx then i_inx else i_iny else if isx then i_dex else i_dey)] ++
        (if b =? 0 then [] else [imm_of (if isx then i_cpx else i_cpy); if up && (b <? 255) then b + 1 else b])) s2 s4).
  { destruct (b =? 0). { exists s3. split; [reflexivity|]. apply adds_nil_r, A3. }
    destruct (imm_bytes (if isx then i_cpx else i_cpy) (if up && (b <? 255) then b + 1 else b) F s3) as (s4 & E4 & A4 & _); auto.
    - destruct isx; cbn; auto.
    - destruct (b <? 255) eqn:?, up; cbn [andb]; lia.
    - exists s4. split; [apply (op1_unit _ _ _ _ _ _ _ E4)|]. eapply adds_trans; eauto. discriminate. }
  destruct X as (s4 & E4 & A4). unfold bind at 1. rewrite E4.
  destruct (adds_keeps _ _ _ A4 Tt2 St2 W2 NH2) as (St4 & W4 & NH4 & Tt4 & T4).
  pose proof (fun N => adds_trans _ _ _ _ _ N Tt A12 A4) as A14. specialize (A14 ltac:(discriminate)).
  destruct (rel_bytes (if up then if b <? 255 then i_bcc else i_bne else i_bcs) (s_pc s1) F s4) as (s5 & E5 & A5); auto;
    [destruct up, (b <? 255); cbn; auto|].
  exists s5. split; [|unfold bind at 1; rewrite (op1_unit _ _ _ _ _ _ _ E5); reflexivity].
  rewrite (a_pc _ _ _ A14), P1 in A5. eapply adds_trans; [|exact Tt|exact A14|exact A5]. discriminate.
Qed.

Lemma counter_obs isx s s' : obs s' = obs s -> counter isx s' = counter isx s.
Proof. intros O. destruct isx; [apply (obs_field s_forx _ _ O obs_get_forx)|apply (obs_field s_fory _ _ O obs_get_fory)]. Qed.
Lemma counter_set isx v s : counter isx (set_counter isx v s) = v. Proof. destruct isx; reflexivity. Qed.
Lemma finish_ok isx s : counter isx s = 1 ->
  (modify (fun s => set_counter isx (counter isx s - 1) s) ;;; c2 <- gets (counter isx) ;; when (negb (c2 =? 0)) (err error_value_out_of_range) ;;; ret 0) s =
  Ok 0 (set_counter isx 0 s).
Proof. intros C. unfold bind, modify, gets. rewrite C, counter_set. reflexivity. Qed.

Lemma reg_node_eq (ex : nat -> M Z) (isx : bool) n0 n1 n2 n3 p F s :
  nth_error (s_nodes s) p = Some (mkNode (KOpr (if isx then ORegX else ORegY)) [n0; n1; n2; n3]) -> s_stop s = false -> ex = expand F ->
  expand (S F) p s = x_for_reg ex (mkNode (KOpr (if isx then ORegX else ORegY)) [n0; n1; n2; n3]) isx s.
Proof. intros N St ->. rewrite (expand_eq _ _ _ _ St N). destruct isx; reflexivity. Qed.

Lemma x_for_reg_eq (ex : nat -> M Z) (isx : bool) n0 n1 n2 n3 k s : 
  x_for_reg ex (mkNode k [n0; n1; n2; n3]) isx s =
  (cnt <- gets (counter isx) ;;
   if 0 <? cnt then err error_for_reg_cant_be_nested ;;; ret 0
   else start <- ex n0 ;;
    if (start <? 0) || (255 <? start) then err error_value_out_of_range ;;; ret 0
    else end_ <- ex n1 ;;
      if (end_ <? 0) || (255 <? end_) then err error_value_out_of_range ;;; ret 0
      else flag <- ex n3 ;;
        if ((0 <? flag) && (end_ <? start)) || ((flag <? 0) && (start <? end_)) then ret 0
        else
          modify (fun s => set_counter isx (counter isx s + 1) s) ;;;
          c1 <- gets (counter isx) ;;
          when (negb (c1 =? 1)) (err error_value_out_of_range) ;;;
          k0 <- constant_node start ;;
          init <- opcode_node ex (if isx then i_ldx else i_ldy) m_I [k0] ;;
          _ <- ex init ;;
          loop_pc <- gets s_pc ;;
          _ <- ex n2 ;;
          if start =? end_ then 
            (modify (fun s => set_counter isx (counter isx s - 1) s) ;;; c2 <- gets (counter isx) ;; when (negb (c2 =? 0)) (err error_value_out_of_range) ;;; ret 0)
          else
            nx <- opcode_node ex (if 0 <? flag then (if isx then i_inx else i_iny) else (if isx then i_dex else i_dey)) m_i [] ;;
            _ <- ex nx ;;
            (if end_ =? 0 then ret tt
             else
               k <- constant_node (if (0 <? flag) && (end_ <? 255) then end_ + 1 else end_) ;;
               c <- opcode_node ex (if isx then i_cpx else i_cpy) m_I [k] ;;
               _ <- ex c ;; ret tt) ;;;
            (if 0 <? flag then
               k <- constant_node loop_pc ;;
               b <- opcode_node ex (if end_ <? 255 then i_bcc else i_bne) m_r [k] ;;
               _ <- ex b ;; ret tt
             else if flag <? 0 then
               k <- constant_node loop_pc ;;
               b <- opcode_node ex i_bcs m_r [k] ;;
               _ <- ex b ;; ret tt
             else ret tt) ;;;
            (modify (fun s => set_counter isx (counter isx s - 1) s) ;;; c2 <- gets (counter isx) ;; when (negb (c2 =? 0)) (err error_value_out_of_range) ;;; ret 0)) s.
Proof. destruct isx; reflexivity. Qed.

(** a register loop whose bounds are in order *)
Theorem reg_loop_bytes F (isx up : bool) a b e0 e1 n0 n1 n2 n3 bd p s :
  nth_error (s_nodes s) p = Some (mkNode (KOpr (if isx then ORegX else ORegY)) [n0; n1; n2; n3]) ->
  (height e0 <= S (S F))%nat -> (height e1 <= S (S F))%nat -> tab s -> s_stop s = false ->
  rep (meaning s) false s n0 e0 -> rep (meaning s) false s n1 e1 -> nth_error (s_nodes s) n3 = Some (mkNode (KCon (if up then 1 else -1) false) []) ->
  known (meaning s) (s_pc s) e0 a -> known (meaning s) (s_pc s) e1 b -> 0 <= a <= 255 -> 0 <= b <= 255 ->
  writing s = true -> no_hole s -> 0 <= s_total s -> counter isx s = 0 -> body_emits (S (S F)) isx n2 bd s ->
  exists s', expand (S (S (S F))) p s = Ok 0 s' /\
    if (if up then b <? a else a <? b) then hv s s' /\ obs s' = obs s else adds (reg_code isx up a b (s_pc s) bd) s s'.
Proof.
  intros N HF0 HF1 T St R0 R1 N3 K0 K1 Ha Hb W NH Tt C B.
  rewrite (reg_node_eq _ _ _ _ _ _ _ _ _ N St eq_refl), x_for_reg_eq. unfold bind at 1, gets at 1. rewrite C. change (0 <? 0) with false. cbv iota.
  destruct (eval_known _ _ _ _ _ _ _ HF0 T St R0 K0) as (s1 & E1 & H1 & O1 & _ & Q1 & _). unfold bind at 1. rewrite E1.
  replace ((a <? 0) || (255 <? a)) with false by lia.
  assert (St1 : s_stop s1 = false) by (rewrite (obs_stop _ _ O1); exact St).
  rewrite <- (obs_pc _ _ O1) in K1.
  destruct (eval_known _ _ _ _ _ _ _ HF1 (h_tab _ _ H1) St1 (rep_hv _ _ _ _ _ _ H1 R1) K1) as (s2 & E2 & H2 & O2 & _ & Q2 & _). unfold bind at 1. rewrite E2.
  replace ((b <? 0) || (255 <? b)) with false by lia.
  assert (St2 : s_stop s2 = false) by (rewrite (obs_stop _ _ O2); exact St1).
  assert (H02 : hv s s2) by (eapply hv_trans; eauto). assert (O02 : obs s2 = obs s) by congruence.
  pose proof (con_hv _ _ _ _ H02 N3) as N32.
  destruct (eval_known (meaning s) false (EInt (if up then 1 else -1)) (if up then 1 else -1) (S (S F)) s2 n3) as (s3 & E3 & H3 & O3 & _ & Q3 & _); auto;
    [cbn [height]; lia|apply (h_tab _ _ H02)|constructor; exact N32|apply con_known|]. unfold bind at 1. rewrite E3.
  assert (H03 : hv s s3) by (eapply hv_trans; eauto). assert (O03 : obs s3 = obs s) by congruence.
  assert (Dir : (0 <? (if up then 1 else -1)) && (b <? a) || ((if up then 1 else -1) <? 0) && (a <? b) = (if up then b <? a else a <? b)).
  { destruct up; cbn; rewrite ?orb_false_r; reflexivity. }
  rewrite Dir. 
  destruct (if up then b <? a else a <? b). { exists s3. split; [reflexivity|]. split; auto. }
  assert (F0 : (0 <? (if up then 1 else -1)) = up) by (destruct up; reflexivity).
  rewrite F0. unfold bind at 1, modify at 1. unfold bind at 1, gets at 1. rewrite counter_set, (counter_obs isx _ _ O03), C. change (0 + 1) with 1.
  change (negb (1 =? 1)) with false. unfold bind at 1, when at 1, ret at 1.
  set (s4 := set_counter isx 1 s3).
  assert (H34 : hv s3 s4) by (unfold s4; destruct isx; apply hv_frame; auto; apply (h_tab _ _ H03)).
  assert (H04 : hv s s4) by (eapply hv_trans; eauto).
  assert (P4 : s_pc s4 = s_pc s) by (rewrite <- (obs_pc _ _ O03); unfold s4; destruct isx; reflexivity).
  destruct (reg_tail F isx up a b n2 bd s4) with (fin := (modify (fun s => set_counter isx (counter isx s - 1) s) ;;; c2 <- gets (counter isx) ;;
       when (negb (c2 =? 0)) (err error_value_out_of_range) ;;; ret 0)) as (s5 & A5 & E5); auto.
  - apply (h_tab _ _ H04).
  - transitivity (s_stop s3); [unfold s4; destruct isx; reflexivity|]. rewrite (obs_stop _ _ O03). exact St.
  - transitivity (writing s3); [unfold s4; destruct isx; reflexivity|]. apply (writing_obs _ _ O03 W).
  - assert (X : no_hole s3) by (eapply hv_hole_of; eauto). unfold no_hole in *. unfold s4; destruct isx; exact X.
  - replace (s_total s4) with (s_total s3) by (unfold s4; destruct isx; reflexivity). rewrite (obs_field s_total _ _ O03 obs_get_total). exact Tt.
  - apply counter_set.
  - intros s5 V1 Vq V2 V3 V4 V5 V6 V7. apply B; auto; [eapply hv_trans; eauto| |congruence].
    eapply ops_kept_trans; [exact Q1|]. eapply ops_kept_trans; [exact Q2|]. eapply ops_kept_trans; [exact Q3|].
    eapply ops_kept_trans; [|exact Vq]. apply ops_kept_same. unfold s4. destruct isx; reflexivity.
  - exists (set_counter isx 0 s5). split.
    + rewrite finish_ok in E5; [|rewrite <- (counter_set isx 1 s3); fold s4; destruct isx; [apply (a_forx _ _ _ A5)|apply (a_fory _ _ _ A5)]].
      rewrite <- E5. destruct up; reflexivity.
    + rewrite <- P4. apply (adds_obs _ s s3 _ H03 O03). apply adds_counter.
      * apply (h_tab _ _ H03).
      * rewrite (counter_obs isx _ _ O03), C. exact A5.
      * rewrite (counter_obs isx _ _ O03), C. reflexivity.
Qed.
