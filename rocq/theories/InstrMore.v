(** Consequences for the bytes: decoding, zero page, immediate operands, branches. *)
From Coq Require Import String Lia.
From Verif Require Import Base BaseProofs Hash Dict DictProofs DictMore Str Opcodes Cpu CpuStep OpcodesProofs Err State Sym Machine Build Pass Prog
  Gen Inv SymProofs SymEx Sem ExprProofs ExprMore OpProofs OpMore InstrProofs.
Open Scope string_scope.
Open Scope list_scope.
Open Scope Z_scope.
Open Scope m_scope.
Ltac Zify.zify_post_hook ::= Z.div_mod_to_equations.

(** ** Without operand *)
Theorem instruction0 instr F s : ready s -> has_mode s instr m_r = false -> has_mode s instr m_i = true ->
  (s_final s = true -> no_hole s) ->
  exists p s1 s2, build_op (expand F) instr FImp s = Ok (Some p) s1 /\ expand (S F) p s1 = Ok 0 s2 /\
    emits [ops_of s instr m_i] s s2 /\ s_errs s2 = s_errs s /\ (forall n, plain n -> value_of s2 n = value_of s n).
Proof.
  intros Rd Hr Hi NH. destruct (ready_tab _ Rd) as [T St].
  assert (B : get_op_code (s_c02 s) (s_ill s) instr m_r = -1).
  { unfold has_mode, hasg in Hr. apply negb_false_iff, Z.eqb_eq in Hr. exact Hr. }
  destruct (opcode_node_implied instr s (expand F) T B) as (p & s1 & E1 & H1 & O1 & N1).
  change (get_op_code (s_c02 s) (s_ill s) instr m_i) with (ops_of s instr m_i) in *.
  pose proof (has_nonneg _ _ _ Hi) as C0. destruct (ops_of s instr m_i <? 0) eqn:X; [apply Z.ltb_lt in X; lia|]. clear X.
  assert (St1 : s_stop s1 = false) by (rewrite (obs_stop _ _ O1); exact St).
  destruct (x_op_code0 F s1 p instr (ops_of s instr m_i) m_i 0 (h_tab _ _ H1)) as (s2 & E2 & H2 & O2 & _).
  { vm_compute; intuition congruence. } { reflexivity. }
  { intros Fn. rewrite (obs_field s_final _ _ O1 obs_get_final) in Fn.
    eapply no_gap_obs; [|apply no_hole_gap, NH, Fn]. rewrite !obs_org, O1. reflexivity. }
  { exact N1. }
  { intros _. pose proof (get_op_code_range (s_c02 s) (s_ill s) instr m_i). unfold ops_of in *. lia. }
  exists p, s1, s2. unfold build_op, some, bind. rewrite E1. split; [reflexivity|].
  split; [rewrite (expand_op _ _ _ _ _ _ _ _ St1 N1); exact E2|]. rewrite O1 in O2.
  destruct (step_op_emits _ _ _ _ O2) as [Em Er]. rewrite Z.add_0_r in Er.
  assert (Bq : map byte [ops_of s instr m_i] = [ops_of s instr m_i]).
  { cbn [map]. unfold byte. pose proof (get_op_code_range (s_c02 s) (s_ill s) instr m_i). unfold ops_of in *. rewrite Z.mod_small by lia. reflexivity. }
  rewrite Bq in Em. split; [exact Em|]. split; [exact Er|].
  intros n Hn. apply value_of_hv; [exact (hv_trans _ _ _ H1 H2)|exact Hn].
Qed.

(** the accumulator named as operand *)
Theorem instruction_acc instr n F s : ready s -> valids n -> is_A n = true -> resolve s (s_scope s) n = None ->
  has_mode s instr m_r = false -> has_mode s instr m_A = true -> (1 <= F)%nat -> (s_final s = true -> no_hole s) ->
  exists p s1 s2, build_op (expand F) instr (FAbs (ESym n)) s = Ok (Some p) s1 /\ expand (S F) p s1 = Ok 0 s2 /\
    emits [ops_of s instr m_A] s s2 /\ s_errs s2 = s_errs s /\ (forall n, plain n -> value_of s2 n = value_of s n).
Proof.
  intros Rd Vn IA Rn Hr Hi HF NH. destruct (ready_tab _ Rd) as [T St].
  assert (B : get_op_code (s_c02 s) (s_ill s) instr m_r = -1).
  { unfold has_mode, hasg in Hr. apply negb_false_iff, Z.eqb_eq in Hr. exact Hr. }
  assert (E0 : build_expr (ESym n) s = Ok (Some (length (s_nodes s))) (set_nodes (s_nodes s ++ [mkNode (KId n None) []]) s)).
  { destruct (is_A_head _ IA) as (Hp & _ & Hb). cbn [build_expr]. unfold bindo, bind, need_sym, tok_sym. rewrite Hp, Hb.
    unfold bind, look_up_symbol, gets. unfold bind.
    destruct (look_up_in_spec (s_scope s) n s) as (r & s' & E & X); [apply T|exact Vn|apply T|]. rewrite E.
    destruct r as [a|]; [destruct X as (y & _ & X & _); congruence|]. destruct X as [_ ->].
    unfold ret, some, bind, id_node. rewrite alloc_eq. reflexivity. }
  set (q := length (s_nodes s)) in *. set (s0 := set_nodes (s_nodes s ++ [mkNode (KId n None) []]) s) in *.
  assert (H0 : hv s s0) by (apply hv_alloc; [reflexivity|exact T]).
  assert (O0 : obs s0 = obs s) by apply obs_set_nodes.
  destruct (opcode_node_acc n F s0 q instr HF (h_tab _ _ H0) St (alloc_nth _ _ _) IA B) as (p & s1 & E1 & H1 & O1 & N1).
  change (get_op_code (s_c02 s0) (s_ill s0) instr m_A) with (ops_of s instr m_A) in *.
  pose proof (has_nonneg _ _ _ Hi) as C0. destruct (ops_of s instr m_A <? 0) eqn:X; [apply Z.ltb_lt in X; lia|]. clear X.
  rewrite O0 in O1.
  assert (St1 : s_stop s1 = false) by (rewrite (obs_stop _ _ O1); exact St).
  destruct (x_op_code0 F s1 p instr (ops_of s instr m_A) m_A 0 (h_tab _ _ H1)) as (s2 & E2 & H2 & O2 & _).
  { vm_compute; intuition congruence. } { reflexivity. }
  { intros Fn. rewrite (obs_field s_final _ _ O1 obs_get_final) in Fn.
    eapply no_gap_obs; [|apply no_hole_gap, NH, Fn]. rewrite !obs_org, O1. reflexivity. }
  { exact N1. }
  { intros _. pose proof (get_op_code_range (s_c02 s) (s_ill s) instr m_A). unfold ops_of in *. lia. }
  exists p, s1, s2. unfold build_op, bindo, bind at 1. rewrite E0. unfold some, bind. rewrite E1. split; [reflexivity|].
  split; [rewrite (expand_op _ _ _ _ _ _ _ _ St1 N1); exact E2|]. rewrite O1 in O2.
  destruct (step_op_emits _ _ _ _ O2) as [Em Er]. rewrite Z.add_0_r in Er.
  assert (Bq : map byte [ops_of s instr m_A] = [ops_of s instr m_A]).
  { cbn [map]. unfold byte. pose proof (get_op_code_range (s_c02 s) (s_ill s) instr m_A). unfold ops_of in *. rewrite Z.mod_small by lia. reflexivity. }
  rewrite Bq in Em. split; [exact Em|]. split; [exact Er|].
  intros k Hk. apply value_of_hv; [exact (hv_trans _ _ _ (hv_trans _ _ _ H0 H1) H2)|exact Hk].
Qed.

(** ** Bytes of the modes *)
Lemma ops_byte s i k : has_mode s i k = true -> byte (ops_of s i k) = ops_of s i k.
Proof. intros H. pose proof (has_nonneg _ _ _ H). pose proof (get_op_code_range (s_c02 s) (s_ill s) i k). unfold byte, ops_of in *. apply Z.mod_small. lia. Qed.
Lemma code_1 c m pc v : nbytes m = 1 -> m <> m_r -> map byte (code c m pc v) = [byte c; byte v].
Proof. intros H N. unfold code, operand, le. rewrite (proj2 (Z.eqb_neq _ _) N), H. reflexivity. Qed.
Lemma code_2 c m pc v : nbytes m = 2 -> map byte (code c m pc v) = [byte c; byte v; byte (v / 256)].
Proof. intros H. assert (N : m <> m_r) by (intros ->; discriminate). unfold code, operand, le. rewrite (proj2 (Z.eqb_neq _ _) N), H. reflexivity. Qed.
Lemma code_r c pc v : map byte (code c m_r pc v) = [byte c; byte (v - (pc + 2))].
Proof. unfold code, operand. change (m_r =? m_r) with true. cbv iota. cbn [map]. unfold byte. change 255 with (Z.ones 8). rewrite Z.land_ones by lia. change (2 ^ 8) with 256. rewrite Z.mod_mod by lia. reflexivity. Qed.

(** the source modes with a long and a short form *)
Definition long_modes : list Z := [m_a; m_ax; m_ay; m_ind; m_aix].

Theorem zero_page instr f m e v F s : form_mode f = Some (m, e) -> In m long_modes -> ready s -> operand_value s e v ->
  (height e <= F)%nat -> (s_final s = true -> no_hole s) -> has_mode s instr m_r = false ->
  has_mode s instr m = true \/ has_mode s instr (zp_form m) = true ->
  exists p s1 s2, build_op (expand F) instr f s = Ok (Some p) s1 /\ expand (S F) p s1 = Ok 0 s2 /\
    (forall n, plain n -> value_of s2 n = value_of s n) /\
    if has_mode s instr (zp_form m) && (is_byte v || negb (has_mode s instr m))
    then emits [ops_of s instr (zp_form m); byte v] s s2 /\ s_errs s2 = s_errs s + (if is_word v && negb (is_byte v) then 1 else 0)
    else emits [ops_of s instr m; byte v; byte (v / 256)] s s2 /\ s_errs s2 = s_errs s.
Proof.
  intros Hf Im Rd OV HF NH Hr Hm.
  assert (Us : usable (has_mode s instr) m = true).
  { unfold usable. destruct Hm as [-> | ->]; rewrite ?orb_true_r; reflexivity. }
  pose proof (instruction instr f m e v F s Hf Rd OV HF Us NH) as I.
  assert (M : zp_form m <> m /\ zp_form m <> m_r /\ m <> m_r /\ nbytes (zp_form m) = 1 /\ nbytes m = 2).
  { cbn in Im. repeat (destruct Im as [<-|Im]; [vm_compute; intuition congruence|]). destruct Im. }
  destruct M as (M1 & M2 & M3 & M4 & M5). unfold select in I. rewrite Hr, (proj2 (Z.eqb_neq _ _) M1) in I. cbn [negb andb] in I.
  destruct (has_mode s instr (zp_form m)) eqn:Hz; destruct (is_byte v) eqn:Bv; destruct (has_mode s instr m) eqn:Ha;
    cbn [andb orb negb] in *; try (destruct Hm; discriminate);
    (destruct I as (p & s1 & s2 & E1 & E2 & Em & Er & Vl); [intros; congruence|]);
    exists p, s1, s2; (split; [exact E1|]); (split; [exact E2|]); (split; [exact Vl|]);
    rewrite ?(code_1 _ _ _ _ M4 M2), ?(code_2 _ _ _ _ M5) in Em; rewrite ops_byte in Em by assumption;
    rewrite ?andb_false_r, ?andb_true_r, ?Z.add_0_r in *; auto.
Qed.

Theorem immediate instr e v F s : ready s -> operand_value s e v -> (height e <= F)%nat -> (s_final s = true -> no_hole s) ->
  has_mode s instr m_r = false -> has_mode s instr m_I = true ->
  exists p s1 s2, build_op (expand F) instr (FImm e) s = Ok (Some p) s1 /\ expand (S F) p s1 = Ok 0 s2 /\
    (forall n, plain n -> value_of s2 n = value_of s n) /\
    emits [ops_of s instr m_I; byte v] s s2 /\ s_errs s2 = s_errs s + (if (256 <=? v) && (v <=? 65535) then 1 else 0).
Proof.
  intros Rd OV HF NH Hr Hm.
  assert (Us : usable (has_mode s instr) m_I = true) by (unfold usable; rewrite Hm, orb_true_r; reflexivity).
  pose proof (instruction instr (FImm e) m_I e v F s eq_refl Rd OV HF Us NH) as I.
  unfold select in I. rewrite Hr in I. change (zp_form m_I) with m_I in I. rewrite Hm in I. change (m_I =? m_I) with true in I.
  cbn [negb andb] in I. rewrite andb_true_r in I.
  assert (Eb : (if (256 <=? v) && (v <=? 65535) then 1 else 0) = (if is_word v && negb (is_byte v) then 1 else 0)).
  { unfold is_word, is_byte. if_lia. }
  destruct (is_byte v) eqn:Bv;
    (destruct I as (p & s1 & s2 & E1 & E2 & Em & Er & Vl); [discriminate|]);
    exists p, s1, s2; (split; [exact E1|]); (split; [exact E2|]); (split; [exact Vl|]);
    rewrite code_1 in Em by (reflexivity || discriminate); rewrite ops_byte in Em by assumption; rewrite Eb, ?andb_false_r, ?andb_true_r in *;
    cbn [negb] in *; rewrite ?andb_false_r in *; auto.
Qed.

(** ** Decoding what was written *)
Definition le_value (l : list Z) : Z := match l with [a] => a | [a; b] => a + 256 * b | _ => 0 end.

Lemma signed_byte d : -128 <= d <= 128 -> signed (byte d) = if d =? 128 then -128 else d.
Proof.
  intros H. unfold signed, byte. destruct (Z_lt_ge_dec d 0) as [Hd|Hd].
  - rewrite <- (Z.mod_unique d 256 (-1) (d + 256)) by lia. destruct (Z.ltb_spec (d + 256) 128); [lia|]. destruct (Z.eqb_spec d 128); lia.
  - rewrite Z.mod_small by lia. destruct (Z.ltb_spec d 128), (Z.eqb_spec d 128); lia.
Qed.
Lemma canon_id c02 i k : k <> m_i -> canon c02 i k = k.
Proof. intros H. unfold canon. rewrite (proj2 (Z.eqb_neq _ _) H), andb_false_r. reflexivity. Qed.

(** instructions decoded alike by the assembler and the processor: the documented ones, on the 65C02 without the
    bit branches (two operands) and the (zp) mode, see C11 *)
Definition regular (c02 : bool) (i k : Z) : bool :=
  (0 <=? i) && (i <? 98) && negb (c02 && (zpi_slot i k || ((i_bbr0 <=? i) && (i <=? i_bbs7)))).

Lemma decode_ok s i k : has_mode s i k = true -> regular (s_c02 s) i k = true -> 
  decode (s_c02 s) (ops_of s i k) = Some (i, canon (s_c02 s) i k).
Proof.
  intros H R. unfold regular in R. apply andb_true_iff in R as [R R3]. apply andb_true_iff in R as [R1 R2].
  apply Z.leb_le in R1. apply Z.ltb_lt in R2. unfold has_mode, hasg, ops_of in *. apply negb_true_iff, Z.eqb_neq in H.
  unfold decode. destruct (s_c02 s).
  - cbn [andb] in R3. apply negb_true_iff, orb_false_iff in R3 as [R3 _]. eapply ops65c02_sound; eauto.
  - eapply ops6502_sound; eauto.
Qed.
Lemma operand_bytes_ok c02 i k : regular c02 i k = true -> 0 <= k < 15 -> (c02 = true \/ i < i_bbr0 \/ i_bbs7 < i) -> operand_bytes i k = nbytes k.
Proof.
  intros R K X. unfold operand_bytes, nbytes.
  assert (Y : (i_bbr0 <=? i) && (i <=? i_bbs7) = false).
  { unfold regular in R. destruct X as [->|X]; [|apply andb_false_iff; rewrite !Z.leb_gt; lia].
    apply andb_true_iff in R as [_ R]. apply negb_true_iff in R. cbn [andb] in R. apply orb_false_iff in R. apply R. }
  rewrite <- (andb_assoc (k =? m_r)), Y, andb_false_r. rewrite (orb_comm (k =? m_i)).
  destruct (_ || _); [reflexivity|].
  replace ((k =? m_a) || (k =? m_aix) || (k =? m_ax) || (k =? m_ay) || (k =? m_ind)) with
          ((k =? m_a) || (k =? m_ax) || (k =? m_ay) || (k =? m_aix) || (k =? m_ind)); [reflexivity|].
  destruct (k =? m_a), (k =? m_ax), (k =? m_ay), (k =? m_aix), (k =? m_ind); reflexivity.
Qed.

Lemma no_bit_branch ill i k : get_op_code false ill i k <> -1 -> 0 <= i < 98 -> 0 <= k < 15 -> i < i_bbr0 \/ i_bbs7 < i.
Proof.
  assert (A : forallb (fun i => forallb (fun k => (get_op_code false ill i k =? -1) || (i <? i_bbr0) || (i_bbs7 <? i)) (zseq 0 15)) (zseq 0 98) = true).
  { destruct ill; vm_compute; reflexivity. }
  intros H Hi Hk. rewrite forallb_forall in A. specialize (A i ltac:(apply zseq_in; lia)). rewrite forallb_forall in A.
  specialize (A k ltac:(apply zseq_in; lia)). apply orb_true_iff in A as [A|A]; [apply orb_true_iff in A as [A|A]|].
  - apply Z.eqb_eq in A. congruence.
  - apply Z.ltb_lt in A. auto.
  - apply Z.ltb_lt in A. auto.
Qed.

Theorem encode_decode instr f m e v F s : form_mode f = Some (m, e) -> ready s -> operand_value s e v ->
  (height e <= F)%nat -> usable (has_mode s instr) m = true -> (s_final s = true -> no_hole s) ->
  let k := fst (select (has_mode s instr) m v) in
  regular (s_c02 s) instr k = true -> (k = m_r -> -127 <= v - (s_pc s + 2) <= 127) ->
  exists p s1 s2 opc ops, build_op (expand F) instr f s = Ok (Some p) s1 /\ expand (S F) p s1 = Ok 0 s2 /\
    emits (opc :: ops) s s2 /\ decode (s_c02 s) opc = Some (instr, k) /\ Z.of_nat (length ops) = operand_bytes instr k /\
    Forall (fun b => 0 <= b < 256) (opc :: ops) /\
    (if k =? m_r then v = s_pc s + 2 + signed (le_value ops) else le_value ops = v mod 256 ^ operand_bytes instr k).
Proof.
  intros Hf Rd OV HF Us NH k Rg Rl.
  pose proof (instruction instr f m e v F s Hf Rd OV HF Us NH) as I.
  destruct (select_ok (ops_of s instr) m v (form_src _ _ _ Hf) (ops_range s instr) Us) as (_ & _ & _ & _ & S5 & S6 & _).
  change (hasg (ops_of s instr)) with (has_mode s instr) in S5, S6. subst k. destruct (select (has_mode s instr) m v) as [k bad] eqn:Sel.
  cbn [fst] in *.
  destruct I as (p & s1 & s2 & E1 & E2 & Em & _ & _); [intros X; specialize (Rl X); lia|].
  assert (K15 : 0 <= k < 15) by lia. assert (Nb : 0 < nbytes k) by (apply andb_true_iff in S5 as [_ S5]; apply Z.ltb_lt in S5; exact S5).
  assert (Ob : operand_bytes instr k = nbytes k).
  { apply operand_bytes_ok with (c02 := s_c02 s); auto. destruct (s_c02 s) eqn:E; [auto|right]. 
    unfold has_mode, hasg, ops_of in S6. rewrite E in S6. apply negb_true_iff, Z.eqb_neq in S6. 
    apply (no_bit_branch (s_ill s) instr k); auto. unfold regular in Rg.
    apply andb_true_iff in Rg as [Rg _]. apply andb_true_iff in Rg as [Rg1 Rg2]. apply Z.leb_le in Rg1. apply Z.ltb_lt in Rg2. lia. }
  assert (Ki : k <> m_i) by (intros ->; discriminate Nb).
  pose proof (decode_ok s instr k S6 Rg) as D. rewrite canon_id in D by auto.
  pose proof (ops_byte _ _ _ S6) as By. pose proof (nbytes_range k) as Nr.
  assert (Rb : forall x, 0 <= byte x < 256) by (intros; unfold byte; apply Z.mod_pos_bound; lia).
  rewrite Ob. exists p, s1, s2. destruct (Z.eqb_spec k m_r) as [->|Nk].
  - rewrite code_r, By in Em. exists (ops_of s instr m_r), [byte (v - (s_pc s + 2))].
    split; [exact E1|]. split; [exact E2|]. split; [exact Em|]. split; [exact D|]. split; [reflexivity|].
    split; [constructor; [rewrite <- By; apply Rb|constructor; [apply Rb|constructor]]|].
    cbn [le_value]. specialize (Rl eq_refl). rewrite signed_byte by lia. destruct (Z.eqb_spec (v - (s_pc s + 2)) 128); lia.
  - assert (nbytes k = 1 \/ nbytes k = 2) as [N1|N2] by lia.
    + rewrite (code_1 _ _ _ _ N1 Nk), By in Em. exists (ops_of s instr k), [byte v].
      split; [exact E1|]. split; [exact E2|]. split; [exact Em|]. split; [exact D|]. split; [rewrite N1; reflexivity|].
      split; [constructor; [rewrite <- By; apply Rb|constructor; [apply Rb|constructor]]|]. rewrite N1. reflexivity.
    + rewrite (code_2 _ _ _ _ N2), By in Em. exists (ops_of s instr k), [byte v; byte (v / 256)].
      split; [exact E1|]. split; [exact E2|]. split; [exact Em|]. split; [exact D|]. split; [rewrite N2; reflexivity|].
      split; [constructor; [rewrite <- By; apply Rb|constructor; [apply Rb|constructor; [apply Rb|constructor]]]|]. rewrite N2.
      cbn [le_value]. unfold byte. change (256 ^ 2) with 65536. lia.
Qed.

(** ** Branches *)
Theorem branch instr f m e v F s : form_mode f = Some (m, e) -> ready s -> operand_value s e v ->
  (height e <= F)%nat -> (s_final s = true -> no_hole s) -> has_mode s instr m_r = true ->
  -127 <= v - (s_pc s + 2) <= 128 ->
  exists p s1 s2 d, build_op (expand F) instr f s = Ok (Some p) s1 /\ expand (S F) p s1 = Ok 0 s2 /\
    emits [ops_of s instr m_r; d] s s2 /\ s_errs s2 = s_errs s /\ (forall n, plain n -> value_of s2 n = value_of s n) /\
    s_pc s + 2 + signed d = (if v =? s_pc s + 130 then v - 256 else v).
Proof.
  intros Hf Rd OV HF NH Hr Rl.
  assert (Us : usable (has_mode s instr) m = true) by (unfold usable; rewrite Hr; reflexivity).
  pose proof (instruction instr f m e v F s Hf Rd OV HF Us NH) as I. unfold select in I. rewrite Hr in I.
  destruct I as (p & s1 & s2 & E1 & E2 & Em & Er & Vl); [auto|]. rewrite code_r, (ops_byte _ _ _ Hr) in Em.
  exists p, s1, s2, (byte (v - (s_pc s + 2))). rewrite Z.add_0_r in Er. repeat (split; [assumption|]).
  rewrite signed_byte by lia. destruct (Z.eqb_spec (v - (s_pc s + 2)) 128), (Z.eqb_spec v (s_pc s + 130)); lia.
Qed.

Lemma step_far_emits c2 v2 s s' : 0 <= s_total s -> obs s' = step_far c2 v2 (obs s) ->
  emits (map byte [c2; 3; 76; v2; v2 / 256]) s s' /\ s_errs s' = s_errs s /\ (s_final s = true -> s_warns s' = s_warns s + 1).
Proof.
  intros Ht O. unfold step_far in O. rewrite <- obs_org, obs_get_final in O.
  destruct (org_same s) as (_ & D2 & _ & _ & _ & D6 & D7). destruct (org_more s) as (D1 & D3 & D4 & D5 & D8 & D9 & D10).
  set (s2 := if s_final s then writes [c2; 3] (org s) else org s).
  set (s3 := set_pc (s_pc s2 + 2) s2).
  set (s4 := if s_final s then set_warns (s_warns s3 + 1) (writes [76; v2; v2 / 256] s3) else s3).
  assert (O' : obs s' = obs (set_pc (s_pc s4 + 3) s4)).
  { rewrite O.
    assert (A2 : (if s_final s then writes [c2; 3] (obs (org s)) else obs (org s)) = obs s2).
    { unfold s2. destruct (s_final s); [rewrite obs_writes|]; reflexivity. }
    cbv zeta. rewrite A2.
    assert (A3 : set_pc (s_pc (obs s2) + 2) (obs s2) = obs s3) by (unfold s3; rewrite obs_set_pc, obs_get_pc; reflexivity).
    rewrite A3.
    assert (A4 : (if s_final s then set_warns (s_warns (obs s3) + 1) (writes [76; v2; v2 / 256] (obs s3)) else obs s3) = obs s4).
    { unfold s4. destruct (s_final s); [rewrite obs_set_warns, obs_writes, obs_get_warns|]; reflexivity. }
    rewrite A4. rewrite obs_set_pc, obs_get_pc. reflexivity. }
  clear O. pose proof (f_equal s_pc O') as X1. pose proof (f_equal s_out O') as X2. pose proof (f_equal s_errs O') as X3. pose proof (f_equal s_warns O') as X4.
  rewrite !obs_get_pc in X1. rewrite !obs_get_out in X2. rewrite !obs_get_errs in X3. rewrite !obs_get_warns in X4.
  cbn [s_pc s_out s_errs s_warns set_pc] in X1, X2, X3, X4.
  destruct (writes_same [c2; 3] (org s)) as (Y1 & _ & Y2 & _). destruct (writes_same [76; v2; v2 / 256] s3) as (Y3 & _ & Y4 & _).
  destruct (writes_more [c2; 3] (org s)) as (Z1 & Z2 & Z3 & Z4 & Z5 & _ & Z6).
  destruct (writes_more [76; v2; v2 / 256] s3) as (W1 & W2 & W3 & W4 & W5 & _ & W6).
  split; [split|split].
  - rewrite X1, map_length. unfold s4. destruct (s_final s).
    + cbn [s_pc set_warns]. rewrite Y3. unfold s3. cbn [s_pc set_pc]. unfold s2. rewrite Y1, D2. cbn [length]. lia.
    + unfold s3. cbn [s_pc set_pc]. unfold s2. rewrite D2. cbn [length]. lia.
  - rewrite X2. unfold s4. destruct (s_final s) eqn:Fn; [|exact D9]. cbn [s_out set_warns andb].
    assert (Q3 : s_opened s3 = s_opened s /\ s_org_spec s3 = s_org_spec s || (0 <? s_pc_assigned s)).
    { unfold s3, s2. cbn [s_opened s_org_spec set_pc]. rewrite Z1, Z2, D5, D8. auto. }
    destruct Q3 as (Q1 & Q2). unfold writes. rewrite Q1, Q2. unfold writes in Z6.
    destruct (s_opened s && (s_org_spec s || (0 <? s_pc_assigned s))) eqn:Wr.
    + rewrite out_put, out_header.
      assert (Tt : s_total s3 =? 0 = false).
      { unfold s3, s2. cbn [s_total set_pc]. unfold writes. rewrite Z6, D5, D8, Wr. apply Z.eqb_neq.
        assert (s_total (org s) <= s_total (header (org s))).
        { unfold header. destruct ((s_total (org s) =? 0) && s_c64 (org s)); [|lia]. unfold put. cbn [s_total set_out set_total length]. lia. }
        rewrite D3 in H. cbn [length]. lia. }
      rewrite Tt. cbn [andb app].
      assert (Os : s_out s3 = rev (map byte [c2; 3]) ++ (if (s_total s =? 0) && s_c64 s then [s_origin s / 256 mod 256; s_origin s mod 256] else []) ++ s_out s).
      { unfold s3, s2. cbn [s_out set_pc]. unfold writes. rewrite D5, D8, Wr. rewrite out_put, out_header, D1, D3, D4, D9. reflexivity. }
      rewrite Os. cbn [map rev app]. reflexivity.
    + unfold s3, s2. cbn [s_out set_pc]. unfold writes. rewrite D5, D8, Wr. exact D9.
  - rewrite X3. unfold s4. destruct (s_final s).
    + cbn [s_errs set_warns]. rewrite Y4. unfold s3, s2. cbn [s_errs set_pc]. rewrite Y2. exact D7.
    + exact D7.
  - intros Fn. rewrite X4. unfold s4. rewrite Fn. cbn [s_warns set_warns]. unfold s3, s2. rewrite Fn. cbn [s_warns set_pc]. rewrite Z5, D10. reflexivity.
Qed.

Theorem far_branch_bytes instr f m e v v2 F s : form_mode f = Some (m, e) -> ready s -> operand_value s e v ->
  sem (value_of s) (s_pc s + 2) e = Some (v2, 0) -> (height e <= F)%nat -> (1 <= F)%nat -> 0 <= s_total s -> (s_final s = true -> no_hole s) ->
  has_mode s instr m_r = true -> (v - (s_pc s + 2) < -127 \/ 128 < v - (s_pc s + 2)) ->
  exists p s1 s2, build_op (expand F) instr f s = Ok (Some p) s1 /\ expand (S F) p s1 = Ok 0 s2 /\
    emits [ops_of s (invert instr) m_r; 3; 76; byte v2; byte (v2 / 256)] s s2 /\ s_errs s2 = s_errs s /\
    (s_final s = true -> s_warns s2 = s_warns s + 1) /\ (forall n, plain n -> value_of s2 n = value_of s n).
Proof.
  intros Hf Rd OV V2 HF HF1 Ht NH Hr Rl. destruct (ready_tab _ Rd) as [T St]. destruct (operand_known _ _ _ OV) as (W & P & NA & K & U).
  assert (K2 : known (meaning s) (s_pc s + 2) e v2).
  { split; [|apply K]. rewrite <- V2. apply sem_ext. intros n _. symmetry. apply value_of_env. }
  assert (Us : usable (has_mode s instr) m = true) by (unfold usable; rewrite Hr; reflexivity).
  pose proof (build_op_ok instr f m e v F s Hf T St W P NA HF K) as OK. rewrite U in OK.
  destruct (select_ok (ops_of s instr) m v (form_src _ _ _ Hf) (ops_range s instr) Us) as (S1 & S2 & _ & _ & _ & _ & S7).
  destruct (build_mode _ _ _ _) as [m2 c2] eqn:BM. cbn [fst snd] in *.
  assert (m2 = m_r) as ->. { apply Z.eqb_eq. rewrite S7. exact Hr. }
  assert (C2 : 0 <= c2) by (rewrite S1; apply has_nonneg, S2).
  destruct OK as (p & q & s1 & E1 & H1 & O1 & R1 & N1). destruct (c2 <? 0) eqn:X; [apply Z.ltb_lt in X; lia|]. clear X.
  assert (St1 : s_stop s1 = false) by (rewrite (obs_stop _ _ O1); exact St).
  assert (P1 : s_pc s1 = s_pc s) by apply (obs_pc _ _ O1).
  assert (G1 : get_op_code (s_c02 s1) (s_ill s1) (invert instr) m_r = ops_of s (invert instr) m_r).
  { unfold ops_of. rewrite (obs_field s_c02 _ _ O1 obs_get_c02), (obs_field s_ill _ _ O1 obs_get_ill). reflexivity. }
  assert (Hi : has_mode s (invert instr) m_r = true).
  { unfold has_mode, hasg, ops_of in *. apply negb_true_iff, Z.eqb_neq. apply negb_true_iff, Z.eqb_neq in Hr. apply invert_branch, Hr. }
  destruct (x_op_code_far (meaning s) e v v2 F s1 p q instr c2 0 HF HF1 (h_tab _ _ H1) St1 R1) as (q' & s2 & E2 & H2 & O2 & _).
  { rewrite P1. exact K. } { rewrite P1. intros _. exact K2. } { exact U. } { exact NA. }
  { rewrite P1. unfold far. change (m_r =? m_r) with true. cbn [andb]. apply orb_true_iff. rewrite !Z.ltb_lt. lia. }
  { rewrite G1. pose proof (has_nonneg _ _ _ Hi). lia. }
  { intros Fn. rewrite (obs_field s_final _ _ O1 obs_get_final) in Fn.
    eapply no_gap_obs; [|apply no_hole_gap, NH, Fn]. rewrite !obs_org, O1. reflexivity. }
  { exact N1. }
  exists p, s1, s2. split; [exact E1|]. split; [rewrite (expand_op _ _ _ _ _ _ _ _ St1 N1); exact E2|].
  rewrite G1, O1 in O2. destruct (step_far_emits _ _ _ _ Ht O2) as (Em & Er & Wn). cbn [map] in Em. rewrite (ops_byte _ _ _ Hi) in Em.
  split; [exact Em|]. split; [exact Er|]. split; [exact Wn|].
  intros n Hn. apply value_of_hv; [exact (hv_trans _ _ _ H1 H2)|exact Hn].
Qed.

(** ** The five bytes of a far branch, executed *)
Definition inverted : list Z := [i_bcc; i_bcs; i_beq; i_bne; i_bmi; i_bpl].
Definition kept_branches : list Z := [i_bvc; i_bvs; i_bra].

Lemma holds_5 mem pc a b c d e : holds mem pc [a; b; c; d; e] ->
  mem pc = a /\ mem (pc + 1) = b /\ mem (pc + 2) = c /\ mem (pc + 3) = d /\ mem (pc + 4) = e.
Proof.
  intros H. pose proof (H 0%nat ltac:(cbn; lia)) as H0. rewrite Z.add_0_r in H0. pose proof (H 1%nat ltac:(cbn; lia)) as H1.
  pose proof (H 2%nat ltac:(cbn; lia)) as H2. pose proof (H 3%nat ltac:(cbn; lia)) as H3. pose proof (H 4%nat ltac:(cbn; lia)) as H4. auto.
Qed.
Lemma step_branch c02 mem c i t : decode c02 (mem (g_pc c)) = Some (i, m_r) -> taken i c = Some t ->
  step c02 mem c = Some (goto (if t then g_pc c + 2 + signed (mem (g_pc c + 1)) else g_pc c + 2) c).
Proof. intros D T. unfold step. rewrite D. change (m_r =? m_r) with true. cbv iota. rewrite T. destruct t; reflexivity. Qed.
Lemma step_jmp c02 mem c : mem (g_pc c) = 76 ->
  step c02 mem c = Some (goto (mem (g_pc c + 1) + 256 * mem (g_pc c + 2)) c).
Proof. intros D. unfold step. rewrite D. destruct c02; reflexivity. Qed.
Lemma has_branch s i : has_mode s i m_r = true -> 0 <= i < 98 -> i < i_bbr0 \/ i_bbs7 < i ->
  decode (s_c02 s) (ops_of s i m_r) = Some (i, m_r).
Proof.
  intros H I B. rewrite (decode_ok s i m_r H); [rewrite canon_id by discriminate; reflexivity|].
  unfold regular. replace ((i_bbr0 <=? i) && (i <=? i_bbs7)) with false by (symmetry; apply andb_false_iff; rewrite !Z.leb_gt; lia).
  assert (Z1 : zpi_slot i m_r = false) by reflexivity.
  rewrite Z1. cbn [orb]. rewrite andb_false_r. cbn [negb]. rewrite andb_true_r. apply andb_true_iff. rewrite Z.leb_le, Z.ltb_lt. lia.
Qed.

Lemma invert_taken i c t : In i (inverted ++ kept_branches) -> taken i c = Some t ->
  taken (invert i) c = Some (if existsb (Z.eqb i) inverted then negb t else t).
Proof.
  intros H. cbn [inverted kept_branches app In] in H.
  decompose [or] H; clear H; try contradiction; subst i; intros T; vm_compute in T; inversion T; subst t; vm_compute;
    destruct c as [x1 x2 x3 n v z cc]; try destruct n; try destruct v; try destruct z; try destruct cc; reflexivity.
Qed.

Theorem far_branch_runs s instr v2 mem c t : In instr (inverted ++ kept_branches) -> has_mode s instr m_r = true ->
  0 <= g_pc c < 65530 -> holds mem (g_pc c) [ops_of s (invert instr) m_r; 3; 76; byte v2; byte (v2 / 256)] -> taken instr c = Some t ->
  if (if existsb (Z.eqb instr) inverted then t else negb t)
  then steps 2 (s_c02 s) mem c = Some (goto v2 c) else steps 1 (s_c02 s) mem c = Some (goto (g_pc c + 5) c).
Proof.
  intros I H R M T. apply holds_5 in M as (M0 & M1 & M2 & M3 & M4).
  assert (Hi : has_mode s (invert instr) m_r = true).
  { unfold has_mode, hasg, ops_of in *. apply negb_true_iff, Z.eqb_neq. apply negb_true_iff, Z.eqb_neq in H. apply invert_branch, H. }
  assert (B : 0 <= invert instr < 98 /\ (invert instr < i_bbr0 \/ i_bbs7 < invert instr)).
  { clear -I. cbn [inverted kept_branches app In] in I. repeat (destruct I as [<-|I]; [vm_compute; intuition congruence|]). destruct I. }
  destruct B as [B1 B2]. pose proof (has_branch s _ Hi B1 B2) as D. rewrite <- M0 in D.
  pose proof (step_branch _ _ _ _ _ D (invert_taken _ _ _ I T)) as S1. rewrite M1 in S1. change (signed 3) with 3 in S1.
  set (q := existsb (Z.eqb instr) inverted) in *.
  assert (E : (if q then negb t else t) = negb (if q then t else negb t)) by (destruct q, t; reflexivity).
  rewrite E in S1. destruct (if q then t else negb t); cbn [negb] in S1; cbn [steps]; rewrite S1.
  - assert (P : g_pc (goto (g_pc c + 2) c) = g_pc c + 2) by (cbn [g_pc goto]; apply Z.mod_small; lia).
    rewrite step_jmp by (rewrite P; exact M2). rewrite P.
    replace (g_pc c + 2 + 1) with (g_pc c + 3) by lia. replace (g_pc c + 2 + 2) with (g_pc c + 4) by lia. rewrite M3, M4.
    unfold goto. cbn [g_pc g_x g_y g_n g_v g_z g_c]. unfold byte. do 2 f_equal. lia.
  - do 2 f_equal. lia.
Qed.

(** the statement for the assembler: what is written for a branch out of reach, and what it does *)
Theorem far_branch instr f m e v v2 F s : form_mode f = Some (m, e) -> ready s -> operand_value s e v ->
  sem (value_of s) (s_pc s + 2) e = Some (v2, 0) -> (height e <= F)%nat -> (1 <= F)%nat -> 0 <= s_total s -> (s_final s = true -> no_hole s) ->
  In instr (inverted ++ kept_branches) -> has_mode s instr m_r = true -> 0 <= s_pc s < 65530 ->
  (v - (s_pc s + 2) < -127 \/ 128 < v - (s_pc s + 2)) ->
  exists p s1 s2 bytes, build_op (expand F) instr f s = Ok (Some p) s1 /\ expand (S F) p s1 = Ok 0 s2 /\
    length bytes = 5%nat /\ emits bytes s s2 /\ s_errs s2 = s_errs s /\ (s_final s = true -> s_warns s2 = s_warns s + 1) /\
    (forall n, plain n -> value_of s2 n = value_of s n) /\
    forall mem c t, g_pc c = s_pc s -> holds mem (s_pc s) bytes -> taken instr c = Some t ->
      (In instr inverted -> steps (if t then 2 else 1) (s_c02 s) mem c = Some (goto (if t then v2 else s_pc s + 5) c)) /\
      (In instr kept_branches -> steps (if t then 1 else 2) (s_c02 s) mem c = Some (goto (if t then s_pc s + 5 else v2) c)).
Proof.
  intros Hf Rd OV V2 HF HF1 Ht NH I Hr Rp Rl.
  destruct (far_branch_bytes instr f m e v v2 F s Hf Rd OV V2 HF HF1 Ht NH Hr Rl) as (p & s1 & s2 & E1 & E2 & Em & Er & Wn & Vl).
  exists p, s1, s2, [ops_of s (invert instr) m_r; 3; 76; byte v2; byte (v2 / 256)].
  split; [exact E1|]. split; [exact E2|]. split; [reflexivity|]. split; [exact Em|]. split; [exact Er|]. split; [exact Wn|]. split; [exact Vl|].
  intros mem c t Pc Hd T. rewrite <- Pc in Hd. pose proof (far_branch_runs s instr v2 mem c t I Hr ltac:(lia) Hd T) as Rn. rewrite Pc in Rn.
  split; intros In1.
  - replace (existsb (Z.eqb instr) inverted) with true in Rn by (symmetry; apply existsb_exists; exists instr; split; [exact In1|apply Z.eqb_refl]).
    destruct t; exact Rn.
  - replace (existsb (Z.eqb instr) inverted) with false in Rn
      by (cbn in In1; repeat (destruct In1 as [<-|In1]; [reflexivity|]); destruct In1).
    destruct t; exact Rn.
Qed.
