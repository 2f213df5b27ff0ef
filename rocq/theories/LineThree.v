(** The effect of a statement on the program counter, the counters and the output. *)
From Coq Require Import String Lia.
From Verif Require Import Base BaseProofs Hash Dict DictProofs DictMore Str Opcodes OpcodesProofs Err State Sym Machine Build Pass
  GenX Gen Inv SymProofs Sem ExprProofs ExprMore OpProofs OpMore InstrProofs InstrMore DataProofs DataMore DefProofs BadProofs DataWalk OpWalk
  Layout LineProofs LineTwo.
Open Scope string_scope.
Open Scope list_scope.
Open Scope Z_scope.
Open Scope m_scope.

(** ** Fields *)
Lemma pc_changed v z : s_changed (set_pc v z) = s_changed z. Proof. destruct z; reflexivity. Qed.
Lemma pc_out v z : s_out (set_pc v z) = s_out z. Proof. destruct z; reflexivity. Qed.
Lemma cg_changed v z : s_changed (set_code_gen v z) = s_changed z. Proof. destruct z; reflexivity. Qed.
Lemma cg_errs v z : s_errs (set_code_gen v z) = s_errs z. Proof. destruct z; reflexivity. Qed.
Lemma cg_pc v z : s_pc (set_code_gen v z) = s_pc z. Proof. destruct z; reflexivity. Qed.
Lemma cg_org_spec v z : s_org_spec (set_code_gen v z) = s_org_spec z. Proof. destruct z; reflexivity. Qed.
Lemma cg_out v z : s_out (set_code_gen v z) = s_out z. Proof. destruct z; reflexivity. Qed.
Lemma cg_total v z : s_total (set_code_gen v z) = s_total z. Proof. destruct z; reflexivity. Qed.
Lemma wn_changed v z : s_changed (set_warns v z) = s_changed z. Proof. destruct z; reflexivity. Qed.
Lemma wn_errs v z : s_errs (set_warns v z) = s_errs z. Proof. destruct z; reflexivity. Qed.
Lemma wn_pc v z : s_pc (set_warns v z) = s_pc z. Proof. destruct z; reflexivity. Qed.
Lemma wn_org_spec v z : s_org_spec (set_warns v z) = s_org_spec z. Proof. destruct z; reflexivity. Qed.
Lemma wn_out v z : s_out (set_warns v z) = s_out z. Proof. destruct z; reflexivity. Qed.
Lemma wn_total v z : s_total (set_warns v z) = s_total z. Proof. destruct z; reflexivity. Qed.
Lemma org_changed z : s_changed (org z) = s_changed z. Proof. unfold org. destruct (_ <? _); auto. Qed.
Lemma org_spec_mono z : s_org_spec z = true -> s_org_spec (org z) = true. Proof. unfold org. destruct (_ <? _); auto. Qed.
Lemma put_changed l z : s_changed (put l z) = s_changed z. Proof. unfold put. destruct z; reflexivity. Qed.
Lemma header_changed z : s_changed (header z) = s_changed z.
Proof. unfold header. destruct (_ && _); [apply put_changed|reflexivity]. Qed.
Lemma writes_changed l z : s_changed (writes l z) = s_changed z.
Proof. unfold writes. destruct (_ && _); [rewrite put_changed; apply header_changed|reflexivity]. Qed.
Lemma writes_out l z : s_opened z && s_org_spec z = true ->
  s_out (writes l z) = rev (map byte l) ++ (if (s_total z =? 0) && s_c64 z then [s_origin z / 256 mod 256; s_origin z mod 256] else []) ++ s_out z /\
  s_total (writes l z) = s_total z + (if (s_total z =? 0) && s_c64 z then 2 else 0) + Z.of_nat (length l).
Proof.
  intros H. unfold writes. rewrite H. rewrite out_put, out_header. split; [reflexivity|].
  unfold put. cbn [s_total set_out set_total]. unfold header. destruct ((s_total z =? 0) && s_c64 z); unfold put; cbn [s_total set_out set_total length Z.of_nat Pos.of_succ_nat Pos.succ]; lia.
Qed.

(** what a statement of the bytes [b] does to the output (last byte first) and to the number of bytes written; the first one also
    writes the load address of a C64 file, even if it has no bytes, unless it is one of those that never have any *)
Definition outs (quiet : bool) (b : list Z) (s o : state) : Prop :=
  if quiet then b = [] /\ s_out o = s_out s /\ s_total o = s_total s
  else s_out o = rev b ++ (if (s_total s =? 0) && s_c64 s then [s_origin s / 256 mod 256; s_origin s mod 256] else []) ++ s_out s /\
       s_total o = s_total s + (if (s_total s =? 0) && s_c64 s then 2 else 0) + Z.of_nat (length b).
(** one statement moves the program counter by [n] and nothing else but the output *)
Record moves (n : Z) (s o : state) : Prop := mkMoves {
  m_fr : fr o = fr s;
  m_errs : s_errs o = s_errs s;
  m_changed : s_changed o = s_changed s;
  m_pc : s_pc o = s_pc s + n;
  m_org : s_org_spec s = true -> s_org_spec o = true
}.
Lemma step_op_moves l s : moves (Z.of_nat (length l)) s (step_op l false s).
Proof.
  constructor.
  - apply fr_step_op.
  - unfold step_op. cbv zeta. rewrite cg_errs, pc_errs. destruct (s_final s); [rewrite (proj1 (proj2 (proj2 (writes_same _ _))))|]; apply org_same.
  - unfold step_op. cbv zeta. rewrite cg_changed, pc_changed. destruct (s_final s); [rewrite writes_changed|]; apply org_changed.
  - unfold step_op. cbv zeta. rewrite cg_pc, pc_pc. destruct (s_final s); [rewrite (proj1 (writes_same _ _))|]; rewrite (proj1 (proj2 (org_same s))); reflexivity.
  - intros H. unfold step_op. cbv zeta. rewrite cg_org_spec, pc_org_spec. apply org_spec_mono in H. destruct (s_final s); [rewrite (proj1 (proj2 (writes_more _ _)))|]; exact H.
Qed.
Lemma step_far_moves a b s : moves 5 s (step_far a b s).
Proof.
  constructor.
  - apply fr_step_far.
  - unfold step_far. cbv zeta. rewrite pc_errs. destruct (s_final s).
    + rewrite wn_errs, (proj1 (proj2 (proj2 (writes_same _ _)))), pc_errs, (proj1 (proj2 (proj2 (writes_same _ _)))). apply org_same.
    + rewrite pc_errs. apply org_same.
  - unfold step_far. cbv zeta. rewrite pc_changed. destruct (s_final s).
    + rewrite wn_changed, writes_changed, pc_changed, writes_changed. apply org_changed.
    + rewrite pc_changed. apply org_changed.
  - unfold step_far. cbv zeta. rewrite pc_pc. destruct (s_final s).
    + rewrite wn_pc, (proj1 (writes_same _ _)), pc_pc, (proj1 (writes_same _ _)), (proj1 (proj2 (org_same s))). lia.
    + rewrite pc_pc, (proj1 (proj2 (org_same s))). lia.
  - intros H. apply org_spec_mono in H. unfold step_far. cbv zeta. rewrite pc_org_spec. destruct (s_final s).
    + rewrite wn_org_spec, (proj1 (proj2 (writes_more _ _))), pc_org_spec, (proj1 (proj2 (writes_more _ _))). exact H.
    + rewrite pc_org_spec. exact H.
Qed.
Lemma data_moves b n size s : moves n s (wout b n (dstart size s)).
Proof.
  constructor.
  - rewrite fr_wout. apply fr_dstart.
  - rewrite wout_errs. reflexivity.
  - unfold wout. rewrite pc_changed. destruct (s_final _); [rewrite writes_changed|]; reflexivity.
  - rewrite wout_pc. reflexivity.
  - intros _. rewrite wout_org_spec. reflexivity.
Qed.
Lemma moves_obs n s o : moves n (obs s) o -> moves n s o.
Proof.
  intros [A B C D E]. constructor.
  - rewrite A. apply fr_of_obs.
  - rewrite B. apply obs_get_errs.
  - rewrite C. apply obs_get_changed.
  - rewrite D, obs_get_pc. reflexivity.
  - intros H. apply E. rewrite obs_get_org_spec. exact H.
Qed.
Lemma step_op_outs l s : s_final s = true -> s_opened s && s_org_spec s = true -> outs false (map byte l) s (step_op l false s).
Proof.
  intros Fn H. unfold outs, step_op. cbv zeta. rewrite Fn, cg_out, pc_out, cg_total, pc_total.
  destruct (org_more s) as (O1 & O2 & O3 & O4 & O5 & O6 & _). destruct (writes_out l (org s)) as [W1 W2].
  { rewrite O4, O5. apply andb_true_iff in H. destruct H as [-> ->]. reflexivity. }
  rewrite W1, W2, O1, O2, O3, O6, map_length. auto.
Qed.
Lemma obs_outs q b s o : outs q b (obs s) o -> outs q b s o.
Proof. unfold outs. rewrite obs_get_out, obs_get_total, obs_get_origin, obs_get_c64. auto. Qed.
Lemma step_far_outs a w s : s_final s = true -> s_opened s && s_org_spec s = true -> 0 <= s_total s ->
  outs false (map byte [a; 3; 76; w; w / 256]) s (step_far a w s).
Proof.
  intros Fn H T0. unfold outs, step_far. cbv zeta. rewrite Fn, pc_out, pc_total, wn_out, wn_total.
  destruct (org_more s) as (O1 & O2 & O3 & O4 & O5 & O6 & _).
  assert (Ho : s_opened (org s) && s_org_spec (org s) = true).
  { rewrite O4, O5. apply andb_true_iff in H. destruct H as [-> ->]. reflexivity. }
  destruct (writes_out [a; 3] (org s) Ho) as [W1 W2].
  set (z := set_pc (s_pc (writes [a; 3] (org s)) + 2) (writes [a; 3] (org s))).
  destruct (writes_more [a; 3] (org s)) as (X1 & X2 & X3 & X4 & _).
  destruct (writes_out [76; w; w / 256] z) as [Z1 Z2].
  { unfold z. rewrite pc_opened, pc_org_spec, X1, X2. exact Ho. }
  assert (Tz : s_total z = s_total s + (if (s_total s =? 0) && s_c64 s then 2 else 0) + 2).
  { unfold z. rewrite pc_total, W2, O2, O3. reflexivity. }
  assert (N0 : (s_total z =? 0) = false).
  { apply Z.eqb_neq. rewrite Tz. destruct ((s_total s =? 0) && s_c64 s); lia. }
  rewrite Z1, Z2, N0. cbn [andb app]. rewrite Tz. unfold z. rewrite pc_out, W1, O1, O2, O3, O6. split; [reflexivity|].
  cbn [length map]. lia.
Qed.
Lemma data_outs b n size s : s_final s = true -> s_opened s = true -> outs false (map byte b) s (wout b n (dstart size s)).
Proof.
  intros Fn H. unfold outs, wout. rewrite pc_out, pc_total.
  assert (E : s_final (dstart size s) = true) by exact Fn. rewrite E.
  destruct (writes_out b (dstart size s)) as [W1 W2].
  { unfold dstart. cbn. rewrite H. reflexivity. }
  rewrite W1, W2, map_length. auto.
Qed.

(** ** Statements *)
Lemma eff_moves Cb pcb C F st s o : okstmt (s_c02 s) (s_ill s) F st -> eff Cb pcb C st s o -> exists n, 0 <= n /\ moves n s o.
Proof.
  intros Ok1. destruct st; cbn [okstmt eff] in *; try contradiction.
  - intros ->. exists 0. split; [lia|]. apply moves_obs. constructor; auto. lia.
  - destruct (form f) as [k|[m e]].
    + intros [-> _]. eexists. split; [|apply moves_obs, step_op_moves]. lia.
    + intros (_ & v & _ & [(_ & _ & ->)|(_ & w & _ & [(_ & _ & ->)|(_ & _ & v2 & _ & ->)])]).
      * eexists. split; [|apply moves_obs, step_op_moves]. lia.
      * eexists. split; [|apply moves_obs, step_op_moves]. lia.
      * exists 5. split; [lia|apply moves_obs, step_far_moves].
  - intros (b & -> & _). eexists. split; [|apply moves_obs, data_moves]. apply isizes_nonneg, Ok1.
Qed.
Lemma value_value_at C pc e : value (fun n => cval (C n)) pc e = value_at C pc e.
Proof. reflexivity. Qed.
(** the size, when the names mean the same as when the statement was built and have values *)
Lemma eff_size C F st s o : okstmt (s_c02 s) (s_ill s) F st -> eff C (s_pc s) C st s o -> stmt_known C st ->
  exists n, stmt_size (s_c02 s) (s_ill s) (fun n => cval (C n)) (s_pc s) st = Some n /\ moves n s o.
Proof.
  intros Ok1. destruct st; cbn [okstmt eff stmt_size stmt_known] in *; try contradiction.
  - intros -> _. exists 0. split; [reflexivity|]. apply moves_obs. constructor; auto. lia.
  - unfold op_size. destruct (form f) as [k|[m e]] eqn:Ef.
    + intros [-> _] _. exists 1. split; [reflexivity|]. apply moves_obs, (step_op_moves [_]).
    + intros (U & v & Kn & Sz) Uk. rewrite Uk in Sz. unfold op_sizes in Sz. rewrite Uk in Sz.
      destruct Sz as [(X & _)|(_ & w & Kw & Sz)]; [discriminate|].
      assert (w = v) as ->. { apply known_value in Kn, Kw. congruence. }
      rewrite value_value_at, (known_value _ _ _ _ Kn).
      pose proof (select_ok (ops_of s instr) m v (form_src _ _ _ (form_inr _ _ _ Ef)) (ops_range s instr) U) as S. cbv zeta in S.
      destruct S as (S1 & S2 & S3 & S4 & S5 & S6 & S7). rewrite S3 in Sz.
      change (has (s_c02 s) (s_ill s) instr) with (hasg (ops_of s instr)).
      assert (Fk : far (fst (build_mode (ops_of s instr) m v false)) (s_pc s) v = far (fst (select (hasg (ops_of s instr)) m v)) (s_pc s) v).
      { unfold far. rewrite S7. destruct (hasg (ops_of s instr) m_r) eqn:Hr.
        - unfold select. rewrite Hr. reflexivity.
        - destruct (fst (select (hasg (ops_of s instr)) m v) =? m_r) eqn:Q; auto. apply Z.eqb_eq in Q. rewrite Q in S6. congruence. }
      rewrite <- Fk.
      destruct Sz as [(Fr & Sn & ->)|(Em & Fr & v2 & _ & ->)].
      * rewrite Fr. eexists. split; [reflexivity|].
        set (k := fst (select (hasg (ops_of s instr)) m v)) in *.
        replace (1 + nbytes k) with (Z.of_nat (length (ops_of s instr k :: operand k (s_pc s) v))); [apply moves_obs, step_op_moves|].
        cbn [length]. rewrite Nat2Z.inj_succ. rewrite operand_length; [lia|].
        apply andb_true_iff in S5. destruct S5 as [S5 _]. apply andb_true_iff in S5. lia.
      * rewrite Em, Fr. eexists. split; [reflexivity|]. apply moves_obs, step_far_moves.
  - intros (b & -> & _) _. eexists. split; [reflexivity|]. apply moves_obs, data_moves.
Qed.
(** the bytes in the final pass *)
Lemma eff_bytes C F st s o : okstmt (s_c02 s) (s_ill s) F st -> eff C (s_pc s) C st s o -> stmt_known C st ->
  s_final s = true -> s_opened s && s_org_spec s = true -> 0 <= s_total s ->
  exists b, stmt_bytes (s_c02 s) (s_ill s) (fun n => cval (C n)) (s_pc s) st = Some b /\ moves (Z.of_nat (length b)) s o /\ outs (silent st) b s o.
Proof.
  intros Ok1 Ef0 Kn0 Fn Op T0. revert Ef0 Kn0. destruct st; cbn [okstmt eff stmt_bytes stmt_known] in *; try contradiction.
  - intros -> _. exists []. split; [reflexivity|]. split; [apply moves_obs; constructor; auto; cbn [length]; lia|].
    unfold outs. cbn [silent]. rewrite obs_get_out, obs_get_total. auto.
  - unfold op_bytes. destruct (form f) as [k|[m e]] eqn:Ef.
    + intros [-> C0] _. exists [ops_of s instr k].
      assert (Hk : has_mode s instr k = true) by (unfold has_mode, hasg; apply negb_true_iff, Z.eqb_neq; lia).
      change (has (s_c02 s) (s_ill s) instr k) with (has_mode s instr k). rewrite Hk. split; [reflexivity|].
      split; [apply moves_obs, step_op_moves|]. rewrite <- (ops_byte _ _ _ Hk) at 1. apply obs_outs.
      apply (step_op_outs [_]); rewrite ?obs_get_final, ?obs_get_opened, ?obs_get_org_spec; auto.
    + intros (U & v & Kn & Sz) Uk. rewrite Uk in Sz. unfold op_sizes in Sz. rewrite Uk in Sz.
      destruct Sz as [(X & _)|(_ & w & Kw & Sz)]; [discriminate|].
      assert (w = v) as ->. { apply known_value in Kn, Kw. congruence. }
      rewrite !value_value_at, (known_value _ _ _ _ Kn).
      pose proof (select_ok (ops_of s instr) m v (form_src _ _ _ (form_inr _ _ _ Ef)) (ops_range s instr) U) as S. cbv zeta in S.
      destruct S as (S1 & S2 & S3 & S4 & S5 & S6 & S7). rewrite S3 in Sz.
      change (has (s_c02 s) (s_ill s) instr) with (hasg (ops_of s instr)).
      assert (Fk : far (fst (build_mode (ops_of s instr) m v false)) (s_pc s) v = far (fst (select (hasg (ops_of s instr)) m v)) (s_pc s) v).
      { unfold far. rewrite S7. destruct (hasg (ops_of s instr) m_r) eqn:Hr.
        - unfold select. rewrite Hr. reflexivity.
        - destruct (fst (select (hasg (ops_of s instr)) m v) =? m_r) eqn:Q; auto. apply Z.eqb_eq in Q. rewrite Q in S6. congruence. }
      change (has_mode s instr) with (hasg (ops_of s instr)) in U. rewrite U.
      destruct Sz as [(Fr & Sn & ->)|(Em & Fr & v2 & Kv2 & ->)].
      * rewrite Fk in Fr. destruct (select (hasg (ops_of s instr)) m v) as [k rf]. cbn [fst snd] in *. subst rf. rewrite Fr.
        eexists. split; [reflexivity|]. rewrite map_length.
        split; [apply moves_obs, step_op_moves|]. apply obs_outs.
        apply step_op_outs; rewrite ?obs_get_final, ?obs_get_opened, ?obs_get_org_spec; auto.
      * rewrite Em in Fk. rewrite Em in S7. rewrite Z.eqb_refl in S7.
        assert (Rf : select (hasg (ops_of s instr)) m v = (m_r, false)) by (unfold select; rewrite <- S7; reflexivity).
        rewrite Rf, Fr. rewrite (known_value _ _ _ _ (Kv2 Fn)). eexists. split; [reflexivity|].
        rewrite map_length. split; [apply moves_obs, step_far_moves|]. apply obs_outs.
        apply step_far_outs; rewrite ?obs_get_final, ?obs_get_opened, ?obs_get_org_spec, ?obs_get_total; auto.
  - intros (b & -> & H) _. destruct (H Fn) as [Hb Hl]. rewrite Hb. eexists. split; [reflexivity|]. rewrite map_length, Hl.
    apply andb_true_iff in Op. split; [apply moves_obs, data_moves|]. apply obs_outs. apply data_outs; rewrite ?obs_get_final, ?obs_get_opened; auto. apply Op.
Qed.
