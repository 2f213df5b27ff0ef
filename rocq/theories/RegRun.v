(** Running the code of a register loop. *)
From Coq Require Import String Lia.
From Verif Require Import Base BaseProofs Opcodes Cpu CpuStep OpcodesProofs State Machine InstrProofs RegLoop.
Open Scope list_scope.
Open Scope Z_scope.
Ltac Zify.zify_post_hook ::= Z.div_mod_to_equations.

(** The body is a black box between [top] and the instruction after it: [body] says what it does to the registers and to whatever
    else there is ([W]).  [run] follows the processor, and collects the index register at each entry of the body. *)
Fixpoint run {W} (c02 : bool) (mem : Z -> Z) (top : Z) (isx : bool) (body : W -> cpu -> W * cpu) (n : nat) (w : W) (c : cpu) : option (list Z * W * cpu) :=
  match n with
  | O => Some ([], w, c)
  | S k =>
      if g_pc c =? top then
        let (w', c') := body w c in
        match run c02 mem top isx body k w' c' with
        | Some (l, w2, c2) => Some ((if isx then g_x c else g_y c) :: l, w2, c2)
        | None => None
        end
      else match step c02 mem c with Some c' => run c02 mem top isx body k w c' | None => None end
  end.
Definition index (isx : bool) (c : cpu) : Z := if isx then g_x c else g_y c.
(** a body that ends behind itself and keeps the index register *)
Definition body_ok {W} (isx : bool) (top : Z) (len : nat) (body : W -> cpu -> W * cpu) : Prop :=
  forall w c, g_pc c = top -> g_pc (snd (body w c)) = top + Z.of_nat len /\ index isx (snd (body w c)) = index isx c.

(** from [a] up or down to [b] *)
Definition upto (a b : Z) : list Z := map (fun i => a + Z.of_nat i) (seq 0 (Z.to_nat (b - a + 1))).
Definition downto (a b : Z) : list Z := map (fun i => a - Z.of_nat i) (seq 0 (Z.to_nat (a - b + 1))).

Lemma upto_cons a b : a <= b -> upto a b = a :: upto (a + 1) b.
Proof.
  intros H. unfold upto. replace (Z.to_nat (b - a + 1)) with (S (Z.to_nat (b - (a + 1) + 1))) by lia. cbn [seq map]. f_equal; [lia|].
  rewrite <- seq_shift, map_map. apply map_ext. intros. lia.
Qed.
Lemma upto_nil a b : b < a -> upto a b = [].
Proof. intros H. unfold upto. replace (Z.to_nat (b - a + 1)) with O by lia. reflexivity. Qed.
Lemma downto_cons a b : b <= a -> downto a b = a :: downto (a - 1) b.
Proof.
  intros H. unfold downto. replace (Z.to_nat (a - b + 1)) with (S (Z.to_nat (a - 1 - b + 1))) by lia. cbn [seq map]. f_equal; [lia|].
  rewrite <- seq_shift, map_map. apply map_ext. intros. lia.
Qed.
Lemma downto_nil a b : a < b -> downto a b = [].
Proof. intros H. unfold downto. replace (Z.to_nat (a - b + 1)) with O by lia. reflexivity. Qed.

Section Loop.
  Context {W : Type} (c02 : bool) (mem : Z -> Z) (top : Z) (isx : bool) (body : W -> cpu -> W * cpu).
  Definition goes (l : list Z) (w : W) (c : cpu) (w' : W) (c' : cpu) : Prop := exists n, run c02 mem top isx body n w c = Some (l, w', c').

  Lemma run_app n m : forall l1 l2 w c w1 c1 w2 c2, run c02 mem top isx body n w c = Some (l1, w1, c1) -> run c02 mem top isx body m w1 c1 = Some (l2, w2, c2) ->
    run c02 mem top isx body (n + m) w c = Some (l1 ++ l2, w2, c2).
  Proof.
    induction n as [|n IH]; intros l1 l2 w c w1 c1 w2 c2 E1 E2; cbn [run Nat.add] in *.
    - injection E1 as <- <- <-. exact E2.
    - destruct (g_pc c =? top).
      + destruct (body w c) as [w' c']. destruct (run c02 mem top isx body n w' c') as [[[l' wx] cx]|] eqn:E; [|discriminate].
        injection E1 as <- <- <-. rewrite (IH _ _ _ _ _ _ _ _ E E2). reflexivity.
      + destruct (step c02 mem c) as [c'|]; [|discriminate]. apply (IH _ _ _ _ _ _ _ _ E1 E2).
  Qed.
  Lemma goes_refl w c : goes [] w c w c. Proof. exists O. reflexivity. Qed.
  Lemma goes_trans l1 l2 w c w1 c1 w2 c2 : goes l1 w c w1 c1 -> goes l2 w1 c1 w2 c2 -> goes (l1 ++ l2) w c w2 c2.
  Proof. intros (n & E1) (m & E2). exists (n + m)%nat. eapply run_app; eauto. Qed.
  Lemma goes_step w c c' : g_pc c <> top -> step c02 mem c = Some c' -> goes [] w c w c'.
  Proof. intros N E. exists 1%nat. cbn [run]. replace (g_pc c =? top) with false by lia. rewrite E. reflexivity. Qed.
  Lemma goes_body w c w' c' : g_pc c = top -> body w c = (w', c') -> goes [index isx c] w c w' c'.
  Proof. intros N E. exists 1%nat. cbn [run]. replace (g_pc c =? top) with true by lia. rewrite E. reflexivity. Qed.
  Lemma then_ l w c w1 c1 w2 c2 : goes [] w c w1 c1 -> goes l w1 c1 w2 c2 -> goes l w c w2 c2.
  Proof. intros A B. exact (goes_trans [] l _ _ _ _ _ _ A B). Qed.

  (** *** Instructions *)
  Lemma at_hold pc l i v : holds mem pc l -> nth_error l i = Some v -> mem (pc + Z.of_nat i) = v.
  Proof. intros H N. rewrite (H i); [apply (nth_error_nth _ _ _ N)|]. apply nth_error_Some. congruence. Qed.
  Lemma hold_0 pc v l : holds mem pc (v :: l) -> mem pc = v.
  Proof. intros H. rewrite <- (Z.add_0_r pc). apply (at_hold _ _ O v H eq_refl). Qed.
  Lemma hold_1 pc v u l : holds mem pc (u :: v :: l) -> mem (pc + 1) = v.
  Proof. intros H. apply (at_hold _ _ 1%nat v H eq_refl). Qed.
  Lemma hold_app pc l1 l2 : holds mem pc (l1 ++ l2) -> holds mem pc l1 /\ holds mem (pc + Z.of_nat (length l1)) l2.
  Proof.
    intros H. split; intros i L.
    - rewrite (H i) by (rewrite app_length; lia). apply app_nth1. exact L.
    - replace (pc + Z.of_nat (length l1) + Z.of_nat i) with (pc + Z.of_nat (length l1 + i)) by lia. rewrite H by (rewrite app_length; lia).
      rewrite app_nth2 by lia. f_equal. lia.
  Qed.

  Definition put_i (v : Z) : cpu -> cpu := if isx then put_x v else put_y v.
  Lemma step_ld v c : holds mem (g_pc c) [imm_of (if isx then i_ldx else i_ldy); v] -> step c02 mem c = Some (goto (g_pc c + 2) (put_i v c)).
  Proof.
    intros H. unfold step. rewrite (hold_0 _ _ _ H), (hold_1 _ _ _ _ H).
    assert (D : decode c02 (imm_of (if isx then i_ldx else i_ldy)) = Some (if isx then i_ldx else i_ldy, m_I)) by (destruct c02, isx; reflexivity).
    rewrite D. unfold put_i. destruct isx; reflexivity.
  Qed.
  Lemma step_cp v c : holds mem (g_pc c) [imm_of (if isx then i_cpx else i_cpy); v] -> step c02 mem c = Some (goto (g_pc c + 2) (compare (index isx c) v c)).
  Proof.
    intros H. unfold step. rewrite (hold_0 _ _ _ H), (hold_1 _ _ _ _ H).
    assert (D : decode c02 (imm_of (if isx then i_cpx else i_cpy)) = Some (if isx then i_cpx else i_cpy, m_I)) by (destruct c02, isx; reflexivity).
    rewrite D. unfold index. destruct isx; reflexivity.
  Qed.
  Lemma step_next (up : bool) c : holds mem (g_pc c) [imp_of (if up then if isx then i_inx else i_iny else if isx then i_dex else i_dey)] ->
    step c02 mem c = Some (goto (g_pc c + 1) (put_i ((if up then index isx c + 1 else index isx c - 1) mod 256) c)).
  Proof.
    intros H. unfold step. rewrite (hold_0 _ _ _ H).
    assert (D : decode c02 (imp_of (if up then if isx then i_inx else i_iny else if isx then i_dex else i_dey)) =
      Some (if up then if isx then i_inx else i_iny else if isx then i_dex else i_dey, m_i)) by (destruct c02, isx, up; reflexivity).
    rewrite D. unfold put_i, index. destruct isx, up; reflexivity.
  Qed.
  Lemma land_255 x : Z.land x 255 = x mod 256.
  Proof. change 255 with (Z.ones 8). apply Z.land_ones. lia. Qed.
  Lemma goes_branch instr c t w : In instr [i_bcc; i_bcs; i_bne] -> 0 <= top < g_pc c -> g_pc c + 5 < 65536 ->
    holds mem (g_pc c) (map byte (branch_back instr (g_pc c) top)) -> taken instr c = Some t ->
    goes [] w c w (goto (if t then top else g_pc c + Z.of_nat (length (branch_back instr (g_pc c) top))) c).
  Proof.
    intros I R1 R2 H T. unfold branch_back in *. destruct ((128 <? top - (g_pc c + 2)) || (top - (g_pc c + 2) <? -127)) eqn:Fr.
    - cbn [map length Z.of_nat] in *. 
      assert (D : decode c02 (byte (not_of instr)) = Some (invert instr, m_r)) by (destruct I as [<-|[<-|[<-|[]]]]; destruct c02; reflexivity).
      assert (T2 : taken (invert instr) c = Some (negb t)).
      { destruct I as [<-|[<-|[<-|[]]]]; cbn in T |- *; injection T as <-; rewrite ?negb_involutive; reflexivity. }
      assert (S1 : step c02 mem c = Some (goto (if t then g_pc c + 2 else g_pc c + 5) c)).
      { unfold step. rewrite (hold_0 _ _ _ H), (hold_1 _ _ _ _ H), D. change (m_r =? m_r) with true. cbv iota. rewrite T2. destruct t; cbn [negb].
        - reflexivity.
        - f_equal. change (signed (byte 3)) with 3. f_equal. lia. }
      destruct t.
      + eapply then_; [eapply goes_step; [|exact S1]; lia|]. apply goes_step; [unfold goto; cbn [g_pc]; rewrite Z.mod_small; lia|].
        unfold step. assert (Pc : g_pc (goto (g_pc c + 2) c) = g_pc c + 2) by (unfold goto; cbn [g_pc]; apply Z.mod_small; lia). rewrite Pc.
        pose proof (at_hold _ _ 2%nat _ H eq_refl) as M2. pose proof (at_hold _ _ 3%nat _ H eq_refl) as M3. pose proof (at_hold _ _ 4%nat _ H eq_refl) as M4.
        cbn [Z.of_nat Pos.of_succ_nat Pos.succ] in M2, M3, M4. change (byte 76) with 76 in M2. rewrite M2.
        assert (D2 : decode c02 76 = Some (i_jmp, m_a)) by (destruct c02; reflexivity). rewrite D2.
        change (m_a =? m_r) with false. change ((i_jmp =? i_jmp) && (m_a =? m_a)) with true. cbv iota.
        replace (g_pc c + 2 + 1) with (g_pc c + 3) by lia. replace (g_pc c + 2 + 2) with (g_pc c + 4) by lia. rewrite M3, M4.
        unfold goto. cbn [g_x g_y g_n g_v g_z g_c]. do 2 f_equal. unfold byte. lia.
      + apply goes_step; [lia|]. rewrite S1. do 2 f_equal.
    - cbn [map length Z.of_nat] in *. apply orb_false_iff in Fr as [F1 F2].
      assert (D : decode c02 (byte (rel_of instr)) = Some (instr, m_r)) by (destruct I as [<-|[<-|[<-|[]]]]; destruct c02; reflexivity).
      apply goes_step; [lia|]. unfold step. rewrite (hold_0 _ _ _ H), (hold_1 _ _ _ _ H), D. change (m_r =? m_r) with true. cbv iota. rewrite T.
      destruct t; [|reflexivity]. do 2 f_equal. rewrite land_255. unfold byte, signed.
      assert ((top - (g_pc c + 2)) mod 256 mod 256 = top - (g_pc c + 2) + 256) as -> by lia.
      replace (top - (g_pc c + 2) + 256 <? 128) with false by lia. lia.
  Qed.
End Loop.

Lemma index_goto isx p c : index isx (goto p c) = index isx c. Proof. destruct isx; reflexivity. Qed.
Lemma index_put isx v c : index isx (put_i isx v c) = v. Proof. destruct isx; reflexivity. Qed.
Lemma index_cmp isx r v c : index isx (compare r v c) = index isx c. Proof. destruct isx; reflexivity. Qed.
Lemma pc_goto p c : 0 <= p < 65536 -> g_pc (goto p c) = p. Proof. intros. apply Z.mod_small. lia. Qed.
Lemma c_put isx v c : g_c (put_i isx v c) = g_c c. Proof. destruct isx; reflexivity. Qed.

(** does the loop go on, with [i] in the index register and the carry [cy] *)
Definition again (up : bool) (b i : Z) (cy : bool) : bool :=
  if up then if b <? 255 then i <? b + 1 else negb (i =? 255) else if b =? 0 then cy else b <=? i.

Lemma tail_runs {W} c02 mem (isx up : bool) a b pc bd (body : W -> cpu -> W * cpu) w c :
  a <> b -> 0 <= b <= 255 -> 0 <= pc -> pc + Z.of_nat (length bd) + 10 < 65536 -> bd <> [] -> (up = true -> 0 < b) ->
  holds mem pc (map byte (reg_code isx up a b pc bd)) -> g_pc c = pc + 2 + Z.of_nat (length bd) -> 0 <= index isx c <= 255 ->
  let i := (if up then index isx c + 1 else index isx c - 1) mod 256 in
  exists c', goes c02 mem (pc + 2) isx body [] w c w c' /\ index isx c' = i /\
    g_pc c' = (if again up b i (g_c c) then pc + 2 else pc + Z.of_nat (length (reg_code isx up a b pc bd))).
Proof.
  intros Ab Hb Hpc Hl Nb Ub H Pc Hi i. unfold reg_code in *. replace (a =? b) with false in * by lia. cbv zeta in *.
  assert (Lb : (0 < length bd)%nat) by (destruct bd; [contradiction|cbn; lia]).
  set (ld := [imm_of (if isx then i_ldx else i_ldy); a]) in *.
  set (nx := [imp_of (if up then if isx then i_inx else i_iny else if isx then i_dex else i_dey)]) in *.
  set (tst := if b =? 0 then [] else [imm_of (if isx then i_cpx else i_cpy); if up && (b <? 255) then b + 1 else b]) in *.
  set (br := if up then if b <? 255 then i_bcc else i_bne else i_bcs) in *.
  set (code2 := (ld ++ bd) ++ nx ++ tst) in *.
  rewrite map_app in H. apply hold_app in H as [H1 H2]. rewrite map_length in H2.
  assert (Lc : Z.of_nat (length code2) = 2 + Z.of_nat (length bd) + 1 + Z.of_nat (length tst)).
  { unfold code2. rewrite !app_length. unfold ld, nx. cbn [length]. lia. }
  unfold code2 in H1. rewrite map_app in H1. apply hold_app in H1 as [_ H1]. rewrite map_length in H1.
  replace (pc + Z.of_nat (length (ld ++ bd))) with (g_pc c) in H1 by (rewrite app_length; unfold ld; cbn [length]; lia).
  rewrite map_app in H1. apply hold_app in H1 as [Hn Ht]. rewrite map_length in Ht. change (Z.of_nat (length nx)) with 1 in Ht.
  assert (Hn' : holds mem (g_pc c) nx). { assert (map byte nx = nx) as <-; [|exact Hn]. unfold nx. destruct up, isx; reflexivity. }
  pose proof (step_next c02 mem isx up c Hn') as S1. fold i in S1. set (c1 := goto (g_pc c + 1) (put_i isx i c)) in *.
  assert (P1 : g_pc c1 = g_pc c + 1) by (apply pc_goto; lia).
  assert (I1 : index isx c1 = i) by (unfold c1; rewrite index_goto, index_put; reflexivity).
  assert (Ir : 0 <= i < 256) by (unfold i; apply Z.mod_pos_bound; lia).
  assert (X : exists c2, goes c02 mem (pc + 2) isx body [] w c1 w c2 /\ index isx c2 = i /\ g_pc c2 = g_pc c1 + Z.of_nat (length tst) /\
     taken br c2 = Some (again up b i (g_c c))).
  { unfold tst in *. destruct (b =? 0) eqn:B0.
    - exists c1. split; [apply goes_refl|]. split; [exact I1|]. split; [cbn [length Z.of_nat]; lia|].
      destruct up; [specialize (Ub eq_refl); lia|]. unfold br, again. rewrite B0. cbn. unfold c1. destruct isx; reflexivity.
    - set (v := if up && (b <? 255) then b + 1 else b) in *.
      assert (Hv : 0 <= v <= 255) by (unfold v; destruct up, (b <? 255) eqn:?; cbn [andb]; lia).
      assert (Ht' : holds mem (g_pc c1) [imm_of (if isx then i_cpx else i_cpy); v]).
      { rewrite P1. assert (E : map byte [imm_of (if isx then i_cpx else i_cpy); v] = [imm_of (if isx then i_cpx else i_cpy); v]).
        { cbn [map]. f_equal; [destruct isx; reflexivity|]. f_equal. unfold byte. apply Z.mod_small. lia. }
        rewrite <- E. exact Ht. }
      pose proof (step_cp c02 mem isx v c1 Ht') as S2. rewrite I1 in S2. eexists. split; [apply goes_step; [lia|exact S2]|].
      split; [rewrite index_goto, index_cmp; exact I1|]. split; [rewrite pc_goto; cbn [length]; lia|].
      unfold br, again, v. destruct up; cbn [andb].
      + destruct (b <? 255) eqn:B5.
        * cbn. f_equal. lia.
        * cbn. f_equal. f_equal. assert (b = 255) as -> by lia. lia.
      + rewrite B0. cbn. reflexivity. }
  destruct X as (c2 & G2 & I2 & P2 & T2).
  assert (P2' : g_pc c2 = pc + Z.of_nat (length code2)) by lia.
  assert (Lt : (length tst <= 2)%nat) by (unfold tst; destruct (b =? 0); cbn [length]; lia).
  rewrite <- P2' in H2.
  assert (Ib : In br [i_bcc; i_bcs; i_bne]) by (unfold br; destruct up, (b <? 255); cbn; auto).
  pose proof (goes_branch c02 mem (pc + 2) isx body br c2 _ w Ib ltac:(lia) ltac:(lia) H2 T2) as G3.
  eexists. split; [|split].
  - eapply then_; [apply goes_step; [|exact S1]; lia|]. eapply then_; [exact G2|]. exact G3.
  - rewrite index_goto. exact I2.
  - assert (Lr : (length (branch_back br (g_pc c2) (pc + 2)) <= 5)%nat) by (unfold branch_back; destruct (_ || _); cbn [length]; lia).
    rewrite app_length, <- P2'. destruct (again up b i (g_c c)); rewrite pc_goto; lia.
Qed.

Section Runs.
  Context {W : Type} (c02 : bool) (mem : Z -> Z) (isx up : bool) (a b pc : Z) (bd : list Z) (body : W -> cpu -> W * cpu).
  Hypothesis Ha : 0 <= a <= 255.
  Hypothesis Hb : 0 <= b <= 255.
  Hypothesis Hpc : 0 <= pc.
  Hypothesis Hl : pc + Z.of_nat (length bd) + 10 < 65536.
  Hypothesis Nb : bd <> [].
  Hypothesis Hm : holds mem pc (map byte (reg_code isx up a b pc bd)).
  Hypothesis Ok : body_ok isx (pc + 2) (length bd) body.
  Let out := pc + Z.of_nat (length (reg_code isx up a b pc bd)).

  Lemma enter w c : g_pc c = pc -> exists c', goes c02 mem (pc + 2) isx body [] w c w c' /\ g_pc c' = pc + 2 /\ index isx c' = a.
  Proof.
    intros P. assert (H : holds mem (g_pc c) [imm_of (if isx then i_ldx else i_ldy); a]).
    { rewrite P. assert (E : map byte [imm_of (if isx then i_ldx else i_ldy); a] = [imm_of (if isx then i_ldx else i_ldy); a]).
      { cbn [map]. f_equal; [destruct isx; reflexivity|]. f_equal. unfold byte. apply Z.mod_small. lia. }
      rewrite <- E. unfold reg_code in Hm. cbv zeta in Hm. destruct (a =? b).
      - rewrite map_app in Hm. apply hold_app in Hm as [X _]. exact X.
      - rewrite <- !app_assoc, map_app in Hm. apply hold_app in Hm as [X _]. exact X. }
    pose proof (step_ld c02 mem isx a c H) as S1. eexists. split; [apply goes_step; [lia|exact S1]|].
    split; [rewrite pc_goto; lia|]. rewrite index_goto, index_put. reflexivity.
  Qed.
  Lemma once w c : g_pc c = pc + 2 -> exists w' c', body w c = (w', c') /\ goes c02 mem (pc + 2) isx body [index isx c] w c w' c' /\
    g_pc c' = pc + 2 + Z.of_nat (length bd) /\ index isx c' = index isx c.
  Proof. intros P. destruct (Ok w c P) as [O1 O2]. destruct (body w c) as [w' c'] eqn:E. exists w', c'. split; [reflexivity|]. split; [apply goes_body; auto|auto]. Qed.

  (** one turn *)
  Lemma turn w c : a <> b -> (up = true -> 0 < b) -> g_pc c = pc + 2 -> 0 <= index isx c <= 255 ->
    let i := (if up then index isx c + 1 else index isx c - 1) mod 256 in
    exists w' c', goes c02 mem (pc + 2) isx body [index isx c] w c w' c' /\ index isx c' = i /\
      g_pc c' = (if again up b i (g_c (snd (body w c))) then pc + 2 else out).
  Proof.
    intros N U P R i. destruct (once w c P) as (w1 & c1 & B1 & G1 & P1 & I1).
    destruct (tail_runs c02 mem isx up a b pc bd body w1 c1 N Hb Hpc Hl Nb U Hm P1 ltac:(lia)) as (c2 & G2 & I2 & P2).
    rewrite I1 in I2, P2. exists w1, c2. rewrite B1. cbn [snd]. split; [|split; [exact I2|exact P2]].
    exact (goes_trans _ _ _ _ _ [_] [] _ _ _ _ _ _ G1 G2).
  Qed.

  Lemma up_runs : up = true -> a < b -> b < 255 -> forall n i w c, Z.of_nat n = b - i -> a <= i <= b -> g_pc c = pc + 2 -> index isx c = i ->
    exists w' c', goes c02 mem (pc + 2) isx body (upto i b) w c w' c' /\ g_pc c' = out.
  Proof.
    intros U L B. induction n as [|n IH]; intros i w c Hn Hi P Ic.
    - destruct (turn w c) as (w1 & c1 & G1 & I1 & P1); try lia. rewrite U in *. exists w1, c1. rewrite Ic in *.
      rewrite upto_cons, upto_nil by lia. split; [exact G1|]. rewrite P1. unfold again. replace (b <? 255) with true by lia.
      replace ((i + 1) mod 256 <? b + 1) with false; [reflexivity|]. rewrite Z.mod_small by lia. lia.
    - destruct (turn w c) as (w1 & c1 & G1 & I1 & P1); try lia. rewrite U in *. rewrite Ic in *.
      unfold again in P1. replace (b <? 255) with true in P1 by lia. rewrite Z.mod_small in * by lia. replace (i + 1 <? b + 1) with true in P1 by lia.
      destruct (IH (i + 1) w1 c1) as (w2 & c2 & G2 & P2); auto; try lia. exists w2, c2. split; [|exact P2].
      rewrite upto_cons by lia. exact (goes_trans _ _ _ _ _ [i] _ _ _ _ _ _ _ G1 G2).
  Qed.
  Lemma down_runs : up = false -> b < a -> 0 < b -> forall n i w c, Z.of_nat n = i - b -> b <= i <= a -> g_pc c = pc + 2 -> index isx c = i ->
    exists w' c', goes c02 mem (pc + 2) isx body (downto i b) w c w' c' /\ g_pc c' = out.
  Proof.
    intros U L B. induction n as [|n IH]; intros i w c Hn Hi P Ic.
    - destruct (turn w c) as (w1 & c1 & G1 & I1 & P1); try lia. rewrite U in *. exists w1, c1. rewrite Ic in *.
      rewrite downto_cons, downto_nil by lia. split; [exact G1|]. rewrite P1. unfold again. replace (b =? 0) with false by lia.
      rewrite Z.mod_small by lia. replace (b <=? i - 1) with false by lia. reflexivity.
    - destruct (turn w c) as (w1 & c1 & G1 & I1 & P1); try lia. rewrite U in *. rewrite Ic in *.
      unfold again in P1. replace (b =? 0) with false in P1 by lia. rewrite Z.mod_small in * by lia. replace (b <=? i - 1) with true in P1 by lia.
      destruct (IH (i - 1) w1 c1) as (w2 & c2 & G2 & P2); auto; try lia. exists w2, c2. split; [|exact P2].
      rewrite downto_cons by lia. exact (goes_trans _ _ _ _ _ [i] _ _ _ _ _ _ _ G1 G2).
  Qed.

  (** the loop visits every value from [a] to [b], and ends *)
  Theorem loop_runs w c : (if up then a <= b /\ (a < b -> b < 255) else b <= a /\ (b < a -> 0 < b)) -> g_pc c = pc ->
    exists w' c', goes c02 mem (pc + 2) isx body (if up then upto a b else downto a b) w c w' c' /\ g_pc c' = out.
  Proof.
    intros C P. destruct (enter w c P) as (c0 & G0 & P0 & I0).
    destruct (Z.eq_dec a b) as [E|E].
    - destruct (once w c0 P0) as (w1 & c1 & B1 & G1 & P1 & I1). exists w1, c1. rewrite I0 in G1.
      split; [|unfold out, reg_code; replace (a =? b) with true by lia; rewrite app_length; cbn [length]; lia].
      eapply then_; [exact G0|]. rewrite <- E.
      assert ((if up then upto a a else downto a a) = [a]) as ->; [|exact G1].
      destruct up; [rewrite upto_cons, upto_nil by lia|rewrite downto_cons, downto_nil by lia]; reflexivity.
    - assert (U : up = true \/ up = false) by (destruct up; auto). destruct U as [U|U]; rewrite U in C; rewrite U.
      + destruct (up_runs U ltac:(lia) ltac:(lia) (Z.to_nat (b - a)) a w c0) as (w' & c' & G & Q); try lia; auto.
        exists w', c'. split; [eapply then_; eauto|exact Q].
      + destruct (down_runs U ltac:(lia) ltac:(lia) (Z.to_nat (a - b)) a w c0) as (w' & c' & G & Q); try lia; auto.
        exists w', c'. split; [eapply then_; eauto|exact Q].
  Qed.

  (** upwards to 255: the last value is left out *)
  Lemma up_255_from : up = true -> b = 255 -> a < 255 -> forall n i w c, Z.of_nat n = 254 - i -> a <= i <= 254 -> g_pc c = pc + 2 -> index isx c = i ->
    exists w' c', goes c02 mem (pc + 2) isx body (upto i 254) w c w' c' /\ g_pc c' = out.
  Proof.
    intros U B L. induction n as [|n IH]; intros i w c Hn Hi P Ic.
    - destruct (turn w c) as (w1 & c1 & G1 & I1 & P1); try lia. rewrite U, Ic in *. exists w1, c1.
      rewrite upto_cons, upto_nil by lia. split; [exact G1|]. rewrite P1. unfold again. replace (b <? 255) with false by lia.
      assert (i = 254) as -> by lia. reflexivity.
    - destruct (turn w c) as (w1 & c1 & G1 & I1 & P1); try lia. rewrite U, Ic in *.
      unfold again in P1. replace (b <? 255) with false in P1 by lia. rewrite Z.mod_small in * by lia. replace (i + 1 =? 255) with false in P1 by lia.
      destruct (IH (i + 1) w1 c1) as (w2 & c2 & G2 & P2); auto; try lia. exists w2, c2. split; [|exact P2].
      rewrite upto_cons by lia. exact (goes_trans _ _ _ _ _ [i] _ _ _ _ _ _ _ G1 G2).
  Qed.
  Theorem loop_up_255 w c : up = true -> b = 255 -> a < 255 -> g_pc c = pc ->
    exists w' c', goes c02 mem (pc + 2) isx body (upto a 254) w c w' c' /\ g_pc c' = out.
  Proof.
    intros U B L P. destruct (enter w c P) as (c0 & G0 & P0 & I0).
    destruct (up_255_from U B L (Z.to_nat (254 - a)) a w c0) as (w' & c' & G & Q); try lia; auto.
    exists w', c'. split; [eapply then_; eauto|exact Q].
  Qed.
  (** downwards to 0 the carry the body leaves decides: clear, and the body has run once *)
  Theorem loop_down_0_clear w c : up = false -> b = 0 -> 0 < a -> g_pc c = pc -> (forall w c, g_c (snd (body w c)) = false) ->
    exists w' c', goes c02 mem (pc + 2) isx body [a] w c w' c' /\ g_pc c' = out.
  Proof.
    intros U B L P Cy. destruct (enter w c P) as (c0 & G0 & P0 & I0).
    destruct (turn w c0) as (w1 & c1 & G1 & I1 & P1); try lia; auto; [rewrite U; discriminate|].
    rewrite U, I0 in *. unfold again in P1. replace (b =? 0) with true in P1 by lia. rewrite Cy in P1.
    exists w1, c1. split; [eapply then_; eauto|exact P1].
  Qed.
  (** set, and it goes on behind 0 with 255 *)
  Lemma down_0_from : up = false -> b = 0 -> 0 < a -> (forall w c, g_c (snd (body w c)) = true) ->
    forall n i w c, Z.of_nat n = i -> i <= a -> g_pc c = pc + 2 -> index isx c = i ->
    exists w' c', goes c02 mem (pc + 2) isx body (downto i 0) w c w' c' /\ g_pc c' = pc + 2 /\ index isx c' = 255.
  Proof.
    intros U B L Cy. induction n as [|n IH]; intros i w c Hn Hi P Ic.
    - destruct (turn w c) as (w1 & c1 & G1 & I1 & P1); try lia; [rewrite U; discriminate|]. rewrite U, Ic in *. exists w1, c1.
      rewrite downto_cons, downto_nil by lia. split; [exact G1|]. rewrite I1, P1. unfold again. replace (b =? 0) with true by lia. rewrite Cy.
      assert (i = 0) as -> by lia. auto.
    - destruct (turn w c) as (w1 & c1 & G1 & I1 & P1); try lia; [rewrite U; discriminate|]. rewrite U, Ic in *.
      unfold again in P1. replace (b =? 0) with true in P1 by lia. rewrite Cy in P1. rewrite Z.mod_small in * by lia.
      destruct (IH (i - 1) w1 c1) as (w2 & c2 & G2 & P2); auto; try lia. exists w2, c2. split; [|exact P2].
      rewrite downto_cons by lia. exact (goes_trans _ _ _ _ _ [i] _ _ _ _ _ _ _ G1 G2).
  Qed.
  Theorem loop_down_0_set w c : up = false -> b = 0 -> 0 < a -> g_pc c = pc -> (forall w c, g_c (snd (body w c)) = true) ->
    exists w' c', goes c02 mem (pc + 2) isx body (downto a 0 ++ [255]) w c w' c'.
  Proof.
    intros U B L P Cy. destruct (enter w c P) as (c0 & G0 & P0 & I0).
    destruct (down_0_from U B L Cy (Z.to_nat a) a w c0) as (w1 & c1 & G & P1 & I1); try lia; auto.
    destruct (once w1 c1 P1) as (w2 & c2 & _ & G2 & _). rewrite I1 in G2.
    exists w2, c2. eapply then_; [exact G0|]. eapply goes_trans; eauto.
  Qed.
End Runs.
