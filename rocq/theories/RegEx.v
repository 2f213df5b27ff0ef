(** Register loops: examples and programs. *)
From Coq Require Import String Lia.
From Verif Require Import Base BaseProofs Hash Dict DictProofs DictMore Str Opcodes Cpu CpuStep OpcodesProofs Err State Sym Machine Build Pass Prog
  GenX Gen Inv SymProofs SymMore SymEx Sem ExprProofs ExprMore OpProofs OpMore InstrProofs InstrMore FarTwice DataProofs DataMore FillProofs RegLoop RegRun.
Open Scope string_scope.
Open Scope list_scope.
Open Scope Z_scope.

(** an instruction without operand as body *)
Lemma body_implied F isx n instr c k s : 0 <= c < 256 -> nth_error (s_nodes s) n = Some (mkNode (KOp instr c m_i k) []) -> body_emits (S F) isx n [c] s.
Proof.
  intros Rc N s1 H Q St W NH Tt _ _. pose proof (Q _ _ _ _ _ _ N) as Nx.
  destruct (x_op_code0 F s1 n instr c m_i k) as (s2 & E2 & H2 & O2 & _); auto.
  - apply (h_tab _ _ H).
  - split; [discriminate|reflexivity].
  - intros _. apply no_hole_gap, NH.
  - exists 0, s2. rewrite (expand_op _ _ _ _ _ _ _ _ St Nx). split; [exact E2|]. apply adds_step; auto.
Qed.

(** the assembled loop, run *)
Theorem reg_loop F (isx up : bool) a b e0 e1 n0 n1 n2 n3 bd p s :
  nth_error (s_nodes s) p = Some (mkNode (KOpr (if isx then ORegX else ORegY)) [n0; n1; n2; n3]) ->
  (height e0 <= S (S F))%nat -> (height e1 <= S (S F))%nat -> tab s -> s_stop s = false ->
  rep (meaning s) false s n0 e0 -> rep (meaning s) false s n1 e1 -> nth_error (s_nodes s) n3 = Some (mkNode (KCon (if up then 1 else -1) false) []) ->
  known (meaning s) (s_pc s) e0 a -> known (meaning s) (s_pc s) e1 b -> 0 <= a <= 255 -> 0 <= b <= 255 ->
  writing s = true -> no_hole s -> 0 <= s_total s -> counter isx s = 0 -> body_emits (S (S F)) isx n2 bd s ->
  0 <= s_pc s -> s_pc s + Z.of_nat (length bd) + 10 < 65536 -> bd <> [] ->
  (if up then a <= b /\ (a < b -> b < 255) else b <= a /\ (b < a -> 0 < b)) ->
  exists s' code, expand (S (S (S F))) p s = Ok 0 s' /\ adds code s s' /\
    forall c02 (mem : Z -> Z) (W : Type) (body : W -> cpu -> W * cpu) w c,
      holds mem (s_pc s) (map byte code) -> body_ok isx (s_pc s + 2) (length bd) body -> g_pc c = s_pc s ->
      exists n w' c', run c02 mem (s_pc s + 2) isx body n w c = Some (if up then upto a b else downto a b, w', c') /\ g_pc c' = s_pc s'.
Proof.
  intros N HF0 HF1 T St R0 R1 N3 K0 K1 Ha Hb W NH Tt C B P0 P1 Nb Ord.
  destruct (reg_loop_bytes F isx up a b e0 e1 n0 n1 n2 n3 bd p s N HF0 HF1 T St R0 R1 N3 K0 K1 Ha Hb W NH Tt C B) as (s' & E & A).
  replace (if up then b <? a else a <? b) with false in A by (destruct up; lia).
  exists s', (reg_code isx up a b (s_pc s) bd). split; [exact E|]. split; [exact A|].
  intros c02 mem V body w c Hm Bo Pc.
  destruct (loop_runs c02 mem isx up a b (s_pc s) bd body Ha Hb P0 P1 Nb Hm Bo w c Ord Pc) as (w' & c' & (n & Rn) & Pn).
  exists n, w', c'. split; [exact Rn|]. rewrite Pn, (a_pc _ _ _ A). reflexivity.
Qed.
(** upwards to 255, downwards to 0 *)
Theorem reg_loop_ends F (isx up : bool) a b e0 e1 n0 n1 n2 n3 bd p s :
  nth_error (s_nodes s) p = Some (mkNode (KOpr (if isx then ORegX else ORegY)) [n0; n1; n2; n3]) ->
  (height e0 <= S (S F))%nat -> (height e1 <= S (S F))%nat -> tab s -> s_stop s = false ->
  rep (meaning s) false s n0 e0 -> rep (meaning s) false s n1 e1 -> nth_error (s_nodes s) n3 = Some (mkNode (KCon (if up then 1 else -1) false) []) ->
  known (meaning s) (s_pc s) e0 a -> known (meaning s) (s_pc s) e1 b -> 0 <= a <= 255 -> 0 <= b <= 255 ->
  writing s = true -> no_hole s -> 0 <= s_total s -> counter isx s = 0 -> body_emits (S (S F)) isx n2 bd s ->
  0 <= s_pc s -> s_pc s + Z.of_nat (length bd) + 10 < 65536 -> bd <> [] ->
  (if up then a < 255 /\ b = 255 else 0 < a /\ b = 0) ->
  exists s' code, expand (S (S (S F))) p s = Ok 0 s' /\ adds code s s' /\
    forall c02 (mem : Z -> Z) (W : Type) (body : W -> cpu -> W * cpu) w c,
      holds mem (s_pc s) (map byte code) -> body_ok isx (s_pc s + 2) (length bd) body -> g_pc c = s_pc s ->
      if up then exists n w' c', run c02 mem (s_pc s + 2) isx body n w c = Some (upto a 254, w', c') /\ g_pc c' = s_pc s'
      else ((forall w c, g_c (snd (body w c)) = false) ->
              exists n w' c', run c02 mem (s_pc s + 2) isx body n w c = Some ([a], w', c') /\ g_pc c' = s_pc s') /\
           ((forall w c, g_c (snd (body w c)) = true) ->
              exists n w' c', run c02 mem (s_pc s + 2) isx body n w c = Some (downto a 0 ++ [255], w', c')).
Proof.
  intros N HF0 HF1 T St R0 R1 N3 K0 K1 Ha Hb W NH Tt C B P0 P1 Nb Ord.
  destruct (reg_loop_bytes F isx up a b e0 e1 n0 n1 n2 n3 bd p s N HF0 HF1 T St R0 R1 N3 K0 K1 Ha Hb W NH Tt C B) as (s' & E & A).
  replace (if up then b <? a else a <? b) with false in A by (destruct up; lia).
  exists s', (reg_code isx up a b (s_pc s) bd). split; [exact E|]. split; [exact A|].
  intros c02 mem V body w c Hm Bo Pc. pose proof (a_pc _ _ _ A) as Pe.
  destruct up; destruct Ord as [O1 O2].
  - destruct (loop_up_255 c02 mem isx true a b (s_pc s) bd body Ha Hb P0 P1 Nb Hm Bo w c eq_refl O2 O1 Pc) as (w' & c' & (n & Rn) & Pn).
    exists n, w', c'. split; [exact Rn|]. rewrite Pn, Pe. reflexivity.
  - split; intros H.
    + destruct (loop_down_0_clear c02 mem isx false a b (s_pc s) bd body Ha Hb P0 P1 Nb Hm Bo w c eq_refl O2 O1 Pc H) as (w' & c' & (n & Rn) & Pn).
      exists n, w', c'. split; [exact Rn|]. rewrite Pn, Pe. reflexivity.
    + destruct (loop_down_0_set c02 mem isx false a b (s_pc s) bd body Ha Hb P0 P1 Nb Hm Bo w c eq_refl O2 O1 Pc H) as (w' & c' & n & Rn).
      exists n, w', c'. exact Rn.
Qed.
(** the bounds the other way round: nothing *)
Theorem reg_loop_none F (isx up : bool) a b e0 e1 n0 n1 n2 n3 bd p s :
  nth_error (s_nodes s) p = Some (mkNode (KOpr (if isx then ORegX else ORegY)) [n0; n1; n2; n3]) ->
  (height e0 <= S (S F))%nat -> (height e1 <= S (S F))%nat -> tab s -> s_stop s = false ->
  rep (meaning s) false s n0 e0 -> rep (meaning s) false s n1 e1 -> nth_error (s_nodes s) n3 = Some (mkNode (KCon (if up then 1 else -1) false) []) ->
  known (meaning s) (s_pc s) e0 a -> known (meaning s) (s_pc s) e1 b -> 0 <= a <= 255 -> 0 <= b <= 255 ->
  writing s = true -> no_hole s -> 0 <= s_total s -> counter isx s = 0 -> body_emits (S (S F)) isx n2 bd s ->
  (if up then b < a else a < b) ->
  exists s', expand (S (S (S F))) p s = Ok 0 s' /\ s_pc s' = s_pc s /\ s_out s' = s_out s /\ s_errs s' = s_errs s.
Proof.
  intros N HF0 HF1 T St R0 R1 N3 K0 K1 Ha Hb W NH Tt C B Ord.
  destruct (reg_loop_bytes F isx up a b e0 e1 n0 n1 n2 n3 bd p s N HF0 HF1 T St R0 R1 N3 K0 K1 Ha Hb W NH Tt C B) as (s' & E & A).
  replace (if up then b <? a else a <? b) with true in A by (destruct up; lia). destruct A as [_ O].
  exists s'. split; [exact E|]. split; [apply (obs_pc _ _ O)|].
  split; [apply (obs_field s_out _ _ O obs_get_out)|apply (obs_field s_errs _ _ O obs_get_errs)].
Qed.

(** a built loop in the final pass: .FOR .REGX = a .TO b; NOP; .NEXT X *)
Definition reg_st (x up : bool) (a b : Z) : state :=
  match build_stmt (expand 20) false (SForReg x (EInt a) (EInt b) up [(2, SOp i_nop FImp)]) at_end with Ok _ s => s | _ => at_end end.
Lemma reg_st_tab x up a b : In (x, up, a, b) [(true, true, 1, 5); (false, false, 3, 1); (true, true, 250, 255); (false, false, 3, 0); (true, true, 5, 1)] -> tab (reg_st x up a b).
Proof.
  intros [H|[H|[H|[H|[H|[]]]]]]; injection H as <- <- <- <-; 
    (split; [apply table_okb_ok; vm_compute; reflexivity|]; split; [intros k _; apply singleb_ok; vm_compute; reflexivity|];
     intros c H; vm_compute in H; injection H as <-; apply validsb_ok; vm_compute; reflexivity).
Qed.
Lemma reg_st_meets (x up : bool) a b : In (x, up, a, b) [(true, true, 1, 5); (false, false, 3, 1); (true, true, 250, 255); (false, false, 3, 0); (true, true, 5, 1)] -> let s := reg_st x up a b in
  nth_error (s_nodes s) 4 = Some (mkNode (KOpr (if x then ORegX else ORegY)) [0; 1; 2; 3]%nat) /\ tab s /\ s_stop s = false /\
  rep (meaning s) false s 0 (EInt a) /\ rep (meaning s) false s 1 (EInt b) /\
  nth_error (s_nodes s) 3 = Some (mkNode (KCon (if up then 1 else -1) false) []) /\
  known (meaning s) (s_pc s) (EInt a) a /\ known (meaning s) (s_pc s) (EInt b) b /\
  writing s = true /\ no_hole s /\ 0 <= s_total s /\ counter x s = 0 /\
  s_pc s = 8192 /\ forall F, body_emits (S F) x 2 [234] s.
Proof.
  intros I s. pose proof (reg_st_tab _ _ _ _ I) as T. fold s in T.
  assert (N : nth_error (s_nodes s) 4 = Some (mkNode (KOpr (if x then ORegX else ORegY)) [0; 1; 2; 3]%nat) /\ s_stop s = false /\
    nth_error (s_nodes s) 0 = Some (mkNode (KCon a false) []) /\ nth_error (s_nodes s) 1 = Some (mkNode (KCon b false) []) /\
    nth_error (s_nodes s) 2 = Some (mkNode (KOp i_nop 234 m_i 0) []) /\
    nth_error (s_nodes s) 3 = Some (mkNode (KCon (if up then 1 else -1) false) []) /\
    writing s = true /\ s_pc s = 8192 /\ s_origin s = 8192 /\ s_total s = 0 /\ counter x s = 0).
  { destruct I as [H|[H|[H|[H|[H|[]]]]]]; injection H as <- <- <- <-; vm_compute; repeat split. }
  destruct N as (N & St & N0 & N1 & N2 & N3 & W & P & Or & Tt & C).
  split; [exact N|]. split; [exact T|]. split; [exact St|].
  split; [constructor; exact N0|]. split; [constructor; exact N1|]. split; [exact N3|].
  split; [split; reflexivity|]. split; [split; reflexivity|].
  split; [exact W|]. split; [unfold no_hole; lia|]. split; [lia|]. split; [exact C|]. split; [exact P|].
  intros F. eapply body_implied; [lia|exact N2].
Qed.
