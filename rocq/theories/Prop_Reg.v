(** Register loops (expand.cc:1094-1239), see properties.jsonl.
    [p] is the node of a loop over X or Y ([isx]), upwards or downwards ([up]), whose bounds are the expressions [e0] and [e1]
    with the values [a] and [b], and whose body [n2] assembles to the bytes [bd]; [s] is a state of the final pass with
    the output open.  The processor is the one of CpuStep.v; the body is a black box that ends behind itself and
    keeps the index register ([body_ok]); [run] collects the index register each time the body is entered. *)
From Coq Require Import String Lia.
From Verif Require Import Base BaseProofs Hash Dict DictProofs DictMore Str Opcodes Cpu CpuStep OpcodesProofs Err State Sym Machine Build Pass Prog
  GenX Gen Inv SymProofs SymMore SymEx Sem ExprProofs ExprMore OpProofs OpMore InstrProofs InstrMore FarTwice DataProofs DataMore FillProofs RegLoop RegRun RegEx RegDown.
Open Scope string_scope.
Open Scope list_scope.
Open Scope Z_scope.

(** ** C33 *)
(** Whenever the last value is below 255 (upwards) or above 0 (downwards), or the loop has a single turn: the bytes
    written, executed from their address, run the body for every value from [a] to [b] in turn, each once, and
    then go on behind the loop. *)
Theorem C33_visits_partial : forall F (isx up : bool) a b e0 e1 n0 n1 n2 n3 bd p s,
  nth_error (s_nodes s) p = Some (mkNode (KOpr (if isx then ORegX else ORegY)) [n0; n1; n2; n3]) ->
  (height e0 <= S (S F))%nat -> (height e1 <= S (S F))%nat -> tab s -> s_stop s = false ->
  rep (meaning s) false s n0 e0 -> rep (meaning s) false s n1 e1 -> nth_error (s_nodes s) n3 = Some (mkNode (KCon (if up then 1 else -1) false) []) ->
  known (meaning s) (s_pc s) e0 a -> known (meaning s) (s_pc s) e1 b -> 0 <= a <= 255 -> 0 <= b <= 255 ->
  writing s = true -> no_hole s -> 0 <= s_total s -> counter isx s = 0 -> body_emits (S (S F)) isx n2 bd s ->
  0 <= s_pc s -> s_pc s + Z.of_nat (length bd) + 10 < 65536 -> bd <> [] ->
  (if up then a <= b /\ (a < b -> b < 255) else b <= a /\ (b < a -> 0 < b)) ->
  exists s' code, expand (S (S (S F))) p s = Ok 0 s' /\ adds code s s' /\
    forall c02 (mem : Z -> Z) (W : Type) (body : W -> cpu -> W * cpu) w c,
      holds mem (s_pc s) (map byte code) -> body_ok isx (s_pc s + 2) (length bd) body -> g_pc c = s_pc s ->
      exists n w' c', run c02 mem (s_pc s + 2) isx body n w c = Some (if up then upto a b else downto a b, w', c') /\ g_pc c' = s_pc s'.
Proof. exact reg_loop. Qed.
Print Assumptions C33_visits_partial.

(** The full statement has no bound on the last value, and fails there: a loop up to 255 leaves out 255; a loop down to 0
    depends on the carry flag the body leaves, and runs the body either once, or for 255 after 0. *)
Theorem C33_refuted : forall F (isx up : bool) a b e0 e1 n0 n1 n2 n3 bd p s,
  nth_error (s_nodes s) p = Some (mkNode (KOpr (if isx then ORegX else ORegY)) [n0; n1; n2; n3]) ->
  (height e0 <= S (S F))%nat -> (height e1 <= S (S F))%nat -> tab s -> s_stop s = false ->
  rep (meaning s) false s n0 e0 -> rep (meaning s) false s n1 e1 -> nth_error (s_nodes s) n3 = Some (mkNode (KCon (if up then 1 else -1) false) []) ->
  known (meaning s) (s_pc s) e0 a -> known (meaning s) (s_pc s) e1 b -> 0 <= a <= 255 -> 0 <= b <= 255 ->
  writing s = true -> no_hole s -> 0 <= s_total s -> counter isx s = 0 -> body_emits (S (S F)) isx n2 bd s ->
  0 <= s_pc s -> s_pc s + Z.of_nat (length bd) + 10 < 65536 -> bd <> [] ->
  (if up then a < 255 /\ b = 255 else 0 < a /\ b = 0) ->
  exists s' code, expand (S (S (S F))) p s = Ok 0 s' /\ adds code s s' /\
    forall c02 (mem : Z -> Z) (W : Type) (body : W -> cpu -> W * cpu) w c,
      holds mem (s_pc s) (map byte code) -> body_ok isx (s_pc s + 2) (length bd) body -> g_pc c = s_pc s ->
      if up then exists n w' c', run c02 mem (s_pc s + 2) isx body n w c = Some (upto a 254, w', c') /\ g_pc c' = s_pc s'
      else ((forall w c, g_c (snd (body w c)) = false) ->
              exists n w' c', run c02 mem (s_pc s + 2) isx body n w c = Some ([a], w', c') /\ g_pc c' = s_pc s') /\
           ((forall w c, g_c (snd (body w c)) = true) ->
              exists n w' c', run c02 mem (s_pc s + 2) isx body n w c = Some (downto a 0 ++ [255], w', c')).
Proof. exact reg_loop_ends. Qed.
Print Assumptions C33_refuted.

(** Down to 0 in general: [carry] is the carry flag the body leaves, which may depend on all the body knows ([W]), and [next] what the body does
    to that.  As long as the carry was set the first [j] times, the body is entered for [a], [a-1], ..., 0, 255, 254, ...; the first time it is clear
    the loop ends, whatever the index. *)
Theorem C33_down_to_0 : forall F (isx : bool) a e0 e1 n0 n1 n2 n3 bd p s,
  nth_error (s_nodes s) p = Some (mkNode (KOpr (if isx then ORegX else ORegY)) [n0; n1; n2; n3]) ->
  (height e0 <= S (S F))%nat -> (height e1 <= S (S F))%nat -> tab s -> s_stop s = false ->
  rep (meaning s) false s n0 e0 -> rep (meaning s) false s n1 e1 -> nth_error (s_nodes s) n3 = Some (mkNode (KCon (-1) false) []) ->
  known (meaning s) (s_pc s) e0 a -> known (meaning s) (s_pc s) e1 0 -> 0 < a <= 255 ->
  writing s = true -> no_hole s -> 0 <= s_total s -> counter isx s = 0 -> body_emits (S (S F)) isx n2 bd s ->
  0 <= s_pc s -> s_pc s + Z.of_nat (length bd) + 10 < 65536 -> bd <> [] ->
  exists s' code, expand (S (S (S F))) p s = Ok 0 s' /\ adds code s s' /\
    forall c02 (mem : Z -> Z) (W : Type) (body : W -> cpu -> W * cpu) (carry : W -> bool) (next : W -> W) w c j,
      holds mem (s_pc s) (map byte code) -> body_ok isx (s_pc s + 2) (length bd) body -> g_pc c = s_pc s ->
      (forall w c, g_c (snd (body w c)) = carry w) -> (forall w c, fst (body w c) = next w) ->
      (forall i, (i < j)%nat -> carry (Nat.iter i next w) = true) ->
      exists n c', run c02 mem (s_pc s + 2) isx body n w c = Some (wrapdown a (S j), Nat.iter (S j) next w, c') /\
        g_pc c' = if carry (Nat.iter j next w) then s_pc s + 2 else s_pc s'.
Proof. exact reg_loop_down_0. Qed.
Print Assumptions C33_down_to_0.
(** With the bounds the wrong way round no code is written, and no error reported. *)
Theorem C33_empty : forall F (isx up : bool) a b e0 e1 n0 n1 n2 n3 bd p s,
  nth_error (s_nodes s) p = Some (mkNode (KOpr (if isx then ORegX else ORegY)) [n0; n1; n2; n3]) ->
  (height e0 <= S (S F))%nat -> (height e1 <= S (S F))%nat -> tab s -> s_stop s = false ->
  rep (meaning s) false s n0 e0 -> rep (meaning s) false s n1 e1 -> nth_error (s_nodes s) n3 = Some (mkNode (KCon (if up then 1 else -1) false) []) ->
  known (meaning s) (s_pc s) e0 a -> known (meaning s) (s_pc s) e1 b -> 0 <= a <= 255 -> 0 <= b <= 255 ->
  writing s = true -> no_hole s -> 0 <= s_total s -> counter isx s = 0 -> body_emits (S (S F)) isx n2 bd s ->
  (if up then b < a else a < b) ->
  exists s', expand (S (S (S F))) p s = Ok 0 s' /\ s_pc s' = s_pc s /\ s_out s' = s_out s /\ s_errs s' = s_errs s.
Proof. exact reg_loop_none. Qed.
Print Assumptions C33_empty.

(** The hypotheses are met by the loops the parser builds for [.for .regx = a .to b], [nop], [.next x]. *)
Example C33_example : forall x up a b, In (x, up, a, b) [(true, true, 1, 5); (false, false, 3, 1); (true, true, 250, 255); (false, false, 3, 0); (true, true, 5, 1)] ->
  let s := reg_st x up a b in
  nth_error (s_nodes s) 4 = Some (mkNode (KOpr (if x then ORegX else ORegY)) [0; 1; 2; 3]%nat) /\ tab s /\ s_stop s = false /\
  rep (meaning s) false s 0 (EInt a) /\ rep (meaning s) false s 1 (EInt b) /\
  nth_error (s_nodes s) 3 = Some (mkNode (KCon (if up then 1 else -1) false) []) /\
  known (meaning s) (s_pc s) (EInt a) a /\ known (meaning s) (s_pc s) (EInt b) b /\
  writing s = true /\ no_hole s /\ 0 <= s_total s /\ counter x s = 0 /\
  s_pc s = 8192 /\ forall F, body_emits (S F) x 2 [234] s.
Proof. exact reg_st_meets. Qed.
(** A body: the processor's own [nop]. *)
Example C33_body : forall isx, body_ok isx 8194 1 (fun (w : unit) c => (w, goto (g_pc c + 1) c)).
Proof. intros isx w c H. cbn. rewrite H. split; [reflexivity|destruct isx; reflexivity]. Qed.
(** A body that leaves the carry set five times, and then clear: entered for 3, 2, 1, 0, 255 and 254. *)
Definition five (w : nat) (c : cpu) : nat * cpu := (S w, mkCpu (g_pc c + 1) (g_x c) (g_y c) (g_n c) (g_v c) (g_z c) (w <? 5)%nat).
Example C33_carry_body : body_ok false 8194 1 five /\ (forall w c, g_c (snd (five w c)) = (w <? 5)%nat) /\ (forall w c, fst (five w c) = S w) /\
  (forall i, (i < 5)%nat -> (Nat.iter i S 0 <? 5)%nat = true) /\ (Nat.iter 5 S 0 <? 5)%nat = false /\ wrapdown 3 6 = [3; 2; 1; 0; 255; 254].
Proof.
  split; [intros w c H; cbn; rewrite H; split; reflexivity|]. split; [reflexivity|]. split; [reflexivity|].
  split; [intros i H; do 5 (destruct i as [|i]; [reflexivity|]); lia|]. split; reflexivity.
Qed.
(** whole programs *)
Example C33_program_x : option_map (fun u => (u_code u, u_bytes u, u_errs u)) (Prog.run [".org $1000"; ".for .regx = 1 .to 5"; "nop"; ".next x"; "rts"]) =
  Some (0, [162;1;234;232;224;6;144;250;96], 0).
Proof. vm_compute. reflexivity. Qed.
Example C33_program_255 : option_map (fun u => (u_code u, u_bytes u, u_errs u)) (Prog.run [".org $1000"; ".for .regx = 250 .to 255"; "nop"; ".next x"; "rts"]) =
  Some (0, [162;250;234;232;224;255;208;250;96], 0).
Proof. vm_compute. reflexivity. Qed.
Example C33_program_0 : option_map (fun u => (u_code u, u_bytes u, u_errs u)) (Prog.run [".org $1000"; ".for .regy = 3 .downto 0"; "nop"; ".next y"; "rts"]) =
  Some (0, [160;3;234;136;176;252;96], 0).
Proof. vm_compute. reflexivity. Qed.
