(** Register loops down to 0 (expand.cc:1094-1239), for any behaviour of the carry flag. *)
From Coq Require Import String Lia.
From Verif Require Import Base BaseProofs Hash Dict DictProofs DictMore Str Opcodes Cpu CpuStep OpcodesProofs Err State Sym Machine Build Pass Prog
  GenX Gen Inv SymProofs SymMore SymEx Sem ExprProofs ExprMore OpProofs OpMore InstrProofs InstrMore FarTwice DataProofs DataMore FillProofs RegLoop RegRun RegEx.
Open Scope list_scope.
Open Scope Z_scope.
Ltac Zify.zify_post_hook ::= Z.div_mod_to_equations.

(** [n] values downwards from [a], 255 after 0 *)
Definition wrapdown (a : Z) (n : nat) : list Z := map (fun i => (a - Z.of_nat i) mod 256) (seq 0 n).
Lemma wrapdown_S a n : wrapdown a (S n) = a mod 256 :: wrapdown (a - 1) n.
Proof.
  unfold wrapdown. cbn [seq map]. rewrite <- seq_shift, map_map. f_equal; [f_equal; lia|]. apply map_ext. intros i. f_equal. lia.
Qed.
Lemma wrapdown_mod a n : wrapdown (a mod 256) n = wrapdown a n.
Proof. unfold wrapdown. apply map_ext. intros i. lia. Qed.
Lemma iter_S {A} (f : A -> A) n x : Nat.iter (S n) f x = Nat.iter n f (f x).
Proof. induction n as [|n IH]; [reflexivity|]. change (f (Nat.iter (S n) f x) = f (Nat.iter n f (f x))). rewrite IH. reflexivity. Qed.

Section Down.
  Context {W : Type} (c02 : bool) (mem : Z -> Z) (isx : bool) (a pc : Z) (bd : list Z) (body : W -> cpu -> W * cpu).
  Context (cy : W -> bool) (nx : W -> W).
  Hypothesis Ha : 0 < a <= 255.
  Hypothesis Hpc : 0 <= pc.
  Hypothesis Hl : pc + Z.of_nat (length bd) + 10 < 65536.
  Hypothesis Nb : bd <> [].
  Hypothesis Hm : holds mem pc (map byte (reg_code isx false a 0 pc bd)).
  Hypothesis Ok : body_ok isx (pc + 2) (length bd) body.
  Hypothesis Cy : forall w c, g_c (snd (body w c)) = cy w.
  Hypothesis Nx : forall w c, fst (body w c) = nx w.
  Let out := pc + Z.of_nat (length (reg_code isx false a 0 pc bd)).
  Lemma turn_down w c : g_pc c = pc + 2 -> 0 <= index isx c <= 255 ->
    exists c', goes c02 mem (pc + 2) isx body [index isx c] w c (nx w) c' /\ index isx c' = (index isx c - 1) mod 256 /\ g_pc c' = (if cy w then pc + 2 else out).
  Proof.
    intros P I. destruct (once c02 mem isx pc bd body Ok w c P) as (w1 & c1 & B1 & G1 & P1 & I1).
    destruct (tail_runs c02 mem isx false a 0 pc bd body w1 c1) as (c2 & G2 & I2 & P2); auto; try lia.
    exists c2. pose proof (Nx w c) as Ew. pose proof (Cy w c) as Ec. rewrite B1 in Ew, Ec. cbn [fst snd] in Ew, Ec. rewrite <- Ew.
    split; [exact (goes_trans _ _ _ _ _ _ [] _ _ _ _ _ _ G1 G2)|]. rewrite I2, P2, I1, Ec. split; reflexivity.
  Qed.
  Lemma down_from j : forall w c, g_pc c = pc + 2 -> 0 <= index isx c <= 255 -> (forall i, (i < j)%nat -> cy (Nat.iter i nx w) = true) ->
    exists c', goes c02 mem (pc + 2) isx body (wrapdown (index isx c) j) w c (Nat.iter j nx w) c' /\ g_pc c' = pc + 2 /\ 0 <= index isx c' <= 255 /\
      index isx c' = (index isx c - Z.of_nat j) mod 256.
  Proof.
    induction j as [|j IH]; intros w c P I H.
    - exists c. split; [apply goes_refl|]. split; [exact P|]. split; [exact I|]. lia.
    - destruct (turn_down w c P I) as (c1 & G1 & I1 & P1). rewrite (H O ltac:(lia) : cy w = true) in P1.
      destruct (IH (nx w) c1 P1) as (c2 & G2 & P2 & J2 & K2); [lia| |].
      { intros i Hi. rewrite <- iter_S. apply H. lia. }
      exists c2. rewrite iter_S. split; [|split; [exact P2|split; [exact J2|lia]]].
      rewrite wrapdown_S, Z.mod_small by lia. rewrite I1, wrapdown_mod in G2. exact (goes_trans _ _ _ _ _ [_] _ _ _ _ _ _ _ G1 G2).
  Qed.
  Lemma wrapdown_snoc n x : wrapdown x (S n) = wrapdown x n ++ [(x - Z.of_nat n) mod 256].
  Proof. unfold wrapdown. rewrite seq_S, map_app. reflexivity. Qed.
  Theorem loop_down_0 j w c : g_pc c = pc -> (forall i, (i < j)%nat -> cy (Nat.iter i nx w) = true) ->
    exists c', goes c02 mem (pc + 2) isx body (wrapdown a (S j)) w c (Nat.iter (S j) nx w) c' /\ g_pc c' = (if cy (Nat.iter j nx w) then pc + 2 else out).
  Proof.
    intros P H. destruct (enter c02 mem isx false a 0 pc bd body ltac:(lia) Hpc Hl Hm Ok w c P) as (c0 & G0 & P0 & I0).
    destruct (down_from j w c0 P0 ltac:(lia) H) as (c1 & G1 & P1 & J1 & K1). destruct (turn_down (Nat.iter j nx w) c1 P1 J1) as (c2 & G2 & I2 & P2).
    exists c2. split; [|exact P2]. rewrite wrapdown_snoc. rewrite I0 in *. rewrite K1 in G2. exact (then_ _ _ _ _ _ _ _ _ _ _ _ _ G0 (goes_trans _ _ _ _ _ _ _ _ _ _ _ _ _ G1 G2)).
  Qed.
End Down.

Theorem reg_loop_down_0 F (isx : bool) a e0 e1 n0 n1 n2 n3 bd p s :
  nth_error (s_nodes s) p = Some (mkNode (KOpr (if isx then ORegX else ORegY)) [n0; n1; n2; n3]) ->
  (height e0 <= S (S F))%nat -> (height e1 <= S (S F))%nat -> tab s -> s_stop s = false ->
  rep (meaning s) false s n0 e0 -> rep (meaning s) false s n1 e1 -> nth_error (s_nodes s) n3 = Some (mkNode (KCon (-1) false) []) ->
  known (meaning s) (s_pc s) e0 a -> known (meaning s) (s_pc s) e1 0 -> 0 < a <= 255 ->
  writing s = true -> no_hole s -> 0 <= s_total s -> counter isx s = 0 -> body_emits (S (S F)) isx n2 bd s ->
  0 <= s_pc s -> s_pc s + Z.of_nat (length bd) + 10 < 65536 -> bd <> [] ->
  exists s' code, expand (S (S (S F))) p s = Ok 0 s' /\ adds code s s' /\
    forall c02 (mem : Z -> Z) (W : Type) (body : W -> cpu -> W * cpu) (carry : W -> bool) (next : W -> W) w c j,
      holds mem (s_pc s) (map byte code) -> body_ok isx (s_pc s + 2) (length bd) body -> g_pc c = s_pc s ->
      (forall w c, g_c (snd (body w c)) = carry w) -> (forall w c, fst (body w c) = next w) ->
      (forall i, (i < j)%nat -> carry (Nat.iter i next w) = true) ->
      exists n c', run c02 mem (s_pc s + 2) isx body n w c = Some (wrapdown a (S j), Nat.iter (S j) next w, c') /\
        g_pc c' = if carry (Nat.iter j next w) then s_pc s + 2 else s_pc s'.
Proof.
  intros N HF0 HF1 T St R0 R1 N3 K0 K1 Ha W NH Tt C B P0 P1 Nb.
  destruct (reg_loop_bytes F isx false a 0 e0 e1 n0 n1 n2 n3 bd p s N HF0 HF1 T St R0 R1 N3 K0 K1 ltac:(lia) ltac:(lia) W NH Tt C B) as (s' & E & A).
  replace (a <? 0) with false in A by lia.
  exists s', (reg_code isx false a 0 (s_pc s) bd). split; [exact E|]. split; [exact A|].
  intros c02 mem V body cy nx w c j Hm Bo Pc Cy Nx H. pose proof (a_pc _ _ _ A) as Pe.
  destruct (loop_down_0 c02 mem isx a (s_pc s) bd body cy nx Ha P0 P1 Nb Hm Bo Cy Nx j w c Pc H) as (c' & (n & Rn) & Pn).
  exists n, c'. split; [exact Rn|]. rewrite Pn, Pe. reflexivity.
Qed.
