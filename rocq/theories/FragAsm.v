(** assemble on the programs of the fragment. *)
From Coq Require Import String Lia.
From Verif Require Import Base BaseProofs Hash Dict DictProofs DictMore Str Opcodes OpcodesProofs Err State Sym Machine Build Pass
  GenX Gen Inv SymProofs SymMore Sem ListRel ExprProofs ExprMore OpProofs OpMore InstrProofs InstrMore DataProofs DataMore DefProofs BadProofs DataWalk OpWalk
  Colon Layout LineProofs LineTwo LineThree LineFour LineFive PassProofs Frag FragPass FragProg.
Open Scope string_scope.
Open Scope list_scope.
Open Scope Z_scope.
Open Scope m_scope.

Lemma init_good cfg c02 ill c64 : good (start (init_state cfg c02 ill c64)).
Proof.
  assert (D : forall n, dl (start (init_state cfg c02 ill c64)) n = None).
  { intros n. unfold dl, dlookup. cbn [fst snd]. destruct (dict_search _ n) as [[|a]|]; reflexivity. }
  constructor; try reflexivity.
  - split; [apply table_okb_ok; vm_compute; reflexivity|]. split; [|discriminate]. intros k _. apply singleb_ok. vm_compute. reflexivity.
  - intros _ [|p]; discriminate.
  - intros n _. unfold meaning, resolve. cbn [s_scope start init_state set_errs set_list set_line set_final set_pass]. rewrite D. exists 0, false. reflexivity.
  - intros n _ _. unfold meaning, resolve. cbn [s_scope start init_state set_errs set_list set_line set_final set_pass]. rewrite D. reflexivity.
  - intros k _ _. apply D.
  - intros n y _ X. rewrite D in X. discriminate.
Qed.

(** the analysis passes leave the print state *)
Lemma loop_print F k : forall s cl s', pass_loop F k s = Ok cl s' -> s_final s = false -> s_pstate s' = s_pstate s.
Proof.
  induction k as [|k IH]; intros s cl s' H Hf; [discriminate|]. rewrite pass_loop_S in H. destruct (parse_pass F s) as [u s1|c s1| |] eqn:E; try discriminate.
  assert (X : s_pstate s1 = s_pstate s /\ s_final s1 = false).
  { rewrite parse_pass_eq in E. destruct (parse_files F _ (reset_lex s)) as [u2 s2| | |] eqn:E2; try discriminate. injection E as _ <-.
    pose proof (parse_files_out _ _ _ _ (ok_ends _ _ _ _ E2)) as [[(_ & X1 & _) (l & k0 & _ & _ & _ & _ & _ & A6 & _)] _].
    change (s_pstate (after_pass s2)) with (s_pstate s2). change (s_final (after_pass s2)) with (s_final s2). rewrite X1. split; [|exact Hf].
    apply (A6 Hf). }
  destruct X as [X1 X2]. cbv zeta in H. destruct (_ && _ && negb _); [|injection H as _ <-; exact X1]. rewrite <- X1. exact (IH _ _ _ H X2).
Qed.
Section Prog.
Variables (c02 ill c64 : bool) (cfg : config) (F : nat) (prog : list tline).
Hypothesis F1 : (1 <= F)%nat.
Hypothesis Files : all_lines cfg (g_inputs cfg) prog.
Hypothesis OK : Forall (okl c02 ill F) prog.
Notation ffa := (fun fin op => (c02, ill, c64, fin, op, false, 0, @nil (cstr * Z), cfg)).
Notation tinv := (table_inv c02 ill c64 cfg prog).
Notation start_ := (start (init_state cfg c02 ill c64)).

Lemma init_inv : tinv start_.
Proof.
  pose proof (init_good cfg c02 ill c64) as G.
  assert (N : forall m, cinit (meaning start_ m) = false).
  { intros m. unfold meaning, resolve. cbn [s_scope start init_state set_errs set_list set_line set_final set_pass].
    assert (dl start_ m = None) as ->; [|reflexivity]. unfold dl, dlookup. cbn [fst snd]. destruct (dict_search _ m) as [[|a]|]; reflexivity. }
  split; [exact G|]. split; [reflexivity|]. split; [reflexivity|]. split; [left; auto|]. split; [|reflexivity]. intros m _ I. rewrite N in I. discriminate.
Qed.
Lemma undefined_never_clean l n : In l prog -> In n (need_names (t_stmt l)) -> (forall l' m, In l' prog -> ldef l' = Some m -> fk m <> fk n) ->
  forall s', ends (assemble (S F)) (init_state cfg c02 ill c64) s' -> s_out s' = [] /\ forall r, assemble (S F) (init_state cfg c02 ill c64) = Ok r s' -> r = -1.
Proof.
  intros Hl Hn Un s' E. destruct (assemble_cases _ _ _ E) as [(_ & O & _ & R)|(s1 & s0 & u & E1 & _ & Cl & _)]; [split; [exact O|exact R]|]. exfalso.
  destruct (loop_settled c02 ill c64 cfg F prog F1 Files OK 20 _ _ _ init_inv E1 (proj1 Cl)) as ((_ & _ & _ & _ & Dom & _) & _ & N).
  assert (Pn : plain n). { rewrite Forall_forall in OK. apply (line_names_plain c02 ill F l); auto. unfold line_names. apply in_or_app. right. apply need_stmt, Hn. }
  destruct (Dom n Pn (proj1 (N Cl) l n Hl Hn)) as (l' & m & A & B & D). apply (Un l' m A B). auto.
Qed.

Lemma final_is_pass s cl s1 s' : pass_loop (S F) 20 (start s) = Ok cl s1 -> assemble (S F) s = Ok 0 s' -> exists u, parse_pass (S F) (open_out s1) = Ok u s'.
Proof.
  intros E1 E. rewrite assemble_eq, E1 in E. destruct (max_passes <=? s_pass s1); [discriminate|]. destruct (0 <? s_errs s1); [discriminate|]. destruct (_ && _); [discriminate|].
  destruct (parse_pass (S F) (open_out s1)) as [u' s2| | |]; try discriminate. injection E as ->. eauto.
Qed.
Lemma open_ff s1 : g_out cfg = true -> ff (reset_lex s1) = ffa false false -> ff (reset_lex (open_out s1)) = ffa true true.
Proof.
  intros Go Ef. destruct (ffa_parts c02 ill c64 cfg _ _ _ Ef) as (X1 & X2 & X3 & X4 & X5 & X6 & X7 & X8 & X9).
  change (ff (reset_lex (open_out s1))) with (s_c02 (reset_lex s1), s_ill (reset_lex s1), s_c64 (reset_lex s1), true, g_out (s_cfg (reset_lex s1)), s_skip (reset_lex s1), 0, @nil (cstr * Z), s_cfg (reset_lex s1)).
  rewrite X1, X2, X3, X6, X9, Go. reflexivity.
Qed.
Definition laid (pre : list tline) (o : Z) (body : list tline) (s1 s' : state) : Prop :=
  exists bytes h,
    layout c02 ill (env s1) 4096 pre [] /\ layout c02 ill (env s1) o body bytes /\ rev (s_out s') = h ++ bytes /\
    h = (if c64 && negb (forallb (fun l => silent (t_stmt l)) body) then [o mod 256; o / 256 mod 256] else []) /\
    s_pc s' = o + Z.of_nat (length bytes) /\ s_pc s1 = s_pc s' /\ (forall n, plain n -> env s' n = env s1 n) /\
    (s_list s1 = [] -> s_pstate s1 = 1 -> listed (s_list s') = bytes /\ Forall (stated 1) (s_list s') /\ all_blocks cfg (g_inputs cfg) (rev (s_list s')) /\
       addressed o (rev (s_list s')) /\ exists lb, lined c02 ill (env s1) o body lb /\ bytes = concat (map snd lb) /\ spread lb (rev (s_list s'))).
Definition named (s1 : state) : Prop :=
    (forall n m, plain n -> plain m -> fk n = fk m -> env s1 n = env s1 m) /\
    (forall n, plain n -> (forall l m, In l prog -> ldef l = Some m -> fk m <> fk n) -> env s1 n = 0) /\
    (forall l n, In l prog -> In n (need_names (t_stmt l)) -> exists l' m, In l' prog /\ ldef l' = Some m /\ fk m = fk n).
Lemma settled_named s1 : settled c02 ill c64 cfg prog s1 -> clean_state s1 -> named s1.
Proof.
  intros (I & D & N) Cl. destruct (N Cl) as [Nd _]. destruct I as (G & Out & Tot & _ & Dom & Ef). split; [|split].
  - intros n m Pn Pm Efk. unfold env. rewrite (fk_meaning s1 n m (g_scope _ G) Efk Pn Pm (g_tab _ G)). reflexivity.
  - intros n Pn Un. unfold env. destruct (cinit (meaning s1 n)) eqn:In1.
    + exfalso. destruct (Dom n Pn In1) as (l & m & A & B & K). apply (Un l m A B). auto.
    + pose proof (g_raw _ G n Pn In1) as Rw. destruct (g_clean _ G n Pn) as (v & i & Ec). rewrite Ec in *. cbn in *. subst. reflexivity.
  - intros l n Hl Hn. assert (Pn : plain n). { rewrite Forall_forall in OK. apply (line_names_plain c02 ill F l); auto. unfold line_names. apply in_or_app. right. apply need_stmt, Hn. }
    destruct (Dom n Pn (Nd l n Hl Hn)) as (l' & m & A & B & K). eauto 6.
Qed.
Lemma good_open s1 : good s1 -> good (open_out s1).
Proof. intros G. apply (good_frame s1); auto; apply G. Qed.
Lemma settled_laid pre ol o body s1 u s' : settled c02 ill c64 cfg prog s1 -> clean_state s1 -> anchored prog s1 -> g_out cfg = true -> prog = pre ++ ol :: body ->
  Forall (fun l => bare l /\ silent (t_stmt l) = true) pre -> move_of ol = Some (EInt o) -> Forall bare body ->
  parse_pass (S F) (open_out s1) = Ok u s' -> s_errs s' = 0 -> laid pre o body s1 s'.
Proof.
  intros (I & D & N) Cl An Go Ep Sp Eo Bb E3 Er. destruct (N Cl) as [_ Ft]. destruct Ft as [Ft _]. destruct (Ft An) as [Ft' Pe]. destruct I as (G & Out & Tot & _ & _ & Ef).
  pose proof (good_open s1 G) as G1. pose proof (open_ff s1 Go Ef) as Ef1.
  assert (Ag : agree (meaning s1) (open_out s1)) by (intros m _; reflexivity).
  destruct (final_pass c02 ill c64 cfg F prog F1 Files OK (meaning s1) pre ol (EInt o) o body (open_out s1) u s' Ep Sp Eo eq_refl Bb G1 Ef1 Out Tot Ag Ft' E3 Er) as (bytes & h & L1 & L2 & L3 & L4 & L5 & Pf & L6 & L7).
  exists bytes, h. split; [exact L1|]. split; [exact L2|]. split; [exact L3|]. split; [exact L4|]. split; [exact L5|]. split; [rewrite Pe, Pf; reflexivity|].
  split; [intros n Pn; unfold env; rewrite L6; auto|exact L7].
Qed.
Lemma assemble_loop s' : assemble (S F) (init_state cfg c02 ill c64) = Ok 0 s' ->
  exists s1, pass_loop (S F) 20 start_ = Ok true s1 /\ clean_state s1.
Proof.
  intros E. destruct (assemble_cases _ _ _ (ok_ends _ _ _ _ E)) as [(_ & _ & _ & R)|(s1 & s0 & u & E1 & _ & Cl & _)].
  - specialize (R 0 E). discriminate R.
  - exists s1. split; [exact E1|exact Cl].
Qed.
Lemma loop_start k cl s1 : pass_loop (S F) k start_ = Ok cl s1 -> clean_state s1 -> settled c02 ill c64 cfg prog s1.
Proof. intros E Cl. exact (loop_settled c02 ill c64 cfg F prog F1 Files OK k _ _ _ init_inv E (proj1 Cl)). Qed.
Lemma single_positive pre ol o body : prog = pre ++ ol :: body -> Forall (fun l => bare l /\ silent (t_stmt l) = true) pre -> org_of ol = Some o -> 1 <= o -> Forall bare body -> Forall positive prog.
Proof.
  intros -> Sp Eo Po Bb. assert (B : forall l, bare l -> positive l) by (intros l B e X; unfold bare in B; congruence).
  apply Forall_app. split; [revert Sp; apply Forall_impl; intros l [X _]; auto|]. constructor; [|revert Bb; apply Forall_impl; auto].
  intros e M C pc v _ V. apply org_move in Eo. rewrite Eo in M. injection M as <-. injection V as <-. exact Po.
Qed.
Lemma assemble_layout pre ol o body s' : (exists l n, In l prog /\ t_label l = Some n) \/ (forall l n, In l prog -> ldef l = Some n -> False) -> g_out cfg = true -> prog = pre ++ ol :: body ->
  Forall (fun l => bare l /\ silent (t_stmt l) = true) pre -> org_of ol = Some o -> 1 <= o -> Forall bare body ->
  assemble (S F) (init_state cfg c02 ill c64) = Ok 0 s' -> s_errs s' = 0 ->
  exists s1, pass_loop (S F) 20 start_ = Ok true s1 /\ clean_state s1 /\ laid pre o body s1 s' /\ named s1 /\ s_list s1 = [] /\ s_pstate s1 = 1.
Proof.
  intros An Go Ep Sp Eo Po Bb E Er. destruct (assemble_loop s' E) as (s1 & E1 & Cl). pose proof (loop_start _ _ _ E1 Cl) as St.
  destruct (final_is_pass _ _ _ _ E1 E) as (u & E3). exists s1. split; [exact E1|]. split; [exact Cl|].
  pose proof (settled_anchored c02 ill c64 cfg prog s1 St Cl (single_positive pre ol o body Ep Sp Eo Po Bb) An) as An1.
  split; [exact (settled_laid pre ol o body s1 u s' St Cl An1 Go Ep Sp (org_move _ _ Eo) Bb E3 Er)|]. split; [exact (settled_named s1 St Cl)|].
  split; [apply (pass_loop_ok _ _ _ _ _ E1); reflexivity|exact (loop_print _ _ _ _ _ E1 eq_refl)].
Qed.
End Prog.
