(** Data directives, stated without the helpers of the proofs; programs that show the limits. *)
From Coq Require Import String Lia.
From Verif Require Import Base BaseProofs Hash Dict DictProofs DictMore Str Opcodes OpcodesProofs Err State Sym Machine Build Pass Prog
  GenX Gen Inv SymProofs SymEx Sem ExprProofs ExprMore OpProofs OpMore InstrProofs InstrMore FarTwice DataProofs.
Open Scope string_scope.
Open Scope list_scope.
Open Scope Z_scope.
Open Scope m_scope.
Ltac Zify.zify_post_hook ::= Z.div_mod_to_equations.

(** items that can be evaluated: plain names with values, no && and ||; strings without bad escapes *)
Definition data_item (s : state) (i : item) : Prop :=
  match i with
  | IExpr e => wfe e = true /\ plain_names s e /\ eager e = true /\
      forall n, In n (names e) -> exists y, resolve s (s_scope s) n = Some y /\ y_init y = true
  | IStr raw => text_of raw <> None
  end.
(** bytes [b] written (in the final pass with the file open; a C64 file starts with the load address); the output is
    kept last byte first *)
Definition data_written (b : list Z) (s s' : state) : Prop :=
  s_out s' = (if s_final s && s_opened s
              then rev (map byte b) ++ (if (s_total s =? 0) && s_c64 s then [s_origin s / 256 mod 256; s_origin s mod 256] else []) ++ s_out s
              else s_out s).

Lemma data_item_plain s i : data_item s i -> item_plain s i /\ item_eager i = true /\ item_unknown (meaning s) i = false.
Proof.
  destruct i as [e|raw]; cbn [data_item item_plain item_eager].
  - intros (W & P & E & I). split; [split; [exact W|apply plain_names_expr, P]|]. split; [exact E|].
    unfold item_unknown, inner, unknown_name.
    enough (existsb (fun n => cuninit (meaning s n)) (names e) = false) as -> by (destruct e; reflexivity).
    destruct (existsb (fun n => cuninit (meaning s n)) (names e)) eqn:X; [|reflexivity].
    apply existsb_exists in X. destruct X as (n & Hn & U). destruct (I n Hn) as (y & R & Yi).
    unfold meaning, core, cuninit, ycore in U. rewrite R, Yi in U. revert U. cbn.
    destruct (y_mparam y || y_mname y); discriminate.
  - intros H. split; [exact H|]. split; reflexivity.
Qed.
Lemma item_value_ext e en en' pc : (forall n, en n = en' n) -> item_value_at en pc e = item_value_at en' pc e.
Proof. intros H. unfold item_value_at. rewrite (sem_ext e en en' pc); auto. Qed.
Lemma items_size_ext size en en' l : (forall n, en n = en' n) -> forall pc, items_size en size pc l = items_size en' size pc l.
Proof.
  intros H. induction l as [|i l IH]; intros pc; [reflexivity|]. cbn [items_size].
  assert (X : item_size en size pc i = item_size en' size pc i) by (destruct i as [e|raw]; cbn [item_size]; [rewrite (item_value_ext e en en' pc H)|]; reflexivity).
  rewrite X. destruct (item_size en' size pc i); [rewrite IH|]; reflexivity.
Qed.
Lemma items_bytes_ext size en en' l : (forall n, en n = en' n) -> forall pc, items_bytes en size pc l = items_bytes en' size pc l.
Proof.
  intros H. induction l as [|i l IH]; intros pc; [reflexivity|]. cbn [items_bytes].
  assert (X : item_size en size pc i = item_size en' size pc i) by (destruct i as [e|raw]; cbn [item_size]; [rewrite (item_value_ext e en en' pc H)|]; reflexivity).
  assert (Y : item_bytes en size pc i = item_bytes en' size pc i) by (destruct i as [e|raw]; cbn [item_bytes]; [rewrite (item_value_ext e en en' pc H)|]; reflexivity).
  rewrite X, Y. destruct (item_size en' size pc i); [|reflexivity]. destruct (item_bytes en' size pc i); [rewrite IH|]; reflexivity.
Qed.
Lemma forallb_all {A} (f : A -> bool) l : (forall x, In x l -> f x = true) -> forallb f l = true.
Proof. intros H. apply forallb_forall, H. Qed.
Lemma hole_gap s : no_hole s -> data_gap s.
Proof. unfold no_hole, data_gap. intros H _. unfold header. destruct ((s_total s =? 0) && s_c64 s); [unfold put; cbn [s_total set_out set_total]; cbn [length]; lia|exact H]. Qed.

Lemma ds_errs e z : s_errs (set_ety e (set_org_spec true z)) = s_errs z. Proof. reflexivity. Qed.
Lemma ds_out e z : s_out (set_ety e (set_org_spec true z)) = s_out z. Proof. reflexivity. Qed.
Lemma pc_out v z : s_out (set_pc v z) = s_out z. Proof. reflexivity. Qed.

Theorem data_list first size l F s n b : ready s -> In size [0; 1; 2] -> l <> [] -> (forall i, In i l -> data_item s i) -> (list_fuel l <= F)%nat ->
  (s_final s = true -> no_hole s) -> 0 <= s_total s ->
  items_size (value_of s) size (s_pc s) l = Some n -> items_bytes (value_of s) size (s_pc s) l = Some b ->
  exists p s1 s2, build_stmt (expand (S F)) first (SData size l) s = Ok (Some p) s1 /\ expand (S F) p s1 = Ok 0 s2 /\
    s_pc s2 = s_pc s + n /\ data_written b s s2 /\ s_errs s2 = s_errs s /\ (forall n, plain n -> value_of s2 n = value_of s n).
Proof.
  intros Rd Sz L P HF G Tt Si By. destruct (ready_tab s Rd) as [T St].
  assert (P1 : forall i, In i l -> item_plain s i) by (intros i Hi; apply data_item_plain, P, Hi).
  assert (P2 : forallb item_eager l = true) by (apply forallb_all; intros i Hi; apply data_item_plain with (s := s), P, Hi).
  assert (P3 : forallb (fun i => negb (item_unknown (meaning s) i)) l = true).
  { apply forallb_all. intros i Hi. apply negb_true_iff. apply data_item_plain, P, Hi. }
  rewrite (items_size_ext size _ _ l (value_of_env s)) in Si. rewrite (items_bytes_ext size _ _ l (value_of_env s)) in By.
  destruct (s_final s) eqn:Fi.
  - destruct (data_final first size l F s n b T St L Sz P1 P2 P3 HF Fi (hole_gap _ (G eq_refl)) Tt Si By) as (p & s1 & s2 & E1 & _ & _ & E2 & H & O & _).
    exists p, s1, s2. split; [exact E1|]. split; [exact E2|]. split; [rewrite <- (obs_get_pc s2), O; apply pc_pc|].
    destruct (writes_same b (set_ety (dety size) (set_org_spec true (obs s)))) as (_ & _ & M3 & _).
    split; [|split; [rewrite <- (obs_get_errs s2), O, pc_errs, M3, ds_errs; apply obs_get_errs|intros k Hk; apply value_of_hv; auto]].
    unfold data_written. rewrite Fi, <- (obs_get_out s2), O, pc_out. cbn [andb].
    generalize (obs_get_opened s) (obs_get_total s) (obs_get_c64 s) (obs_get_origin s) (obs_get_out s). generalize (obs s). intros z Z1 Z2 Z3 Z4 Z5.
    unfold writes. change (s_opened (set_ety (dety size) (set_org_spec true z))) with (s_opened z).
    change (s_org_spec (set_ety (dety size) (set_org_spec true z))) with true. rewrite andb_true_r, Z1.
    destruct (s_opened s); [|exact Z5]. rewrite out_put, out_header.
    change (s_total (set_ety (dety size) (set_org_spec true z))) with (s_total z). change (s_c64 (set_ety (dety size) (set_org_spec true z))) with (s_c64 z).
    change (s_origin (set_ety (dety size) (set_org_spec true z))) with (s_origin z). change (s_out (set_ety (dety size) (set_org_spec true z))) with (s_out z).
    rewrite Z2, Z3, Z4, Z5. reflexivity.
  - destruct (data_analysis first size l F s n T St L Sz P1 P2 HF Fi Si) as (p & s1 & s2 & E1 & _ & _ & E2 & H & O).
    exists p, s1, s2. split; [exact E1|]. split; [exact E2|]. split; [rewrite <- (obs_get_pc s2), O; apply pc_pc|].
    split; [|split; [rewrite <- (obs_get_errs s2), O, pc_errs, ds_errs; apply obs_get_errs|intros k Hk; apply value_of_hv; auto]].
    unfold data_written. rewrite Fi. cbn [andb]. rewrite <- (obs_get_out s2), O, pc_out, ds_out. apply obs_get_out.
Qed.
Theorem data_range first size l F s n : ready s -> In size [0; 1; 2] -> l <> [] -> (forall i, In i l -> data_item s i) -> (list_fuel l <= F)%nat ->
  s_final s = true -> s_opened s = true -> no_hole s -> 0 <= s_total s ->
  items_size (value_of s) size (s_pc s) l = Some n -> items_bytes (value_of s) size (s_pc s) l = None ->
  exists p s1, build_stmt (expand (S F)) first (SData size l) s = Ok (Some p) s1 /\
    match expand (S F) p s1 with Ok _ s2 | Exit _ s2 => s_errs s < s_errs s2 | _ => True end.
Proof.
  intros Rd Sz L P HF Fi Op G Tt Si By. destruct (ready_tab s Rd) as [T St].
  assert (P1 : forall i, In i l -> item_plain s i) by (intros i Hi; apply data_item_plain, P, Hi).
  assert (P2 : forallb item_eager l = true) by (apply forallb_all; intros i Hi; apply data_item_plain with (s := s), P, Hi).
  assert (P3 : forallb (fun i => negb (item_unknown (meaning s) i)) l = true).
  { apply forallb_all. intros i Hi. apply negb_true_iff. apply data_item_plain, P, Hi. }
  rewrite (items_size_ext size _ _ l (value_of_env s)) in Si. rewrite (items_bytes_ext size _ _ l (value_of_env s)) in By.
  destruct (data_bad first size l F s n T St L Sz P1 P2 P3 HF Fi Op (hole_gap _ G) Tt Si By) as (p & s1 & E1 & _ & _ & B).
  exists p, s1. split; [exact E1|]. destruct (expand (S F) p s1); auto; lia.
Qed.

(** the step of the program counter is the number of bytes, except for values below -65280 in .STR *)
Lemma value_step_len size v : In size [0; 1; 2] -> value_fits size v = true -> size <> 0 \/ -65280 <= v ->
  value_step size v = Z.of_nat (length (value_bytes size v)).
Proof.
  intros Sz Fv N. unfold value_step, value_bytes, value_fits in *.
  destruct Sz as [<-|[<-|[<-|[]]]]; cbn [Z.eqb Pos.eqb andb length] in *; try lia.
  destruct ((0 <=? v) && (v <=? 255)) eqn:B; cbn [length]; destruct (v / 256 mod 256 =? 0) eqn:E; lia.
Qed.
Theorem data_step env size l : In size [1; 2] -> forall pc n b, items_size env size pc l = Some n -> items_bytes env size pc l = Some b ->
  n = Z.of_nat (length b).
Proof.
  intros Sz. induction l as [|i l IH]; intros pc n b; cbn [items_size items_bytes].
  - intros [= <-] [= <-]. reflexivity.
  - destruct (item_size env size pc i) as [k|] eqn:K; [|discriminate]. destruct (items_size env size (pc + k) l) as [m|] eqn:M; [|discriminate].
    destruct (item_bytes env size pc i) as [c|] eqn:Ci; [|discriminate]. destruct (items_bytes env size (pc + k) l) as [r|] eqn:Br; [|discriminate].
    intros [= <-] [= <-]. rewrite app_length, Nat2Z.inj_add, <- (IH _ _ _ M Br). f_equal.
    destruct i as [e|raw]; cbn [item_size item_bytes] in *.
    + destruct (item_value_at env pc e) as [v|]; [|discriminate]. destruct (value_fits size v) eqn:Vf; [|discriminate].
      injection K as <-. injection Ci as <-. apply value_step_len; auto; [|left]; destruct Sz as [<-|[<-|[]]]; cbn; auto; discriminate.
    + destruct (text_of raw) as [t|]; [|discriminate]. congruence.
Qed.

(** programs *)
Lemma w43_undefined : exists u, run ["  .org $1000"; "  .byte foo"] = Some u /\ u_code u = 0 /\ u_errs u = 0 /\ u_bytes u = [0].
Proof. eexists. split; [vm_compute; reflexivity|]. repeat split; reflexivity. Qed.
Lemma w24_str : exists u, run ["  .org $1000"; "  .str -65534"; "l nop"; "  .word l"] = Some u /\ u_code u = 0 /\ u_errs u = 0 /\
  u_bytes u = [2; 0; 234; 1; 16].
Proof. eexists. split; [vm_compute; reflexivity|]. repeat split; reflexivity. Qed.
Lemma w24_ds : exists u, run ["  .org $1000"; "  nop"; "  .ds 4"; "l nop"; "  .word l"] = Some u /\ u_exit u = true /\ u_code u = -1 /\
  u_bytes u = [234].
Proof. eexists. split; [vm_compute; reflexivity|]. repeat split; reflexivity. Qed.
Lemma w24_ds_c64 : exists u, run_c64 ["  .org $1000"; "  nop"; "  .ds 2"; "l nop"; "  .word l"] = Some u /\ u_code u = 0 /\ u_errs u = 0 /\
  u_bytes u = [0; 16; 234; 234; 3; 16].
Proof. eexists. split; [vm_compute; reflexivity|]. repeat split; reflexivity. Qed.
Lemma w24_range : exists u, run ["  .org $1000"; "  nop"; "  .byte 256"; "  nop"] = Some u /\ u_exit u = true /\ u_code u = -1 /\ u_bytes u = [234].
Proof. eexists. split; [vm_compute; reflexivity|]. repeat split; reflexivity. Qed.

(** a list in the state [at_end]: x0 = 5 *)
Definition items_ex : list item := [IExpr (EInt 1); IExpr e_small; IStr (cs """a\n"""); IExpr (EUn OUminus (EInt 2)); IExpr (EUn OLo EPc)].
Lemma items_ex_ok i : In i items_ex -> data_item at_end i.
Proof.
  assert (N : forall e, wfe e = true -> eager e = true -> names e = [] -> data_item at_end (IExpr e)).
  { intros e W E Ne. split; [exact W|]. split; [|split; [exact E|]]; intros k Hk; rewrite Ne in Hk; destruct Hk. }
  intros [<-|[<-|[<-|[<-|[<-|[]]]]]]; try (apply N; reflexivity).
  - destruct v_small as (W & P & E & _ & I & _). exact (conj W (conj P (conj E I))).
  - change (text_of (cs """a\n""") <> None). vm_compute. discriminate.
Qed.

(** ** Bytes written and the advance of the program counter *)
(** the bytes added to the output (after the load address of a C64 file, when nothing has been written) are as many as
    the program counter has advanced by *)
Definition balanced (s s' : state) : Prop :=
  exists l, s_pc s' = s_pc s + Z.of_nat (length l) /\
    s_out s' = l ++ (if (s_total s =? 0) && s_c64 s then [s_origin s / 256 mod 256; s_origin s mod 256] else []) ++ s_out s.

Lemma emits_balanced l s s' : s_final s && s_opened s && (s_org_spec s || (0 <? s_pc_assigned s)) = true -> emits l s s' -> balanced s s'.
Proof. intros W (P & O). rewrite W in O. exists (rev l). rewrite rev_length. split; assumption. Qed.

Theorem balanced_instruction instr f m e v F s : form_mode f = Some (m, e) -> ready s -> operand_value s e v -> (height e <= F)%nat ->
  usable (has_mode s instr) m = true -> no_hole s -> s_final s && s_opened s && (s_org_spec s || (0 <? s_pc_assigned s)) = true ->
  (fst (select (has_mode s instr) m v) = m_r -> -127 <= v - (s_pc s + 2) <= 128) ->
  exists p s1 s2, build_op (expand F) instr f s = Ok (Some p) s1 /\ expand (S F) p s1 = Ok 0 s2 /\ balanced s s2.
Proof.
  intros Fm R V HF U H W B. pose proof (instruction instr f m e v F s Fm R V HF U (fun _ => H)) as X.
  destruct (select (has_mode s instr) m v) as [k bad]. destruct (X B) as (p & s1 & s2 & E1 & E2 & Em & _).
  exists p, s1, s2. split; [exact E1|]. split; [exact E2|]. exact (emits_balanced _ _ _ W Em).
Qed.
Theorem balanced_implied instr F s : ready s -> has_mode s instr m_r = false -> has_mode s instr m_i = true ->
  no_hole s -> s_final s && s_opened s && (s_org_spec s || (0 <? s_pc_assigned s)) = true ->
  exists p s1 s2, build_op (expand F) instr FImp s = Ok (Some p) s1 /\ expand (S F) p s1 = Ok 0 s2 /\ balanced s s2.
Proof.
  intros R U1 U2 H W. destruct (instruction0 instr F s R U1 U2 (fun _ => H)) as (p & s1 & s2 & E1 & E2 & Em & _).
  exists p, s1, s2. split; [exact E1|]. split; [exact E2|]. exact (emits_balanced _ _ _ W Em).
Qed.
Theorem balanced_far instr f m e v v2 F s : form_mode f = Some (m, e) -> ready s -> operand_value s e v -> sem (value_of s) (s_pc s + 2) e = Some (v2, 0) ->
  (height e <= F)%nat -> (1 <= F)%nat -> 0 <= s_total s -> no_hole s -> s_final s && s_opened s && (s_org_spec s || (0 <? s_pc_assigned s)) = true ->
  has_mode s instr m_r = true -> (v - (s_pc s + 2) < -127 \/ 128 < v - (s_pc s + 2)) ->
  exists p s1 s2, build_op (expand F) instr f s = Ok (Some p) s1 /\ expand (S F) p s1 = Ok 0 s2 /\ balanced s s2.
Proof.
  intros Fm R V V2 HF HF1 T H W Hm B.
  destruct (far_branch_bytes instr f m e v v2 F s Fm R V V2 HF HF1 T (fun _ => H) Hm B) as (p & s1 & s2 & E1 & E2 & Em & _).
  exists p, s1, s2. split; [exact E1|]. split; [exact E2|]. exact (emits_balanced _ _ _ W Em).
Qed.
Theorem balanced_data first size l F s n b : ready s -> In size [1; 2] -> l <> [] -> (forall i, In i l -> data_item s i) -> (list_fuel l <= F)%nat ->
  no_hole s -> 0 <= s_total s -> s_final s && s_opened s = true ->
  items_size (value_of s) size (s_pc s) l = Some n -> items_bytes (value_of s) size (s_pc s) l = Some b ->
  exists p s1 s2, build_stmt (expand (S F)) first (SData size l) s = Ok (Some p) s1 /\ expand (S F) p s1 = Ok 0 s2 /\ balanced s s2.
Proof.
  intros R Sz L I HF H T W Si By.
  destruct (data_list first size l F s n b R ltac:(cbn in *; tauto) L I HF (fun _ => H) T Si By) as (p & s1 & s2 & E1 & E2 & P & D & _).
  exists p, s1, s2. split; [exact E1|]. split; [exact E2|]. unfold data_written in D. rewrite W in D.
  exists (rev (map byte b)). rewrite rev_length, map_length, <- (data_step _ _ _ Sz _ _ _ Si By). split; assumption.
Qed.
