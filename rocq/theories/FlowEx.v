(** Concrete programs for the include and loop properties. *)
From Coq Require Import String Lia.
From Verif Require Import Base BaseProofs Hash Dict Str Opcodes Err State Sym Machine Build Pass Lexer Parser Prog
  SymProofs LoopProofs IncProofs.
Open Scope string_scope.
Open Scope list_scope.
Open Scope Z_scope.

(** three files, the second included twice *)
Definition three (n : cstr) : option (list sline) :=
  if list_eq_dec Z.eq_dec n (cs "m.a") then
    Some (parse_text (lines [" *=$1000"; " .byte 1"; " .inc ""b.i"""; " .byte 2"; " .inc ""c.i"""; " .byte 3"]))
  else if list_eq_dec Z.eq_dec n (cs "b.i") then Some (parse_text (lines [" .byte 11"; " .inc ""c.i"""; " .byte 12"]))
  else if list_eq_dec Z.eq_dec n (cs "c.i") then Some (parse_text (lines [" .byte 21"]))
  else None.
Definition boot_three : state := init_state (mkCfg three (fun _ => None) [cs "m.a"] true true) false false false.
Lemma ex_three : summarise (assemble 1000 boot_three) = Some (mkSum false 0 [1; 11; 21; 12; 2; 21; 3] 0 1).
Proof. vm_compute. reflexivity. Qed.

(** inside b.i, opened at line 7 of m.a, with the rest of m.a below *)
Definition inside : state :=
  set_file (cs "b.i") (set_fstack [(cs "m.a", 7)]
    (set_input [parse_text (lines ["p = 1"; " .inc ""c.i"""; "q = 2"]); parse_text (lines ["r = p + q"])] boot_three)).
Lemma ex_inside : match parse_input 100 100 inside with
  | Ok tt s => s_msgs s = [] /\ s_errs s = 0 /\ s_file s = cs "m.a" | _ => False end.
Proof. vm_compute. repeat split. Qed.

(** a body that writes one byte *)
Definition one_byte : nat -> M Z := fun _ s => Ok 0 (set_pc (s_pc s + 1) s).
Definition counter_at (v : Z) : state :=
  set_syms [y_set_value v (new_symbol false false false true None (cs "i") (cs "i"))] (set_pc 4096 (boot [])).
Lemma one_byte_leaves : leaves one_byte 0%nat 7%nat.
Proof. intros s u s' y H Hy. inversion H; subst. exists y. auto. Qed.
Lemma one_byte_grows : grows one_byte 7%nat.
Proof. intros s u s' H. inversion H; subst. cbn. lia. Qed.
Lemma ex_for : exists s', for_loop one_byte 100 0 6 2 7 (counter_at 1) = Ok 0 s' /\
  for_turns one_byte 0 6 2 7 [1; 3; 5] (counter_at 1) s' /\ s_pc s' = 4099.
Proof.
  destruct (for_loop one_byte 100 0 6 2 7 (counter_at 1)) as [r s'|c s'|x|] eqn:E.
  2-4: (exfalso; vm_compute in E; discriminate).
  assert (Hpc : s_pc s' = 4099) by (vm_compute in E; inversion E; reflexivity).
  assert (r = 0) by (apply for_spec in E; tauto). subst r.
  exists s'. split; auto. split; auto.
  destruct (for_exact one_byte _ _ _ _ _ _ _ _ 1 E) as [H|(n & s1 & u & s2 & _ & _ & _ & Hp & Hs)].
  - discriminate.
  - apply one_byte_leaves.
  - eexists. split; reflexivity.
  - left. lia.
  - left. vm_compute. split; discriminate.
  - exact H.
  - exfalso. rewrite Hs in Hpc. cbn in Hpc. lia.
Qed.
(** counting down to 0 the last value, -1, does not fit: the turns go on until the program counter leaves 64K *)
Lemma ex_stuck : exists s', for_loop one_byte 100 0 0 (-1) 7 (set_pc 65500 (counter_at 2)) = Ok 0 s' /\
  s_pc s' = 65536 /\ s_errs s' = 34 /\ hd_error (s_msgs s') = Some error_infinite_loop_detected.
Proof.
  destruct (for_loop one_byte 100 0 0 (-1) 7 (set_pc 65500 (counter_at 2))) as [r s'|c s'|x|] eqn:E.
  - exists s'. vm_compute in E. inversion E; subst. repeat split.
  - exfalso; vm_compute in E; discriminate.
  - exfalso; vm_compute in E; discriminate.
  - exfalso; vm_compute in E; discriminate.
Qed.
(** with nothing in the body it never ends *)
Lemma never_ends ex e s u y : (forall s, ex 7%nat s = Ok u s) -> nth_error (s_syms s) 0 = Some y -> s_pc s <= 65535 ->
  forall f, for_loop ex f 0 e 0 7 s = OutOfFuel.
Proof.
  intros HE Hy Hp f. induction f as [|f IH]; cbn [for_loop]; auto.
  unfold bind, sym_get, gets, bind. rewrite Hy. unfold ret at 1. change (0 <? 0) with false. cbn [andb]. rewrite HE.
  replace (max_address <? s_pc s) with false by (unfold max_address; lia). rewrite Hy. unfold ret at 1.
  unfold set_symbol_value, bind, sym_get, gets, bind. rewrite Hy. unfold ret at 1.
  replace (y_value y =? y_value y + 0) with true by lia. exact IH.
Qed.
Lemma ex_prog_for : run [" *=$1000"; " .var i"; ".for i = 1 .to 6 .step 2"; " .byte i"; ".next i"; " .byte i"]
  = Some (mkSum false 0 [1; 3; 5; 7] 0 1).
Proof. vm_compute. reflexivity. Qed.
Lemma ex_prog_while : run [" *=$1000"; " .var i=5"; ".while i > 2"; " .byte i"; "i=i-1"; ".wend"; " .byte i"]
  = Some (mkSum false 0 [5; 4; 3; 2] 0 1).
Proof. vm_compute. reflexivity. Qed.
Lemma ex_prog_repeat : run [" *=$1000"; " .var i=5"; ".repeat"; " .byte i"; "i=i-1"; ".until i < 3"; " .byte i"]
  = Some (mkSum false 0 [5; 4; 3; 2] 0 1).
Proof. vm_compute. reflexivity. Qed.
Lemma ex_prog_do : run [" *=$1000"; " .var i=5"; ".do"; " .byte i"; "i=i-1"; ".while i > 2"; " .byte i"]
  = Some (mkSum false 0 [5; 4; 3; 2] 0 1).
Proof. vm_compute. reflexivity. Qed.
(** without .VAR the variable changes in every pass, and the assembly never settles *)
Lemma ex_prog_plain : run [" *=$1000"; ".for i = 1 .to 6 .step 2"; " .byte i"; ".next i"]
  = Some (mkSum false (-1) [] 1 19).
Proof. vm_compute. reflexivity. Qed.

(** m.a at its first include *)
Definition at_inc : state := set_file (cs "m.a") (set_input [skipn 2 (match three (cs "m.a") with Some l => l | None => [] end)] boot_three).
Lemma ex_at_inc : s_stop at_inc = false /\ s_skip at_inc = false /\ (exists l, g_files (s_cfg at_inc) (cs "b.i") = Some l) /\
  (exists ls, s_input at_inc = [SrcLine (mkLine 3 None (SInc (34 :: cs "b.i" ++ [34])) None) :: ls]) /\
  match parse_input 100 100 at_inc with Ok tt s => s_msgs s = [] /\ s_file s = cs "m.a" | _ => False end.
Proof. vm_compute. repeat split; eexists; reflexivity. Qed.
