(** Properties of the control flow of a source: loops and included files (C42, C44). *)
From Coq Require Import String.
From Verif Require Import Base Str Opcodes Err State Sym Machine Build Pass Prog LoopProofs IncProofs FlowEx.
Open Scope string_scope.
Open Scope list_scope.
Open Scope Z_scope.

(** * C42: loop directives *)

(** a .WHILE returns exactly when some number of turns (condition not 0, body expanded, program counter in 64K)
    leads to a condition of 0, or to a body that leaves 64K, which is reported *)
Theorem C42_while : forall F n c b s,
  s_stop s = false -> nth_error (s_nodes s) n = Some (mkNode (KOpr OWhile) [c; b]) ->
  forall v s', expand (S F) n s = Ok v s' <->
  v = 0 /\ exists k s1, (k < F)%nat /\ turns (while_turn (expand F) c b) k s s1 /\
    (expand F c s1 = Ok 0 s' \/
     exists w s2 u s3, expand F c s1 = Ok w s2 /\ w <> 0 /\ expand F b s2 = Ok u s3 /\ too_far s3 s').
Proof. exact node_while. Qed.
Print Assumptions C42_while.

(** a .REPEAT expands its body at least once, and again until the condition is not 0 *)
Theorem C42_repeat : forall F n b c s,
  s_stop s = false -> nth_error (s_nodes s) n = Some (mkNode (KOpr ORepeat) [b; c]) ->
  forall v s', expand (S F) n s = Ok v s' <->
  v = 0 /\ exists k s1 u s2, (k < F)%nat /\ turns (do_turn (expand F) true b c) k s s1 /\ expand F b s1 = Ok u s2 /\
    ((s_pc s2 <= 65535 /\ exists w, expand F c s2 = Ok w s' /\ w <> 0) \/ too_far s2 s').
Proof. exact node_repeat. Qed.
Print Assumptions C42_repeat.

(** a .DO goes on while the condition is not 0 *)
Theorem C42_do : forall F n b c s,
  s_stop s = false -> nth_error (s_nodes s) n = Some (mkNode (KOpr ODo) [b; c]) ->
  forall v s', expand (S F) n s = Ok v s' <->
  v = 0 /\ exists k s1 u s2, (k < F)%nat /\ turns (do_turn (expand F) false b c) k s s1 /\ expand F b s1 = Ok u s2 /\
    ((s_pc s2 <= 65535 /\ exists w, expand F c s2 = Ok w s' /\ w = 0) \/ too_far s2 s').
Proof. exact node_do. Qed.
Print Assumptions C42_do.

(** a .FOR evaluates the step (1 when left out), the assignment and the end once each, and then loops; the names
    after .FOR and .NEXT must be the same symbol *)
Theorem C42_for_header : forall F n asg e b i sv s r s', s_stop s = false ->
  nth_error (s_nodes s) n = Some (mkNode (KOpr OFor) ([asg; e; b; i] ++ sv)) ->
  expand (S F) n s = Ok r s' ->
  exists k s1 id0 s2 r2 s3 s4 end_ s5 a a',
    (match sv with nk :: _ => expand F nk s = Ok k s1 | [] => k = 1 /\ s1 = s end) /\
    cached_symbol id0 s1 = Ok a s2 /\ expand F asg s2 = Ok r2 s3 /\ cached_symbol i s3 = Ok a' s4 /\
    expand F e s4 = Ok end_ s5 /\
    ((a = a' /\ for_loop (expand F) F a end_ k b s5 = Ok r s') \/
     (a <> a' /\ r = 0 /\ s' = set_errs (s_errs s5 + 1) (set_msgs (error_expected_next :: s_msgs s5) s5))).
Proof. exact node_for. Qed.
Print Assumptions C42_for_header.

(** the loop returns exactly when some turns lead to a variable past the end, or to a body that leaves 64K *)
Theorem C42_for : forall ex f a e k b s r s', for_loop ex f a e k b s = Ok r s' <->
  r = 0 /\ exists l s1, (length l < f)%nat /\ for_turns ex a e k b l s s1 /\
    ((s' = s1 /\ exists v, value_at a s1 v /\ passed e k v) \/
     exists v u s2, value_at a s1 v /\ ~ passed e k v /\ ex b s1 = Ok u s2 /\ too_far s2 s').
Proof. exact for_spec. Qed.
Print Assumptions C42_for.

(** when the body leaves the variable alone and the variable can hold its last value, the turns have exactly the
    values start, start + step, ... up to the end, and there are (end - start) / step + 1 of them *)
Theorem C42_for_count : forall ex f a e k b s r s' v,
  for_loop ex f a e k b s = Ok r s' -> k <> 0 -> leaves ex a b ->
  value_at a s v -> may_hold a s v -> may_hold a s (v + k * Z.of_nat (count_to v e k)) ->
  for_turns ex a e k b (progression v k (count_to v e k)) s s' \/
  exists n s1 u s2, (n < count_to v e k)%nat /\ for_turns ex a e k b (progression v k n) s s1 /\
    ex b s1 = Ok u s2 /\ too_far s2 s'.
Proof. exact for_exact. Qed.
Print Assumptions C42_for_count.

Example C42_for_count_ex : exists s', for_loop one_byte 100 0 6 2 7 (counter_at 1) = Ok 0 s' /\
  for_turns one_byte 0 6 2 7 [1; 3; 5] (counter_at 1) s' /\ s_pc s' = 4099.
Proof. exact ex_for. Qed.

(** otherwise (step 0, or a plain symbol counting past 0 or 65535) the loop only ends by leaving 64K *)
Theorem C42_for_stuck : forall ex f a e k b s r s' y,
  for_loop ex f a e k b s = Ok r s' -> leaves ex a b ->
  nth_error (s_syms s) a = Some y -> y_var y = false -> 0 <= y_value y <= 65535 ->
  k = 0 \/ ~ 0 <= y_value y + k * Z.of_nat (count_to (y_value y) e k) <= 65535 ->
  exists s1, too_far s1 s'.
Proof. exact for_stuck. Qed.
Print Assumptions C42_for_stuck.

Example C42_for_stuck_ex : exists s', for_loop one_byte 100 0 0 (-1) 7 (set_pc 65500 (counter_at 2)) = Ok 0 s' /\
  s_pc s' = 65536 /\ s_errs s' = 34 /\ hd_error (s_msgs s') = Some error_infinite_loop_detected.
Proof. exact ex_stuck. Qed.

(** and with a step of 0 and a body that does nothing it never ends *)
Theorem C42_for_step_0 : forall ex e s u y,
  (forall s, ex 7%nat s = Ok u s) -> nth_error (s_syms s) 0 = Some y -> s_pc s <= 65535 ->
  forall f, for_loop ex f 0 e 0 7 s = OutOfFuel.
Proof. exact never_ends. Qed.
Print Assumptions C42_for_step_0.

(** a body that emits at least one byte each time bounds the number of turns by the room left *)
Theorem C42_while_bounded : forall ex c b n s s',
  grows ex b -> keeps_pc ex c -> turns (while_turn ex c b) n s s' ->
  s_pc s <= 65535 -> Z.of_nat n <= 65535 - s_pc s.
Proof. exact while_bounded. Qed.
Print Assumptions C42_while_bounded.

Theorem C42_do_bounded : forall ex until b c n s s',
  grows ex b -> keeps_pc ex c -> turns (do_turn ex until b c) n s s' ->
  s_pc s <= 65535 -> Z.of_nat n <= 65536 - s_pc s.
Proof. exact do_bounded. Qed.
Print Assumptions C42_do_bounded.

Theorem C42_for_bounded : forall ex a e k b l s s',
  grows ex b -> for_turns ex a e k b l s s' ->
  s_pc s <= 65535 -> Z.of_nat (length l) <= 65535 - s_pc s.
Proof. exact for_bounded. Qed.
Print Assumptions C42_for_bounded.

Example C42_programs :
  run [" *=$1000"; " .var i"; ".for i = 1 .to 6 .step 2"; " .byte i"; ".next i"; " .byte i"]
    = Some (mkSum false 0 [1; 3; 5; 7] 0 1) /\
  run [" *=$1000"; " .var i=5"; ".while i > 2"; " .byte i"; "i=i-1"; ".wend"; " .byte i"]
    = Some (mkSum false 0 [5; 4; 3; 2] 0 1) /\
  run [" *=$1000"; " .var i=5"; ".repeat"; " .byte i"; "i=i-1"; ".until i < 3"; " .byte i"]
    = Some (mkSum false 0 [5; 4; 3; 2] 0 1) /\
  run [" *=$1000"; " .var i=5"; ".do"; " .byte i"; "i=i-1"; ".while i > 2"; " .byte i"]
    = Some (mkSum false 0 [5; 4; 3; 2] 0 1) /\
  run [" *=$1000"; ".for i = 1 .to 6 .step 2"; " .byte i"; ".next i"] = Some (mkSum false (-1) [] 1 19).
Proof. exact (conj ex_prog_for (conj ex_prog_while (conj ex_prog_repeat (conj ex_prog_do ex_prog_plain)))). Qed.

(** * C44: the include stack *)

(** when a file with a frame below it ends, reading goes on in the file and at the line of the frame, with the
    rest of the stack as it was; only a syntax error prevents it *)
Theorem C44_returns : forall F fuel s s' top rest f n st,
  s_input s = top :: rest -> s_fstack s = (f, n) :: st -> parse_input F fuel s = Ok tt s' ->
  hd_error (s_msgs s') = Some (-1) \/
  exists k s2, (k < fuel)%nat /\ parse_input F k s2 = Ok tt s' /\ s_input s2 = rest /\ s_fstack s2 = st /\
               s_file s2 = f /\ s_line s2 = n.
Proof. exact returns. Qed.
Print Assumptions C44_returns.

Example C44_returns_ex : match parse_input 100 100 inside with
  | Ok tt s => s_msgs s = [] /\ s_errs s = 0 /\ s_file s = cs "m.a" | _ => False end.
Proof. exact ex_inside. Qed.

(** an .INC line starts the named file at line 0, and the text after it is read in the including file, at the
    line of the .INC, with the stack as before, whatever the included file includes itself *)
Theorem C44_include_resumes : forall F fuel s s' name l ln ls rest,
  Forall (fun c => c <> 92 /\ c <> 0) name ->
  s_stop s = false -> s_skip s = false -> g_files (s_cfg s) name = Some l ->
  s_input s = (SrcLine (mkLine ln None (SInc (34 :: name ++ [34])) None) :: ls) :: rest ->
  parse_input (S F) (S fuel) s = Ok tt s' ->
  hd_error (s_msgs s') = Some (-1) \/
  exists k s1 s2, parse_input (S F) fuel s1 = Ok tt s' /\
    s_input s1 = l :: ls :: rest /\ s_file s1 = name /\ s_line s1 = 0 /\
    (k < fuel)%nat /\ parse_input (S F) k s2 = Ok tt s' /\
    s_input s2 = ls :: rest /\ s_fstack s2 = s_fstack s /\ s_file s2 = s_file s /\ s_line s2 = ln.
Proof. exact include_resumes. Qed.
Print Assumptions C44_include_resumes.

Example C44_include_ex : s_stop at_inc = false /\ s_skip at_inc = false /\
  (exists l, g_files (s_cfg at_inc) (cs "b.i") = Some l) /\
  (exists ls, s_input at_inc = [SrcLine (mkLine 3 None (SInc (34 :: cs "b.i" ++ [34])) None) :: ls]) /\
  match parse_input 100 100 at_inc with Ok tt s => s_msgs s = [] /\ s_file s = cs "m.a" | _ => False end.
Proof. exact ex_at_inc. Qed.

Example C44_nested : summarise (assemble 1000 boot_three) = Some (mkSum false 0 [1; 11; 21; 12; 2; 21; 3] 0 1).
Proof. exact ex_three. Qed.
