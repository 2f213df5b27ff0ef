(** Whole programs, see properties.jsonl.
    The programs are those of the fragment [okl]: lines of labels, assignments, instructions and data (FragPass.v,
    LineFour.v, LineTwo.v); names are plain, expressions do not use && and ||, no statement mentions its own label
    more than once.  One line [ol] is .ORG with a number [o] > 0; the lines [pre] before it have no instructions or data.
    [layout c02 ill env pc lines bytes] (Layout.v) is the specification: the bytes of the statements one after the other
    from [pc] on, where every label is the address of its statement, every assigned name the value of its expression, and all
    names denote [env].  [all_lines]: the lines of the input files one after the other.  [fk n] is the name without case. *)
From Coq Require Import String Lia.
From Verif Require Import Base BaseProofs Hash Dict DictProofs DictMore Str Opcodes OpcodesProofs Err State Sym Machine Build Lexer Parser Pass Prog
  SymProofs SymMore SymEx Sem ExprProofs OpProofs DataProofs DefProofs DataMore
  Colon Layout LineTwo LineFour PassProofs Frag FragPass FragProg FragAsm FragEx.
Open Scope string_scope.
Open Scope list_scope.
Open Scope Z_scope.

(** what a successful run wrote: with values [en] of the names, the bytes of the body at [o], after the load address of a
    C64 file *)
Definition written (c02 ill c64 : bool) (en : cstr -> Z) (pre : list tline) (o : Z) (body : list tline) (file : list Z) : Prop :=
  exists bytes header, layout c02 ill en 4096 pre [] /\ layout c02 ill en o body bytes /\ file = header ++ bytes /\
    header = (if c64 && negb (forallb (fun l => silent (t_stmt l)) body) then [o mod 256; o / 256 mod 256] else []).
(** the names denote what the lines define: names alike but for case are one name, names nobody defines are 0, and
    every name an instruction, an assignment or an operator uses is defined somewhere *)
Definition denotes (en : cstr -> Z) (prog : list tline) : Prop :=
  (forall n m, plain n -> plain m -> fk n = fk m -> en n = en m) /\
  (forall n, plain n -> (forall l m, In l prog -> ldef l = Some m -> fk m <> fk n) -> en n = 0) /\
  (forall l n, In l prog -> In n (need_names (t_stmt l)) -> exists l' m, In l' prog /\ ldef l' = Some m /\ fk m = fk n).

(** ** C49 *)
Theorem C49_layout : forall c02 ill c64 cfg F pre ol o body s',
  (1 <= F)%nat -> all_lines cfg (g_inputs cfg) (pre ++ ol :: body) -> Forall (okl c02 ill F) (pre ++ ol :: body) ->
  org_of ol = Some o -> 1 <= o -> Forall (fun l => move_of l = None /\ silent (t_stmt l) = true) pre -> Forall (fun l => move_of l = None) body ->
  (exists l n, In l (pre ++ ol :: body) /\ t_label l = Some n) \/ (forall l n, In l (pre ++ ol :: body) -> ldef l = Some n -> False) ->
  g_out cfg = true ->
  assemble (S F) (init_state cfg c02 ill c64) = Ok 0 s' -> s_errs s' = 0 ->
  exists en, denotes en (pre ++ ol :: body) /\ written c02 ill c64 en pre o body (rev (s_out s')).
Proof.
  intros c02 ill c64 cfg F pre ol o body s' F1 Fi OK Eo Po Sp Bb An Go E Er.
  destruct (assemble_layout c02 ill c64 cfg F _ F1 Fi OK pre ol o body s' An Go eq_refl Sp Eo Po Bb E Er) as (s1 & _ & _ & (bytes & h & L1 & L2 & L3 & L4 & _) & N & _).
  exists (env s1). split; [exact N|]. exists bytes, h. auto.
Qed.
Print Assumptions C49_layout.

(** ** C30 *)
(** the last analysis pass [s1] was clean; the final pass [s'] ends at the same address, gives every name the value it had, and
    writes the layout under those values: every label stands where the analysis placed it *)
Theorem C30_final_as_analysed : forall c02 ill c64 cfg F pre ol o body s',
  (1 <= F)%nat -> all_lines cfg (g_inputs cfg) (pre ++ ol :: body) -> Forall (okl c02 ill F) (pre ++ ol :: body) ->
  org_of ol = Some o -> 1 <= o -> Forall (fun l => move_of l = None /\ silent (t_stmt l) = true) pre -> Forall (fun l => move_of l = None) body ->
  (exists l n, In l (pre ++ ol :: body) /\ t_label l = Some n) \/ (forall l n, In l (pre ++ ol :: body) -> ldef l = Some n -> False) ->
  g_out cfg = true ->
  assemble (S F) (init_state cfg c02 ill c64) = Ok 0 s' -> s_errs s' = 0 ->
  exists s1, pass_loop (S F) 20 (start (init_state cfg c02 ill c64)) = Ok true s1 /\
    s_errs s1 = 0 /\ s_changed s1 = 0 /\ unresolved_symbol_count s1 = 0 /\
    s_pc s' = s_pc s1 /\ (forall n, plain n -> env s' n = env s1 n) /\
    written c02 ill c64 (env s1) pre o body (rev (s_out s')).
Proof.
  intros c02 ill c64 cfg F pre ol o body s' F1 Fi OK Eo Po Sp Bb An Go E Er.
  destruct (assemble_layout c02 ill c64 cfg F _ F1 Fi OK pre ol o body s' An Go eq_refl Sp Eo Po Bb E Er) as (s1 & E1 & (C1 & C2 & C3) & (bytes & h & L1 & L2 & L3 & L4 & L5 & L6 & L7 & _) & N & _).
  exists s1. split; [exact E1|]. split; [exact C1|]. split; [exact C2|]. split; [exact C3|]. split; [symmetry; exact L6|]. split; [exact L7|]. exists bytes, h. auto.
Qed.
Print Assumptions C30_final_as_analysed.

(** ** C41 *)
(** a name used in an instruction, an assignment or an operator that no line defines: the run does not end with status 0, and nothing
    is written, however it ends *)
Theorem C41_undefined : forall c02 ill c64 cfg F prog l n,
  (1 <= F)%nat -> all_lines cfg (g_inputs cfg) prog -> Forall (okl c02 ill F) prog ->
  In l prog -> In n (need_names (t_stmt l)) -> (forall l' m, In l' prog -> ldef l' = Some m -> fk m <> fk n) ->
  forall s', (exists r, assemble (S F) (init_state cfg c02 ill c64) = Ok r s') \/ (exists r, assemble (S F) (init_state cfg c02 ill c64) = Exit r s') ->
  s_out s' = [] /\ forall r, assemble (S F) (init_state cfg c02 ill c64) = Ok r s' -> r = -1.
Proof.
  intros c02 ill c64 cfg F prog l n F1 Fi OK Hl Hn Un s' E.
  exact (undefined_never_clean c02 ill c64 cfg F prog F1 Fi OK l n Hl Hn Un s' E).
Qed.
Print Assumptions C41_undefined.

(** ** Cases that meet the hypotheses *)
Definition demo : list string :=
  ["v = end - start"; "pre"; " .org $1000"; "start lda #v"; " sta zp"; "loop: dex"; " bne loop"; " beq end"; " jmp start"; "tab .byte 1, v, <tab, >start"; " .word end+1, ""ab"""; "end rts"; "zp = $42"].
Lemma line_split pre ol body prog c : prog = pre ++ ol :: body -> g_files c (cs "m.a") = Some (map SrcLine prog) -> g_inputs c = [cs "m.a"] ->
  all_lines c (g_inputs c) (pre ++ ol :: body).
Proof. intros E Fi ->. cbn [all_lines]. exists prog, []. rewrite Fi, app_nil_r. auto. Qed.
Definition demo_lines : list tline := match src_lines (parse_text (lines demo)) with Some p => p | None => [] end.
Definition org_line : tline := nth 2 demo_lines (mkLine 0 None SEmpty None).
Definition is_ok (r : res Z) (bytes : list Z) (passes : Z) : Prop :=
  match r with Ok 0 s' => s_errs s' = 0 /\ rev (s_out s') = bytes /\ s_pass s' = passes | _ => False end.
Lemma demo_files : all_lines (one_file demo) (g_inputs (one_file demo)) (firstn 2 demo_lines ++ org_line :: skipn 3 demo_lines).
Proof. apply (line_split _ _ _ demo_lines); [vm_compute; reflexivity| |reflexivity]. vm_compute. reflexivity. Qed.
(** the hypotheses of C49 and C30 *)
Example C49_example :
  length demo_lines = 13%nat /\
  all_lines (one_file demo) (g_inputs (one_file demo)) (firstn 2 demo_lines ++ org_line :: skipn 3 demo_lines) /\
  Forall (okl false false 99) (firstn 2 demo_lines ++ org_line :: skipn 3 demo_lines) /\
  org_of org_line = Some 4096 /\ Forall (fun l => move_of l = None /\ silent (t_stmt l) = true) (firstn 2 demo_lines) /\
  Forall (fun l => move_of l = None) (skipn 3 demo_lines) /\
  (exists l n, In l (firstn 2 demo_lines ++ org_line :: skipn 3 demo_lines) /\ t_label l = Some n) /\
  is_ok (assemble 100 (boot demo)) [169; 20; 133; 66; 202; 208; 253; 240; 11; 76; 0; 16; 1; 20; 12; 16; 21; 16; 97; 98; 96] 5.
Proof.
  split; [vm_compute; reflexivity|]. split; [exact demo_files|]. split; [apply oklsb_ok; vm_compute; reflexivity|]. split; [vm_compute; reflexivity|].
  split; [vm_compute; repeat constructor|]. split; [vm_compute; repeat constructor|].
  split; [|vm_compute; auto]. exists (nth 1 demo_lines org_line), (cs "pre"). split; [vm_compute; auto|vm_compute; reflexivity].
Qed.
(** and of C41 *)
Definition lost : list string := [" .org $1000"; "start lda start"; " ldx ghost+1"; " rts"].
Definition lost_lines : list tline := match src_lines (parse_text (lines lost)) with Some p => p | None => [] end.
Example C41_example :
  all_lines (one_file lost) (g_inputs (one_file lost)) lost_lines /\ Forall (okl false false 99) lost_lines /\
  (exists l, In l lost_lines /\ In (cs "ghost") (need_names (t_stmt l))) /\
  (forall l' m, In l' lost_lines -> ldef l' = Some m -> fk m <> fk (cs "ghost")) /\
  match assemble 100 (boot lost) with Ok r s' => r = -1 /\ s_out s' = [] | _ => False end.
Proof.
  split; [cbn [all_lines g_inputs one_file]; exists lost_lines, []; rewrite app_nil_r; split; [vm_compute; reflexivity|auto]|].
  split; [apply oklsb_ok; vm_compute; reflexivity|]. split; [exists (nth 2 lost_lines org_line); vm_compute; auto 6|]. split; [|vm_compute; auto].
  intros l' m H D. vm_compute in H. repeat (destruct H as [<-|H]; [vm_compute in D; try discriminate D; injection D as <-; vm_compute; discriminate|]). destruct H.
Qed.

(** ** Outside the fragment *)
(** a name alone as a data item need not be defined: the full statement of C41 fails *)
Theorem C41_lone_name_refuted : exists l, l = [" .org $1000"; " .byte ghost"] /\ is_ok (assemble 100 (boot l)) [0] 2.
Proof. eexists. split; [reflexivity|]. vm_compute. auto. Qed.
Print Assumptions C41_lone_name_refuted.
(** without any label a first pass that finds only the value 0 is already clean: the program is assembled in a single analysis
    pass, m should be 1 *)
Theorem C30_no_label_refuted : exists l, l = [" .org $1000"; " lda l"; " ldx #m"; "l = 0"; "m = $1005-*"] /\
  is_ok (assemble 100 (boot l)) [165; 0; 162; 0] 2.
Proof. eexists. split; [reflexivity|]. vm_compute. auto. Qed.
Print Assumptions C30_no_label_refuted.
(** with an anonymous label: it is at $1005, the jump goes to $1006 *)
Theorem C30_anonymous_refuted : exists l, l = [" .org $1000"; " lda l"; " jmp +"; "+ rts"; "l = 0"] /\
  is_ok (assemble 100 (boot l)) [165; 0; 76; 6; 16; 96] 2.
Proof. eexists. split; [reflexivity|]. vm_compute. auto. Qed.
Print Assumptions C30_anonymous_refuted.
(** without .ORG nothing is written, and no error reported *)
Theorem C49_no_org_refuted : exists l, l = [" lda #1"; "l rts"] /\ is_ok (assemble 100 (boot l)) [] 3.
Proof. eexists. split; [reflexivity|]. vm_compute. auto. Qed.
Print Assumptions C49_no_org_refuted.
