(** Properties of macro calls (expand.cc:1175-1206, 1315-1441; sym.cc:448-517), see properties.jsonl. *)
From Coq Require Import String Lia.
From Verif Require Import Base BaseProofs Hash Dict DictProofs Str Err State Sym Machine Build Pass Prog
  SymProofs SymMore Sem ExprProofs ExprMore DataProofs MacroProofs MacroMore SymEx MacroLabel.
Open Scope string_scope.
Open Scope list_scope.
Open Scope Z_scope.

(** ** C57 *)
(** A call outside sections of a macro that is in the table, with any number of arguments of any depth whose names are in
    the table and whose values fit in 16 bits.  The body is expanded, once, in a state [s2] in which \1, \2, ... have the
    values of the arguments, in order; every other name, a parameter beyond the arguments included, has the value it had; the
    label that local names belong to is made of the macro's name and the number of earlier calls; the program counter, the
    output and the error count are those before the call.  When the body returns (having kept the stack of parameters in
    order), \1, \2, ... and the label are again what they were before the call, the number of calls has gone up by one
    and all else is as the body left it.  When the body ends the program, so does the call. *)
Theorem C57_macro_call : forall name args vs ym body e n F s,
  tab s -> owned s -> s_stop s = false -> s_scope s = None -> params_ok s ->
  plain name -> dl s name = Some ym -> y_macro ym = Some (s_gen s, body) ->
  dict_search (s_mdict s) name = Some e -> nth_error (s_mvals s) e = Some n ->
  Forall2 (argument s) args vs -> (list_fuel (map IExpr args) <= S F)%nat ->
  exists q s1 s2, build_call name (map IExpr args) s = Ok (Some q) s1 /\ entered_with s s2 name n vs /\
    match expand F body s2 with
    | Ok w s3 => forall n', body_ok s s2 s3 e n' -> exists s4, expand (S (S F)) q s1 = Ok 0 s4 /\ left_with s s3 s4 e n'
    | Exit c s3 => expand (S (S F)) q s1 = Exit c s3
    | Ub u => expand (S (S F)) q s1 = Ub u
    | OutOfFuel => expand (S (S F)) q s1 = OutOfFuel
    end.
Proof. exact macro_call_runs. Qed.
Print Assumptions C57_macro_call.

(** The labels of two calls of macros differ so that a local name of the one (label, two underscores, name) is that of the other,
    upper and lower case being the same, only if it is the same name in the same call of the same macro. *)
Theorem C57_locals_apart : forall s s2 t t2 m1 m2 n1 n2 vs ws l1 l2 a b, entered_with s s2 m1 n1 vs -> entered_with t t2 m2 n2 ws ->
  ~ In 58 m1 -> ~ In 58 m2 -> 0 <= n1 -> 0 <= n2 -> s_label s2 = Some l1 -> s_label t2 = Some l2 ->
  map tolower (l1 ++ 95 :: 95 :: a) = map tolower (l2 ++ 95 :: 95 :: b) -> map tolower m1 = map tolower m2 /\ n1 = n2 /\ map tolower a = map tolower b.
Proof.
  intros s s2 t t2 m1 m2 n1 n2 vs ws l1 l2 a b W1 W2 N1 N2 P1 P2 L1 L2 E. rewrite (w_label _ _ _ _ _ W1) in L1. rewrite (w_label _ _ _ _ _ W2) in L2.
  injection L1 as <-. injection L2 as <-. exact (locals_apart m1 m2 n1 n2 a b N1 N2 P1 P2 E).
Qed.
Print Assumptions C57_locals_apart.
(** two calls of a macro with a local label: each refers to its own *)
Example C57_locals_example : run ["  .org $1000"; "  .macro two"; "@l"; "  .word @l, \1"; "  .endm"; "  two 3"; "  two 4"] = Some (mkSum false 0 [0; 16; 3; 0; 4; 16; 4; 0] 0 2).
Proof. vm_compute. reflexivity. Qed.

(** the state after a first call of .MACRO two with a local label, and the call  two x0+1, <done *)
Example C57_example : let s := mac_st in
  tab s /\ owned s /\ s_stop s = false /\ s_scope s = None /\ params_ok s /\ plain (cs "two") /\
  (exists ym body e, dl s (cs "two") = Some ym /\ y_macro ym = Some (s_gen s, body) /\
    dict_search (s_mdict s) (cs "two") = Some e /\ nth_error (s_mvals s) e = Some 1) /\
  Forall2 (argument s) mac_args [6; 4] /\ pval s 1 = Some 3 /\ pval s 2 = Some 4.
Proof.
  split; [exact mac_st_tab|]. split; [exact mac_st_owned|]. split; [vm_compute; reflexivity|]. split; [vm_compute; reflexivity|].
  split; [exact mac_st_params|]. split; [plain_tac|]. split; [|split; [exact mac_st_args|split; vm_compute; reflexivity]].
  do 3 eexists. split; [vm_compute; reflexivity|]. split; [vm_compute; reflexivity|]. split; vm_compute; reflexivity.
Qed.
(** the body of the second call returns in order: every hypothesis of [body_ok] is met *)
Example C57_body : exists q s1 s4, build_call (cs "two") (map IExpr mac_args) mac_st = Ok (Some q) s1 /\
  expand 12 q s1 = Ok 0 s4 /\ pval s4 1 = Some 3 /\ pval s4 2 = Some 4 /\ s_errs s4 = 0 /\ s_pc s4 = s_pc mac_st + 4.
Proof. do 3 eexists. split; [vm_compute; reflexivity|]. split; [vm_compute; reflexivity|]. vm_compute. repeat split; reflexivity. Qed.
(** the whole program: the local labels of the two calls differ *)
Example C57_program : run ["  .org $1000"; "x0=5"; "  .macro two"; "@l"; "  .byte \1,\2"; "  .word @l"; "  .endm"; "  two 3,4"; "done rts"; "  two x0+1,<done"] =
  Some (mkSum false 0 [3; 4; 0; 16; 96; 6; 4; 5; 16] 0 2).
Proof. vm_compute. reflexivity. Qed.

(** Inside a section the parameter is entered under the section's name and looked for without it: the call with an
    argument ends the program. *)
Theorem C57_section_refuted : exists l, l = ["  .org $1000"; "  .macro one"; "  .byte \1"; "  .endm"; "  .section s"; "  one 1"; "  one 2"; "  .ends"] /\
  exists b e p, run l = Some (mkSum true (-1) b e p) /\ 0 < e.
Proof. eexists. split; [reflexivity|]. do 3 eexists. split; [vm_compute; reflexivity|reflexivity]. Qed.
Print Assumptions C57_section_refuted.

(** The arguments are evaluated one by one into the parameters: a call inside a macro that exchanges its parameters passes
    the first argument twice. *)
Theorem C57_exchange_refuted : exists l, l = ["  .org $1000"; "  .macro two"; "  .byte \1,\2"; "  .endm"; "  .macro swap"; "  two \2,\1"; "  .endm";
    "  two 1,2"; "  swap 3,4"] /\
  run l = Some (mkSum false 0 [1; 2; 4; 4] 0 1).
Proof. eexists. split; [reflexivity|]. vm_compute. reflexivity. Qed.
Print Assumptions C57_exchange_refuted.

(** A parameter without an argument keeps the value of an earlier call, without an error. *)
Theorem C57_missing_refuted : exists l, l = ["  .org $1000"; "  .macro two"; "  .byte \1,\2"; "  .endm"; "  two 1,2"; "  two 3"] /\
  run l = Some (mkSum false 0 [1; 2; 3; 2] 0 1).
Proof. eexists. split; [reflexivity|]. vm_compute. reflexivity. Qed.
Print Assumptions C57_missing_refuted.

(** An argument below 0 is refused, also when it is below 0 only as long as a label after it has no address. *)
Theorem C57_negative_refuted : exists l l',
  l = ["  .org $1000"; "  .macro w"; "  .word \1"; "  .endm"; "  w 2"; "  w -1"] /\
  l' = ["  .org $1000"; "  .macro w"; "  .word \1"; "  .endm"; "  w 2"; "  w end-1"; "end rts"] /\
  run l = Some (mkSum false (-1) [] 1 1) /\ run l' = Some (mkSum false (-1) [] 1 1).
Proof.
  do 2 eexists. split; [reflexivity|]. split; [reflexivity|].
  split; vm_compute; reflexivity.
Qed.
Print Assumptions C57_negative_refuted.
