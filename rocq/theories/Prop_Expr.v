(** Properties of expressions (pasm.y:200-245, expand.cc), see properties.jsonl. *)
From Coq Require Import String Lia.
From Verif Require Import Base BaseProofs Hash Dict DictProofs Str Err State Sym Machine Build Pass Prog
  SymProofs SymEx Sem ExprMore.
Open Scope string_scope.
Open Scope list_scope.
Open Scope Z_scope.

(** ** C16 *)
(** Every expression over plain names, of any depth and in any state with a well-formed table: the nodes are built,
    and evaluating them gives the value the C operators give ([Sem.sem]), reports exactly one error per division by
    zero met, and changes nothing but the nodes, the table's records and the messages; no name changes its value.
    Where C leaves the result open the evaluation has no defined result. *)
Theorem C16_expressions : forall e F s,
  table_ok s -> (forall k, valids k -> single s k) -> (forall c, s_scope s = Some c -> valids c) ->
  s_stop s = false -> wfe e = true -> plain_names s e -> (height e <= F)%nat ->
  exists p s1, build_expr e s = Ok (Some p) s1 /\
  match sem (value_of s) (s_pc s) e with
  | None => expand F p s1 = Ub UbArith
  | Some (v, k) => exists s2, expand F p s1 = Ok v s2 /\ s_errs s2 = s_errs s + k /\
      (forall n, plain n -> value_of s2 n = value_of s n) /\
      s2 = set_nodes (s_nodes s2) (set_syms (s_syms s2) (set_dict (s_dict s2)
             (set_errs (s_errs s2) (set_msgs (s_msgs s2) s))))
  end.
Proof. exact evaluates_all. Qed.
Print Assumptions C16_expressions.

(** x1 is 1 in section one (2 in section two), x0 is 5, nowhere has no value: x1 * 100 + ((x0 << 3) && ( * / nowhere)) *)
Example C16_example : sem (value_of in_one) (s_pc in_one) e_ex = Some (100, 1) /\
  table_ok in_one /\ (forall k, valids k -> single in_one k) /\ (forall c, s_scope in_one = Some c -> valids c) /\
  s_stop in_one = false /\ wfe e_ex = true /\ plain_names in_one e_ex.
Proof.
  split; [vm_compute; reflexivity|]. split; [exact in_one_ok|]. split; [intros k _; apply in_one_single|].
  split; [exact in_one_scope|]. split; [vm_compute; reflexivity|]. split; [vm_compute; reflexivity|exact e_ex_names].
Qed.
