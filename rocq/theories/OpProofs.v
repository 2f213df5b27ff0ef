(** Instructions: what building an opcode node and expanding it do, for an operand with a known value. *)
From Coq Require Import String Lia.
From Verif Require Import Base BaseProofs Hash Dict DictProofs DictMore Str Opcodes OpcodesProofs Err State Sym Machine Build
  Pass Gen Inv SymProofs Sem ExprProofs ListRel.
Open Scope string_scope.
Open Scope list_scope.
Open Scope Z_scope.
Open Scope m_scope.
Ltac Zify.zify_post_hook ::= Z.div_mod_to_equations.

(** ** The part of the state that expression evaluation does not touch *)
(** everything but the parse nodes, the symbol table, the messages and listing, and the variables data_size and
    byte_delta, which every writer sets before it reads them *)
Definition obs (s : state) : state :=
  set_nodes [] (set_syms [] (set_dict dict_create (set_msgs [] (set_list [] (set_soft [] (set_dsz 0 (set_delta 0 s))))))).

(** [obs] commutes with the updates of the other variables *)
Lemma obs_set_cfg v s : obs (set_cfg v s) = set_cfg v (obs s).
Proof. destruct s; reflexivity. Qed.
Lemma obs_get_cfg s : s_cfg (obs s) = s_cfg s.
Proof. destruct s; reflexivity. Qed.
Lemma obs_set_c02 v s : obs (set_c02 v s) = set_c02 v (obs s).
Proof. destruct s; reflexivity. Qed.
Lemma obs_get_c02 s : s_c02 (obs s) = s_c02 s.
Proof. destruct s; reflexivity. Qed.
Lemma obs_set_ill v s : obs (set_ill v s) = set_ill v (obs s).
Proof. destruct s; reflexivity. Qed.
Lemma obs_get_ill s : s_ill (obs s) = s_ill s.
Proof. destruct s; reflexivity. Qed.
Lemma obs_set_c64 v s : obs (set_c64 v s) = set_c64 v (obs s).
Proof. destruct s; reflexivity. Qed.
Lemma obs_get_c64 s : s_c64 (obs s) = s_c64 s.
Proof. destruct s; reflexivity. Qed.
Lemma obs_set_final v s : obs (set_final v s) = set_final v (obs s).
Proof. destruct s; reflexivity. Qed.
Lemma obs_get_final s : s_final (obs s) = s_final s.
Proof. destruct s; reflexivity. Qed.
Lemma obs_set_pass v s : obs (set_pass v s) = set_pass v (obs s).
Proof. destruct s; reflexivity. Qed.
Lemma obs_get_pass s : s_pass (obs s) = s_pass s.
Proof. destruct s; reflexivity. Qed.
Lemma obs_set_pc v s : obs (set_pc v s) = set_pc v (obs s).
Proof. destruct s; reflexivity. Qed.
Lemma obs_get_pc s : s_pc (obs s) = s_pc s.
Proof. destruct s; reflexivity. Qed.
Lemma obs_set_errs v s : obs (set_errs v s) = set_errs v (obs s).
Proof. destruct s; reflexivity. Qed.
Lemma obs_get_errs s : s_errs (obs s) = s_errs s.
Proof. destruct s; reflexivity. Qed.
Lemma obs_set_warns v s : obs (set_warns v s) = set_warns v (obs s).
Proof. destruct s; reflexivity. Qed.
Lemma obs_get_warns s : s_warns (obs s) = s_warns s.
Proof. destruct s; reflexivity. Qed.
Lemma obs_set_msgs v s : obs (set_msgs v s) = obs s.
Proof. destruct s; reflexivity. Qed.
Lemma obs_set_changed v s : obs (set_changed v s) = set_changed v (obs s).
Proof. destruct s; reflexivity. Qed.
Lemma obs_get_changed s : s_changed (obs s) = s_changed s.
Proof. destruct s; reflexivity. Qed.
Lemma obs_set_origin v s : obs (set_origin v s) = set_origin v (obs s).
Proof. destruct s; reflexivity. Qed.
Lemma obs_get_origin s : s_origin (obs s) = s_origin s.
Proof. destruct s; reflexivity. Qed.
Lemma obs_set_org_spec v s : obs (set_org_spec v s) = set_org_spec v (obs s).
Proof. destruct s; reflexivity. Qed.
Lemma obs_get_org_spec s : s_org_spec (obs s) = s_org_spec s.
Proof. destruct s; reflexivity. Qed.
Lemma obs_set_org_once v s : obs (set_org_once v s) = set_org_once v (obs s).
Proof. destruct s; reflexivity. Qed.
Lemma obs_get_org_once s : s_org_once (obs s) = s_org_once s.
Proof. destruct s; reflexivity. Qed.
Lemma obs_set_pc_assigned v s : obs (set_pc_assigned v s) = set_pc_assigned v (obs s).
Proof. destruct s; reflexivity. Qed.
Lemma obs_get_pc_assigned s : s_pc_assigned (obs s) = s_pc_assigned s.
Proof. destruct s; reflexivity. Qed.
Lemma obs_set_code_gen v s : obs (set_code_gen v s) = set_code_gen v (obs s).
Proof. destruct s; reflexivity. Qed.
Lemma obs_get_code_gen s : s_code_gen (obs s) = s_code_gen s.
Proof. destruct s; reflexivity. Qed.
Lemma obs_set_stop v s : obs (set_stop v s) = set_stop v (obs s).
Proof. destruct s; reflexivity. Qed.
Lemma obs_get_stop s : s_stop (obs s) = s_stop s.
Proof. destruct s; reflexivity. Qed.
Lemma obs_set_ety v s : obs (set_ety v s) = set_ety v (obs s).
Proof. destruct s; reflexivity. Qed.
Lemma obs_get_ety s : s_ety (obs s) = s_ety s.
Proof. destruct s; reflexivity. Qed.
Lemma obs_set_dsz v s : obs (set_dsz v s) = obs s.
Proof. destruct s; reflexivity. Qed.
Lemma obs_set_mpi v s : obs (set_mpi v s) = set_mpi v (obs s).
Proof. destruct s; reflexivity. Qed.
Lemma obs_get_mpi s : s_mpi (obs s) = s_mpi s.
Proof. destruct s; reflexivity. Qed.
Lemma obs_set_maxmp v s : obs (set_maxmp v s) = set_maxmp v (obs s).
Proof. destruct s; reflexivity. Qed.
Lemma obs_get_maxmp s : s_maxmp (obs s) = s_maxmp s.
Proof. destruct s; reflexivity. Qed.
Lemma obs_set_forx v s : obs (set_forx v s) = set_forx v (obs s).
Proof. destruct s; reflexivity. Qed.
Lemma obs_get_forx s : s_forx (obs s) = s_forx s.
Proof. destruct s; reflexivity. Qed.
Lemma obs_set_fory v s : obs (set_fory v s) = set_fory v (obs s).
Proof. destruct s; reflexivity. Qed.
Lemma obs_get_fory s : s_fory (obs s) = s_fory s.
Proof. destruct s; reflexivity. Qed.
Lemma obs_set_scope v s : obs (set_scope v s) = set_scope v (obs s).
Proof. destruct s; reflexivity. Qed.
Lemma obs_get_scope s : s_scope (obs s) = s_scope s.
Proof. destruct s; reflexivity. Qed.
Lemma obs_set_label v s : obs (set_label v s) = set_label v (obs s).
Proof. destruct s; reflexivity. Qed.
Lemma obs_get_label s : s_label (obs s) = s_label s.
Proof. destruct s; reflexivity. Qed.
Lemma obs_set_out v s : obs (set_out v s) = set_out v (obs s).
Proof. destruct s; reflexivity. Qed.
Lemma obs_get_out s : s_out (obs s) = s_out s.
Proof. destruct s; reflexivity. Qed.
Lemma obs_set_opened v s : obs (set_opened v s) = set_opened v (obs s).
Proof. destruct s; reflexivity. Qed.
Lemma obs_get_opened s : s_opened (obs s) = s_opened s.
Proof. destruct s; reflexivity. Qed.
Lemma obs_set_total v s : obs (set_total v s) = set_total v (obs s).
Proof. destruct s; reflexivity. Qed.
Lemma obs_get_total s : s_total (obs s) = s_total s.
Proof. destruct s; reflexivity. Qed.
Lemma obs_set_delta v s : obs (set_delta v s) = obs s.
Proof. destruct s; reflexivity. Qed.
Lemma obs_set_list v s : obs (set_list v s) = obs s.
Proof. destruct s; reflexivity. Qed.
Lemma obs_set_pstate v s : obs (set_pstate v s) = set_pstate v (obs s).
Proof. destruct s; reflexivity. Qed.
Lemma obs_get_pstate s : s_pstate (obs s) = s_pstate s.
Proof. destruct s; reflexivity. Qed.
Lemma obs_set_console v s : obs (set_console v s) = set_console v (obs s).
Proof. destruct s; reflexivity. Qed.
Lemma obs_get_console s : s_console (obs s) = s_console s.
Proof. destruct s; reflexivity. Qed.
Lemma obs_set_line v s : obs (set_line v s) = set_line v (obs s).
Proof. destruct s; reflexivity. Qed.
Lemma obs_get_line s : s_line (obs s) = s_line s.
Proof. destruct s; reflexivity. Qed.
Lemma obs_set_file v s : obs (set_file v s) = set_file v (obs s).
Proof. destruct s; reflexivity. Qed.
Lemma obs_get_file s : s_file (obs s) = s_file s.
Proof. destruct s; reflexivity. Qed.
Lemma obs_set_fstack v s : obs (set_fstack v s) = set_fstack v (obs s).
Proof. destruct s; reflexivity. Qed.
Lemma obs_get_fstack s : s_fstack (obs s) = s_fstack s.
Proof. destruct s; reflexivity. Qed.
Lemma obs_set_input v s : obs (set_input v s) = set_input v (obs s).
Proof. destruct s; reflexivity. Qed.
Lemma obs_get_input s : s_input (obs s) = s_input s.
Proof. destruct s; reflexivity. Qed.
Lemma obs_set_skip v s : obs (set_skip v s) = set_skip v (obs s).
Proof. destruct s; reflexivity. Qed.
Lemma obs_get_skip s : s_skip (obs s) = s_skip s.
Proof. destruct s; reflexivity. Qed.
Lemma obs_set_ifs v s : obs (set_ifs v s) = set_ifs v (obs s).
Proof. destruct s; reflexivity. Qed.
Lemma obs_get_ifs s : s_ifs (obs s) = s_ifs s.
Proof. destruct s; reflexivity. Qed.
Lemma obs_set_mstack v s : obs (set_mstack v s) = set_mstack v (obs s).
Proof. destruct s; reflexivity. Qed.
Lemma obs_get_mstack s : s_mstack (obs s) = s_mstack s.
Proof. destruct s; reflexivity. Qed.
Lemma obs_set_minus v s : obs (set_minus v s) = set_minus v (obs s).
Proof. destruct s; reflexivity. Qed.
Lemma obs_get_minus s : s_minus (obs s) = s_minus s.
Proof. destruct s; reflexivity. Qed.
Lemma obs_set_plus v s : obs (set_plus v s) = set_plus v (obs s).
Proof. destruct s; reflexivity. Qed.
Lemma obs_get_plus s : s_plus (obs s) = s_plus s.
Proof. destruct s; reflexivity. Qed.
Lemma obs_set_dict v s : obs (set_dict v s) = obs s.
Proof. destruct s; reflexivity. Qed.
Lemma obs_set_syms v s : obs (set_syms v s) = obs s.
Proof. destruct s; reflexivity. Qed.
Lemma obs_set_mdict v s : obs (set_mdict v s) = set_mdict v (obs s).
Proof. destruct s; reflexivity. Qed.
Lemma obs_get_mdict s : s_mdict (obs s) = s_mdict s.
Proof. destruct s; reflexivity. Qed.
Lemma obs_set_mvals v s : obs (set_mvals v s) = set_mvals v (obs s).
Proof. destruct s; reflexivity. Qed.
Lemma obs_get_mvals s : s_mvals (obs s) = s_mvals s.
Proof. destruct s; reflexivity. Qed.
Lemma obs_set_nodes v s : obs (set_nodes v s) = obs s.
Proof. destruct s; reflexivity. Qed.
Lemma obs_set_gen v s : obs (set_gen v s) = set_gen v (obs s).
Proof. destruct s; reflexivity. Qed.
Lemma obs_get_gen s : s_gen (obs s) = s_gen s.
Proof. destruct s; reflexivity. Qed.
Lemma obs_set_macdef v s : obs (set_macdef v s) = set_macdef v (obs s).
Proof. destruct s; reflexivity. Qed.
Lemma obs_get_macdef s : s_macdef (obs s) = s_macdef s.
Proof. destruct s; reflexivity. Qed.
Lemma obs_set_soft v s : obs (set_soft v s) = obs s.
Proof. destruct s; reflexivity. Qed.
Ltac obs_simp := repeat match goal with
  | |- context [obs (set_cfg ?v ?s)] => rewrite (obs_set_cfg v s)
  | |- context [s_cfg (obs ?s)] => rewrite (obs_get_cfg s)
  | |- context [obs (set_c02 ?v ?s)] => rewrite (obs_set_c02 v s)
  | |- context [s_c02 (obs ?s)] => rewrite (obs_get_c02 s)
  | |- context [obs (set_ill ?v ?s)] => rewrite (obs_set_ill v s)
  | |- context [s_ill (obs ?s)] => rewrite (obs_get_ill s)
  | |- context [obs (set_c64 ?v ?s)] => rewrite (obs_set_c64 v s)
  | |- context [s_c64 (obs ?s)] => rewrite (obs_get_c64 s)
  | |- context [obs (set_final ?v ?s)] => rewrite (obs_set_final v s)
  | |- context [s_final (obs ?s)] => rewrite (obs_get_final s)
  | |- context [obs (set_pass ?v ?s)] => rewrite (obs_set_pass v s)
  | |- context [s_pass (obs ?s)] => rewrite (obs_get_pass s)
  | |- context [obs (set_pc ?v ?s)] => rewrite (obs_set_pc v s)
  | |- context [s_pc (obs ?s)] => rewrite (obs_get_pc s)
  | |- context [obs (set_errs ?v ?s)] => rewrite (obs_set_errs v s)
  | |- context [s_errs (obs ?s)] => rewrite (obs_get_errs s)
  | |- context [obs (set_warns ?v ?s)] => rewrite (obs_set_warns v s)
  | |- context [s_warns (obs ?s)] => rewrite (obs_get_warns s)
  | |- context [obs (set_msgs ?v ?s)] => rewrite (obs_set_msgs v s)
  | |- context [obs (set_changed ?v ?s)] => rewrite (obs_set_changed v s)
  | |- context [s_changed (obs ?s)] => rewrite (obs_get_changed s)
  | |- context [obs (set_origin ?v ?s)] => rewrite (obs_set_origin v s)
  | |- context [s_origin (obs ?s)] => rewrite (obs_get_origin s)
  | |- context [obs (set_org_spec ?v ?s)] => rewrite (obs_set_org_spec v s)
  | |- context [s_org_spec (obs ?s)] => rewrite (obs_get_org_spec s)
  | |- context [obs (set_org_once ?v ?s)] => rewrite (obs_set_org_once v s)
  | |- context [s_org_once (obs ?s)] => rewrite (obs_get_org_once s)
  | |- context [obs (set_pc_assigned ?v ?s)] => rewrite (obs_set_pc_assigned v s)
  | |- context [s_pc_assigned (obs ?s)] => rewrite (obs_get_pc_assigned s)
  | |- context [obs (set_code_gen ?v ?s)] => rewrite (obs_set_code_gen v s)
  | |- context [s_code_gen (obs ?s)] => rewrite (obs_get_code_gen s)
  | |- context [obs (set_stop ?v ?s)] => rewrite (obs_set_stop v s)
  | |- context [s_stop (obs ?s)] => rewrite (obs_get_stop s)
  | |- context [obs (set_ety ?v ?s)] => rewrite (obs_set_ety v s)
  | |- context [s_ety (obs ?s)] => rewrite (obs_get_ety s)
  | |- context [obs (set_dsz ?v ?s)] => rewrite (obs_set_dsz v s)
  | |- context [obs (set_mpi ?v ?s)] => rewrite (obs_set_mpi v s)
  | |- context [s_mpi (obs ?s)] => rewrite (obs_get_mpi s)
  | |- context [obs (set_maxmp ?v ?s)] => rewrite (obs_set_maxmp v s)
  | |- context [s_maxmp (obs ?s)] => rewrite (obs_get_maxmp s)
  | |- context [obs (set_forx ?v ?s)] => rewrite (obs_set_forx v s)
  | |- context [s_forx (obs ?s)] => rewrite (obs_get_forx s)
  | |- context [obs (set_fory ?v ?s)] => rewrite (obs_set_fory v s)
  | |- context [s_fory (obs ?s)] => rewrite (obs_get_fory s)
  | |- context [obs (set_scope ?v ?s)] => rewrite (obs_set_scope v s)
  | |- context [s_scope (obs ?s)] => rewrite (obs_get_scope s)
  | |- context [obs (set_label ?v ?s)] => rewrite (obs_set_label v s)
  | |- context [s_label (obs ?s)] => rewrite (obs_get_label s)
  | |- context [obs (set_out ?v ?s)] => rewrite (obs_set_out v s)
  | |- context [s_out (obs ?s)] => rewrite (obs_get_out s)
  | |- context [obs (set_opened ?v ?s)] => rewrite (obs_set_opened v s)
  | |- context [s_opened (obs ?s)] => rewrite (obs_get_opened s)
  | |- context [obs (set_total ?v ?s)] => rewrite (obs_set_total v s)
  | |- context [s_total (obs ?s)] => rewrite (obs_get_total s)
  | |- context [obs (set_delta ?v ?s)] => rewrite (obs_set_delta v s)
  | |- context [obs (set_list ?v ?s)] => rewrite (obs_set_list v s)
  | |- context [obs (set_pstate ?v ?s)] => rewrite (obs_set_pstate v s)
  | |- context [s_pstate (obs ?s)] => rewrite (obs_get_pstate s)
  | |- context [obs (set_console ?v ?s)] => rewrite (obs_set_console v s)
  | |- context [s_console (obs ?s)] => rewrite (obs_get_console s)
  | |- context [obs (set_line ?v ?s)] => rewrite (obs_set_line v s)
  | |- context [s_line (obs ?s)] => rewrite (obs_get_line s)
  | |- context [obs (set_file ?v ?s)] => rewrite (obs_set_file v s)
  | |- context [s_file (obs ?s)] => rewrite (obs_get_file s)
  | |- context [obs (set_fstack ?v ?s)] => rewrite (obs_set_fstack v s)
  | |- context [s_fstack (obs ?s)] => rewrite (obs_get_fstack s)
  | |- context [obs (set_input ?v ?s)] => rewrite (obs_set_input v s)
  | |- context [s_input (obs ?s)] => rewrite (obs_get_input s)
  | |- context [obs (set_skip ?v ?s)] => rewrite (obs_set_skip v s)
  | |- context [s_skip (obs ?s)] => rewrite (obs_get_skip s)
  | |- context [obs (set_ifs ?v ?s)] => rewrite (obs_set_ifs v s)
  | |- context [s_ifs (obs ?s)] => rewrite (obs_get_ifs s)
  | |- context [obs (set_mstack ?v ?s)] => rewrite (obs_set_mstack v s)
  | |- context [s_mstack (obs ?s)] => rewrite (obs_get_mstack s)
  | |- context [obs (set_minus ?v ?s)] => rewrite (obs_set_minus v s)
  | |- context [s_minus (obs ?s)] => rewrite (obs_get_minus s)
  | |- context [obs (set_plus ?v ?s)] => rewrite (obs_set_plus v s)
  | |- context [s_plus (obs ?s)] => rewrite (obs_get_plus s)
  | |- context [obs (set_dict ?v ?s)] => rewrite (obs_set_dict v s)
  | |- context [obs (set_syms ?v ?s)] => rewrite (obs_set_syms v s)
  | |- context [obs (set_mdict ?v ?s)] => rewrite (obs_set_mdict v s)
  | |- context [s_mdict (obs ?s)] => rewrite (obs_get_mdict s)
  | |- context [obs (set_mvals ?v ?s)] => rewrite (obs_set_mvals v s)
  | |- context [s_mvals (obs ?s)] => rewrite (obs_get_mvals s)
  | |- context [obs (set_nodes ?v ?s)] => rewrite (obs_set_nodes v s)
  | |- context [obs (set_gen ?v ?s)] => rewrite (obs_set_gen v s)
  | |- context [s_gen (obs ?s)] => rewrite (obs_get_gen s)
  | |- context [obs (set_macdef ?v ?s)] => rewrite (obs_set_macdef v s)
  | |- context [s_macdef (obs ?s)] => rewrite (obs_get_macdef s)
  | |- context [obs (set_soft ?v ?s)] => rewrite (obs_set_soft v s)
  end.
Ltac obs_simp_in H := repeat match type of H with
  | context [obs (set_cfg ?v ?s)] => rewrite (obs_set_cfg v s) in H
  | context [s_cfg (obs ?s)] => rewrite (obs_get_cfg s) in H
  | context [obs (set_c02 ?v ?s)] => rewrite (obs_set_c02 v s) in H
  | context [s_c02 (obs ?s)] => rewrite (obs_get_c02 s) in H
  | context [obs (set_ill ?v ?s)] => rewrite (obs_set_ill v s) in H
  | context [s_ill (obs ?s)] => rewrite (obs_get_ill s) in H
  | context [obs (set_c64 ?v ?s)] => rewrite (obs_set_c64 v s) in H
  | context [s_c64 (obs ?s)] => rewrite (obs_get_c64 s) in H
  | context [obs (set_final ?v ?s)] => rewrite (obs_set_final v s) in H
  | context [s_final (obs ?s)] => rewrite (obs_get_final s) in H
  | context [obs (set_pass ?v ?s)] => rewrite (obs_set_pass v s) in H
  | context [s_pass (obs ?s)] => rewrite (obs_get_pass s) in H
  | context [obs (set_pc ?v ?s)] => rewrite (obs_set_pc v s) in H
  | context [s_pc (obs ?s)] => rewrite (obs_get_pc s) in H
  | context [obs (set_errs ?v ?s)] => rewrite (obs_set_errs v s) in H
  | context [s_errs (obs ?s)] => rewrite (obs_get_errs s) in H
  | context [obs (set_warns ?v ?s)] => rewrite (obs_set_warns v s) in H
  | context [s_warns (obs ?s)] => rewrite (obs_get_warns s) in H
  | context [obs (set_msgs ?v ?s)] => rewrite (obs_set_msgs v s) in H
  | context [obs (set_changed ?v ?s)] => rewrite (obs_set_changed v s) in H
  | context [s_changed (obs ?s)] => rewrite (obs_get_changed s) in H
  | context [obs (set_origin ?v ?s)] => rewrite (obs_set_origin v s) in H
  | context [s_origin (obs ?s)] => rewrite (obs_get_origin s) in H
  | context [obs (set_org_spec ?v ?s)] => rewrite (obs_set_org_spec v s) in H
  | context [s_org_spec (obs ?s)] => rewrite (obs_get_org_spec s) in H
  | context [obs (set_org_once ?v ?s)] => rewrite (obs_set_org_once v s) in H
  | context [s_org_once (obs ?s)] => rewrite (obs_get_org_once s) in H
  | context [obs (set_pc_assigned ?v ?s)] => rewrite (obs_set_pc_assigned v s) in H
  | context [s_pc_assigned (obs ?s)] => rewrite (obs_get_pc_assigned s) in H
  | context [obs (set_code_gen ?v ?s)] => rewrite (obs_set_code_gen v s) in H
  | context [s_code_gen (obs ?s)] => rewrite (obs_get_code_gen s) in H
  | context [obs (set_stop ?v ?s)] => rewrite (obs_set_stop v s) in H
  | context [s_stop (obs ?s)] => rewrite (obs_get_stop s) in H
  | context [obs (set_ety ?v ?s)] => rewrite (obs_set_ety v s) in H
  | context [s_ety (obs ?s)] => rewrite (obs_get_ety s) in H
  | context [obs (set_dsz ?v ?s)] => rewrite (obs_set_dsz v s) in H
  | context [obs (set_mpi ?v ?s)] => rewrite (obs_set_mpi v s) in H
  | context [s_mpi (obs ?s)] => rewrite (obs_get_mpi s) in H
  | context [obs (set_maxmp ?v ?s)] => rewrite (obs_set_maxmp v s) in H
  | context [s_maxmp (obs ?s)] => rewrite (obs_get_maxmp s) in H
  | context [obs (set_forx ?v ?s)] => rewrite (obs_set_forx v s) in H
  | context [s_forx (obs ?s)] => rewrite (obs_get_forx s) in H
  | context [obs (set_fory ?v ?s)] => rewrite (obs_set_fory v s) in H
  | context [s_fory (obs ?s)] => rewrite (obs_get_fory s) in H
  | context [obs (set_scope ?v ?s)] => rewrite (obs_set_scope v s) in H
  | context [s_scope (obs ?s)] => rewrite (obs_get_scope s) in H
  | context [obs (set_label ?v ?s)] => rewrite (obs_set_label v s) in H
  | context [s_label (obs ?s)] => rewrite (obs_get_label s) in H
  | context [obs (set_out ?v ?s)] => rewrite (obs_set_out v s) in H
  | context [s_out (obs ?s)] => rewrite (obs_get_out s) in H
  | context [obs (set_opened ?v ?s)] => rewrite (obs_set_opened v s) in H
  | context [s_opened (obs ?s)] => rewrite (obs_get_opened s) in H
  | context [obs (set_total ?v ?s)] => rewrite (obs_set_total v s) in H
  | context [s_total (obs ?s)] => rewrite (obs_get_total s) in H
  | context [obs (set_delta ?v ?s)] => rewrite (obs_set_delta v s) in H
  | context [obs (set_list ?v ?s)] => rewrite (obs_set_list v s) in H
  | context [obs (set_pstate ?v ?s)] => rewrite (obs_set_pstate v s) in H
  | context [s_pstate (obs ?s)] => rewrite (obs_get_pstate s) in H
  | context [obs (set_console ?v ?s)] => rewrite (obs_set_console v s) in H
  | context [s_console (obs ?s)] => rewrite (obs_get_console s) in H
  | context [obs (set_line ?v ?s)] => rewrite (obs_set_line v s) in H
  | context [s_line (obs ?s)] => rewrite (obs_get_line s) in H
  | context [obs (set_file ?v ?s)] => rewrite (obs_set_file v s) in H
  | context [s_file (obs ?s)] => rewrite (obs_get_file s) in H
  | context [obs (set_fstack ?v ?s)] => rewrite (obs_set_fstack v s) in H
  | context [s_fstack (obs ?s)] => rewrite (obs_get_fstack s) in H
  | context [obs (set_input ?v ?s)] => rewrite (obs_set_input v s) in H
  | context [s_input (obs ?s)] => rewrite (obs_get_input s) in H
  | context [obs (set_skip ?v ?s)] => rewrite (obs_set_skip v s) in H
  | context [s_skip (obs ?s)] => rewrite (obs_get_skip s) in H
  | context [obs (set_ifs ?v ?s)] => rewrite (obs_set_ifs v s) in H
  | context [s_ifs (obs ?s)] => rewrite (obs_get_ifs s) in H
  | context [obs (set_mstack ?v ?s)] => rewrite (obs_set_mstack v s) in H
  | context [s_mstack (obs ?s)] => rewrite (obs_get_mstack s) in H
  | context [obs (set_minus ?v ?s)] => rewrite (obs_set_minus v s) in H
  | context [s_minus (obs ?s)] => rewrite (obs_get_minus s) in H
  | context [obs (set_plus ?v ?s)] => rewrite (obs_set_plus v s) in H
  | context [s_plus (obs ?s)] => rewrite (obs_get_plus s) in H
  | context [obs (set_dict ?v ?s)] => rewrite (obs_set_dict v s) in H
  | context [obs (set_syms ?v ?s)] => rewrite (obs_set_syms v s) in H
  | context [obs (set_mdict ?v ?s)] => rewrite (obs_set_mdict v s) in H
  | context [s_mdict (obs ?s)] => rewrite (obs_get_mdict s) in H
  | context [obs (set_mvals ?v ?s)] => rewrite (obs_set_mvals v s) in H
  | context [s_mvals (obs ?s)] => rewrite (obs_get_mvals s) in H
  | context [obs (set_nodes ?v ?s)] => rewrite (obs_set_nodes v s) in H
  | context [obs (set_gen ?v ?s)] => rewrite (obs_set_gen v s) in H
  | context [s_gen (obs ?s)] => rewrite (obs_get_gen s) in H
  | context [obs (set_macdef ?v ?s)] => rewrite (obs_set_macdef v s) in H
  | context [s_macdef (obs ?s)] => rewrite (obs_get_macdef s) in H
  | context [obs (set_soft ?v ?s)] => rewrite (obs_set_soft v s) in H
  end.
Global Opaque obs.
Lemma obs_evo s s' : evo s s' -> obs s' = set_errs (s_errs s') (obs s).
Proof. intros H. etransitivity; [exact (f_equal obs (e_same _ _ H))|]. obs_simp; reflexivity. Qed.
Lemma errs_id s : set_errs (s_errs s) s = s.
Proof. destruct s; reflexivity. Qed.

(** changes of the nodes during a statement *)
Inductive nx2 (s s' : state) : node -> node -> Prop :=
| N2nx x x' : nx s s' x x' -> nx2 s s' x x'
| N2op i o m c l i' o' m' c' l' : nx2 s s' (mkNode (KOp i o m c) l) (mkNode (KOp i' o' m' c') l')
| N2lab n i j l : nx2 s s' (mkNode (KLabel n i) l) (mkNode (KLabel n j) l).

(** the symbol table means the same, trees keep their meaning *)
Record hv0 (s s' : state) : Prop := mkHv0 {
  h_keep : kept s s';
  h_tab : tab s';
  h_scope : s_scope s' = s_scope s;
  h_rec : forall a y, nth_error (s_syms s) a = Some y -> exists y', nth_error (s_syms s') a = Some y' /\ ycore y' = ycore y;
  h_res : forall n, plain n -> meaning s' n = meaning s n;
  h_len : (length (s_nodes s) <= length (s_nodes s'))%nat;
  h_node : forall p x, nth_error (s_nodes s) p = Some x -> exists x', nth_error (s_nodes s') p = Some x' /\ nx2 s s' x x'
}.
Lemma hv0_evo s s' : evo s s' -> hv0 s s'.
Proof.
  intros H. constructor; try apply H.
  - exact (f_equal s_scope (e_same _ _ H)).
  - intros p x Hp. destruct (e_node _ _ H _ _ Hp) as (x' & E & N). exists x'. split; auto. constructor; auto.
Qed.
Lemma hv0_trans a b c : hv0 a b -> hv0 b c -> hv0 a c.
Proof.
  intros H1 H2. constructor.
  - exact (kept_trans _ _ _ (h_keep _ _ H1) (h_keep _ _ H2)).
  - apply H2.
  - rewrite (h_scope _ _ H2). apply (h_scope _ _ H1).
  - intros p y Hp. destruct (h_rec _ _ H1 _ _ Hp) as (y1 & Hp1 & E1). destruct (h_rec _ _ H2 _ _ Hp1) as (y2 & Hp2 & E2).
    exists y2. split; congruence.
  - intros n Hn. rewrite (h_res _ _ H2 n Hn). apply (h_res _ _ H1 n Hn).
  - etransitivity; [apply (h_len _ _ H1)|apply (h_len _ _ H2)].
  - intros p x Hp. destruct (h_node _ _ H1 _ _ Hp) as (x1 & Hp1 & E1). destruct (h_node _ _ H2 _ _ Hp1) as (x2 & Hp2 & E2).
    exists x2. split; auto. clear Hp Hp1 Hp2.
    destruct E1 as [x x1 E1| |].
    + destruct E2 as [x1 x2 E2| |].
      * constructor. destruct E1 as [x|v w l|n a0 y l Pn Hy Ey].
        -- destruct E2 as [x|v w l|n a0 y l Pn Hy Ey]; try constructor. econstructor; eauto. rewrite Ey. apply (h_res _ _ H1 _ Pn).
        -- inversion E2; subst; constructor.
        -- assert (x2 = mkNode (KId n (Some a0)) l) as -> by (inversion E2; reflexivity).
           destruct (h_rec _ _ H2 _ _ Hy) as (y' & Hy' & Ey'). econstructor; eauto. congruence.
      * inversion E1; subst. apply N2op.
      * inversion E1; subst. apply N2lab.
    + destruct x2 as [k l2]. inversion E2 as [? ? E3| |]; subst; [inversion E3; subst|]; apply N2op.
    + destruct x2 as [k l2]. inversion E2 as [? ? E3| |]; subst; [inversion E3; subst|]; apply N2lab.
Qed.
(** a state with the same nodes and symbols *)
Lemma hv0_frame s s' : tab s -> s_nodes s' = s_nodes s -> s_syms s' = s_syms s -> s_dict s' = s_dict s -> s_scope s' = s_scope s ->
  hv0 s s'.
Proof.
  intros T E1 E2 E3 E4. constructor.
  - apply kept_same; auto.
  - unfold tab, table_ok, single, recs in *. rewrite E2, E3, E4. exact T.
  - exact E4.
  - rewrite E2. eauto.
  - intros n _. unfold meaning, resolve, dl. rewrite E2, E3, E4. reflexivity.
  - rewrite E1. auto.
  - rewrite E1. intros p x H. exists x. split; auto. constructor. constructor.
Qed.
(** a change of an opcode or label node *)
Lemma hv0_node p k l k' l' s : cold k' = true -> tab s -> nth_error (s_nodes s) p = Some (mkNode k l) ->
  nx2 s (set_nodes (upd p (mkNode k' l') (s_nodes s)) s) (mkNode k l) (mkNode k' l') ->
  hv0 s (set_nodes (upd p (mkNode k' l') (s_nodes s)) s).
Proof.
  intros Ck T H X. constructor; auto; cbn [s_syms s_nodes set_nodes]; eauto.
  - apply kept_upd, Ck.
  - rewrite upd_length. auto.
  - intros q x Hq. destruct (Nat.eq_dec p q) as [<-|Hn].
    + rewrite nth_upd_same by (apply nth_error_Some; congruence). eexists; split; [reflexivity|]. congruence.
    + rewrite nth_upd_other by auto. exists x. split; auto. constructor. constructor.
Qed.

(** and what is listed is what is written *)
Record hv (s s' : state) : Prop := mkHv { h_base :> hv0 s s'; h_lk : lk s s' }.
Lemma lk_evo s s' : evo s s' -> lk s s'.
Proof.
  intros H. pose proof (e_errs _ _ H) as E0. pose proof (e_same _ _ H) as E.
  apply lk_err; [exact (f_equal s_list E)|exact (f_equal s_out E)|exact (f_equal s_total E)|exact E0|exact (f_equal s_soft E)|
    exact (f_equal s_c64 E)|exact (f_equal s_opened E)|exact (f_equal s_org_spec E)|exact (f_equal ltag E)|exact (f_equal s_final E)|exact (f_equal s_pc_assigned E)|exact (f_equal s_pc E)].
Qed.
Lemma hv_evo s s' : evo s s' -> hv s s'.
Proof. intros H. split; [apply hv0_evo, H|apply lk_evo, H]. Qed.
Lemma hv_trans a b c : hv a b -> hv b c -> hv a c.
Proof. intros [A1 A2] [B1 B2]. split; [eapply hv0_trans; eauto|eapply lk_trans; eauto]. Qed.
Lemma hv_frame s s' : tab s -> s_nodes s' = s_nodes s -> s_syms s' = s_syms s -> s_dict s' = s_dict s -> s_scope s' = s_scope s ->
  lview s' = lview s -> s_pc s' = s_pc s -> hv s s'.
Proof. intros. split; [apply hv0_frame; auto|apply lk_same; auto]. Qed.
(** the program counter has yet to move by [n] *)
Record hvp (n : Z) (s s' : state) : Prop := mkHvp { hp_base :> hv0 s s'; hp_lk : lkp n s s' }.
Lemma hvp_trans n a b c : hv a b -> hvp n b c -> hvp n a c.
Proof. intros [A1 A2] [B1 B2]. split; [eapply hv0_trans; eauto|eapply lkp_trans; eauto]. Qed.
Lemma hvp_move n s s' t : hvp n s s' -> lview t = lview s' -> s_pc t = s_pc s' + n -> s_nodes t = s_nodes s' -> s_syms t = s_syms s' ->
  s_dict t = s_dict s' -> s_scope t = s_scope s' -> hv s t.
Proof. intros [A1 A2] E1 E2 E3 E4 E5 E6. split; [eapply hv0_trans; [exact A1|apply hv0_frame; auto; apply (h_tab _ _ A1)]|apply A2; auto]. Qed.
Lemma hvp_frame n s s' t : hvp n s s' -> lview t = lview s' -> s_pc t = s_pc s' -> s_nodes t = s_nodes s' -> s_syms t = s_syms s' ->
  s_dict t = s_dict s' -> s_scope t = s_scope s' -> hvp n s t.
Proof. intros [A1 A2] E1 E2 E3 E4 E5 E6. split; [eapply hv0_trans; [exact A1|apply hv0_frame; auto; apply (h_tab _ _ A1)]|eapply lkp_same; eauto]. Qed.
Lemma hvp_idle n s : tab s -> s_final s = false -> hvp n s s.
Proof. intros T F. split; [apply hv0_frame; auto|apply lkp_idle; auto]. Qed.
Lemma hv_node p k l k' l' s : cold k' = true -> tab s -> nth_error (s_nodes s) p = Some (mkNode k l) ->
  nx2 s (set_nodes (upd p (mkNode k' l') (s_nodes s)) s) (mkNode k l) (mkNode k' l') ->
  hv s (set_nodes (upd p (mkNode k' l') (s_nodes s)) s).
Proof. intros. split; [eapply hv0_node; eauto|apply lk_same; reflexivity]. Qed.

Lemma rep_hv C u s s' p e : hv0 s s' -> rep C u s p e -> rep C u s' p e.
Proof.
  intros H R. induction R as [p v N|p v N|p n a y N D Hy Ey|p n Eu N P Ey|p o q e N U L R IH|p o q1 q2 e1 e2 N U L1 L2 R1 IH1 R2 IH2];
    destruct (h_node _ _ H _ _ N) as (x' & N' & X); inversion X as [x1 x2 Y| |]; subst.
  - inversion Y; subst. eapply RepInt; eauto.
  - inversion Y; subst; eapply RepPc; eauto.
  - inversion Y; subst. destruct (h_rec _ _ H _ _ Hy) as (y' & Hy' & E'). eapply RepCached; eauto. congruence.
  - inversion Y as [| |n' a y l' Pn Hy Ey']; subst.
    + eapply RepName; eauto. rewrite (h_res _ _ H) by auto. exact Ey.
    + eapply RepCached; eauto; [apply plain_direct; auto|congruence].
  - inversion Y; subst. eapply RepUn; eauto.
  - inversion Y; subst. eapply RepBin; eauto.
Qed.

(** evaluating an operand with a value *)
Definition known (C : cstr -> core_t) (pc : Z) (e : expr) (v : Z) : Prop :=
  sem (fun n => cval (C n)) pc e = Some (v, 0) /\ eager e = true.

Definition ops_kept (s s' : state) : Prop := forall p i o m c l,
  nth_error (s_nodes s) p = Some (mkNode (KOp i o m c) l) -> nth_error (s_nodes s') p = Some (mkNode (KOp i o m c) l).
(** all opcode nodes but [p] *)
Definition ops_but (p : nat) (s s' : state) : Prop := forall p' i o m c l, p' <> p ->
  nth_error (s_nodes s) p' = Some (mkNode (KOp i o m c) l) -> nth_error (s_nodes s') p' = Some (mkNode (KOp i o m c) l).
Lemma ops_but_trans p a b c : ops_but p a b -> ops_but p b c -> ops_but p a c.
Proof. intros H1 H2 p' i o m k l Hp H. apply H2; auto. Qed.
Lemma ops_but_kept p s s' : ops_kept s s' -> ops_but p s s'.
Proof. intros H p' i o m c l _ N. apply H, N. Qed.
Lemma ops_but_upd p x s : ops_but p s (set_nodes (upd p x (s_nodes s)) s).
Proof. intros p' i o m c l Hp N. cbn [s_nodes set_nodes]. rewrite nth_upd_other by auto. exact N. Qed.
Lemma ops_but_same p s s' : s_nodes s' = s_nodes s -> ops_but p s s'.
Proof. intros E p' i o m c l _ N. rewrite E. exact N. Qed.
Lemma ops_kept_refl s : ops_kept s s. Proof. intros p i o m c l H; exact H. Qed.
Lemma ops_kept_trans a b c : ops_kept a b -> ops_kept b c -> ops_kept a c.
Proof. intros H1 H2 p i o m d l H. apply H2, H1, H. Qed.
Lemma ops_kept_same s s' : s_nodes s' = s_nodes s -> ops_kept s s'.
Proof. intros E p i o m c l H. rewrite E. exact H. Qed.
Lemma ops_kept_alloc k l s : ops_kept s (set_nodes (s_nodes s ++ [mkNode k l]) s).
Proof. intros p i o m c l' H. cbn [s_nodes set_nodes]. rewrite nth_error_app1; [exact H|]. apply nth_error_Some. congruence. Qed.

Lemma eval_known C u e v F s q : (height e <= F)%nat -> tab s -> s_stop s = false -> rep C u s q e -> known C (s_pc s) e v ->
  exists s', expand F q s = Ok v s' /\ hv s s' /\ obs s' = obs s /\ rep C false s' q e /\
    ops_kept s s' /\ s_dsz s' = s_dsz s.
Proof.
  intros HF T St R (K & Eg). pose proof (eval_rep C u e F s q HF T St R) as E. rewrite K in E. cbn [evaluates] in E.
  destruct E as (s' & E1 & E2 & E3 & E4). exists s'. split; [exact E1|]. split; [apply hv_evo, E2|].
  split; [rewrite (obs_evo _ _ E2), E3, Z.add_0_r; rewrite <- (obs_get_errs s); apply errs_id|]. split; [apply E4; auto|].
  split; [|exact (f_equal s_dsz (e_same _ _ E2))].
  intros p i o m c l H. destruct (e_node _ _ E2 _ _ H) as (x' & H' & X). inversion X; subst; exact H'.
Qed.

Lemma eval_quiet C u e v F s q s' : (height e <= F)%nat -> tab s -> s_stop s = false -> rep C u s q e -> known C (s_pc s) e v ->
  expand F q s = Ok v s' -> s_list s' = s_list s /\ s_soft s' = s_soft s.
Proof.
  intros HF T St R (K & Eg) Ex. pose proof (eval_rep C u e F s q HF T St R) as E. rewrite K in E. cbn [evaluates] in E.
  destruct E as (s1 & E1 & E2 & _). rewrite Ex in E1. injection E1 as <-.
  split; [exact (f_equal s_list (e_same _ _ E2))|exact (f_equal s_soft (e_same _ _ E2))].
Qed.

(** ** Initialised operands *)
Definition unknown_name (C : cstr -> core_t) (e : expr) : bool := existsb (fun n => cuninit (C n)) (names e).

Lemma is_uninit_rep C s q e : rep C false s q e ->
  is_uninit q s = Ok (match e with ESym n => cuninit (C n) | _ => false end) s.
Proof.
  intros R. unfold is_uninit, node_get, gets, bind.
  inversion R as [p0 v0 N|p0 v0 N|p0 n a y N D Hy Ey|p0 n Eu N P Ey|p0 o q0 e0 N U L R'|p0 o q1 q2 e10 e20 N U L1 L2 R1 R2]; subst;
    rewrite N; unfold ret; cbn [n_kind]; try reflexivity; [|discriminate].
  unfold ret, sym_get, gets, bind. rewrite Hy. unfold ret. rewrite <- Ey. reflexivity.
Qed.
Fixpoint any_un (f : nat) (l : list nat) : M bool :=
  match l with
  | [] => ret false
  | q :: l => b <- has_uninit f q ;; if b then ret true else c <- is_uninit q ;; if c then ret true else any_un f l
  end.
Lemma has_uninit_eq f p s x : nth_error (s_nodes s) p = Some x -> has_uninit (S f) p s = any_un f (n_ops x) s.
Proof.
  intros N. cbn [has_uninit]. unfold bind at 1, node_get, gets, bind at 1. rewrite N. unfold ret at 1.
  generalize (n_ops x) as l. clear N. intros l. revert s. induction l as [|q l IH]; intros s; cbn [any_un]; [reflexivity|].
  unfold bind. destruct (has_uninit f q s) as [[] s1| | |]; auto.
  destruct (is_uninit q s1) as [[] s2| | |]; auto.
Qed.
Lemma any_un_cons f q l s a b : has_uninit f q s = Ok a s -> is_uninit q s = Ok b s ->
  any_un f (q :: l) s = if a || b then Ok true s else any_un f l s.
Proof. intros H1 H2. cbn [any_un]. unfold bind. rewrite H1. destruct a; [reflexivity|]. rewrite H2. destruct b; reflexivity. Qed.

Definition inner (C : cstr -> core_t) (e : expr) : bool := match e with ESym _ => false | _ => unknown_name C e end.
Definition outer (C : cstr -> core_t) (e : expr) : bool := match e with ESym n => cuninit (C n) | _ => false end.
Lemma inner_outer C e : inner C e || outer C e = unknown_name C e.
Proof. destruct e; cbn [inner outer]; try apply orb_false_r. unfold unknown_name. cbn. now rewrite orb_false_r. Qed.
Lemma has_uninit_rep C s e : forall q f, rep C false s q e -> (height e <= f)%nat -> has_uninit f q s = Ok (inner C e) s.
Proof.
  induction e as [v|n| |o e IH|o e1 IH1 e2 IH2]; intros q f R HF; (destruct f as [|f]; [cbn in HF; lia|]);
    inversion R as [p0 v0 N|p0 v0 N|p0 n0 a y N D Hy Ey|p0 n0 Eu N P Ey|p0 o0 q0 e0 N U L R'|p0 o0 q1 q2 e10 e20 N U L1 L2 R1 R2]; subst;
    rewrite (has_uninit_eq _ _ _ _ N); cbn [n_ops]; try reflexivity; cbn [height] in HF.
  - rewrite (any_un_cons _ _ _ _ _ _ (IH _ f R' ltac:(lia)) (is_uninit_rep _ _ _ _ R')). fold (outer C e). rewrite inner_outer.
    unfold inner, unknown_name. cbn [names]. destruct (existsb _ _); reflexivity.
  - rewrite (any_un_cons _ _ _ _ _ _ (IH1 _ f R1 ltac:(lia)) (is_uninit_rep _ _ _ _ R1)). fold (outer C e1). rewrite inner_outer.
    rewrite (any_un_cons _ _ _ _ _ _ (IH2 _ f R2 ltac:(lia)) (is_uninit_rep _ _ _ _ R2)). fold (outer C e2). rewrite inner_outer.
    unfold inner, unknown_name. cbn [names]. rewrite existsb_app. destruct (existsb _ (names e1)); [reflexivity|].
    destruct (existsb _ _); reflexivity.
Qed.
Lemma has_uninitialized_rep C s p k q e : nth_error (s_nodes s) p = Some (mkNode k [q]) -> rep C false s q e ->
  has_uninitialized p s = Ok (unknown_name C e) s.
Proof.
  intros N R. unfold has_uninitialized, gets, bind. rewrite (has_uninit_eq _ _ _ _ N). cbn [n_ops].
  pose proof (rep_height _ _ _ _ _ R) as [H1 H2].
  rewrite (any_un_cons _ _ _ _ _ _ (has_uninit_rep _ _ _ _ (length (s_nodes s)) R ltac:(lia)) (is_uninit_rep _ _ _ _ R)).
  fold (outer C e). rewrite inner_outer. destruct (unknown_name C e); reflexivity.
Qed.

(** ** Building an opcode node *)
Definition build_mode (g : Z -> Z) (m0 v : Z) (hu : bool) : Z * Z :=
  let mode := if g m_r =? -1 then m0 else m_r in
  let code := g mode in
  let short := if (negb (over v 255) && negb hu) || (code =? -1) then short_mode mode else mode in
  let use := negb (short =? mode) && negb (g short =? -1) in
  (if use then short else mode, if use then g short else code).

Definition not_A (e : expr) : Prop := match e with ESym n => stricmp n (cs "A") <> 0 | _ => True end.
Lemma is_id_A_rep C u s q e : rep C u s q e -> not_A e -> is_id_A q s = Ok false s.
Proof.
  intros R NA. unfold is_id_A, node_get, gets, bind.
  inversion R as [p0 v0 N|p0 v0 N|p0 n a y N D Hy Ey|p0 n Eu N P Ey|p0 o q0 e0 N U L R'|p0 o q1 q2 e10 e20 N U L1 L2 R1 R2]; subst;
    rewrite N; unfold ret; cbn [n_kind]; try reflexivity; unfold not_A in NA; now rewrite (proj2 (Z.eqb_neq _ _) NA).
Qed.

Lemma hv_refl s : tab s -> hv s s.
Proof. intros T. apply hv_evo, evo_refl, T. Qed.
Lemma hv_err n s : tab s -> hv s (set_errs (s_errs s + 1) (set_msgs (n :: s_msgs s) s)).
Proof. intros T. apply hv_evo, evo_err, T. Qed.
Lemma hv_alloc k l s : cold k = true -> tab s -> hv s (set_nodes (s_nodes s ++ [mkNode k l]) s).
Proof. intros Ck T. apply hv_evo, evo_alloc; auto. Qed.
Lemma obs_pc s s' : obs s' = obs s -> s_pc s' = s_pc s.
Proof. intros H. apply (f_equal s_pc) in H. obs_simp_in H; exact H. Qed.
Lemma obs_stop s s' : obs s' = obs s -> s_stop s' = s_stop s.
Proof. intros H. apply (f_equal s_stop) in H. obs_simp_in H; exact H. Qed.
Lemma obs_errs s s' : obs s' = obs s -> s_errs s' = s_errs s.
Proof. intros H. apply (f_equal s_errs) in H. obs_simp_in H; exact H. Qed.

Lemma opcode_node_ok C u e v F s q instr m0 : (height e <= F)%nat -> tab s -> s_stop s = false -> rep C u s q e ->
  known C (s_pc s) e v -> not_A e ->
  let '(m2, c2) := build_mode (get_op_code (s_c02 s) (s_ill s) instr) m0 v (unknown_name C e) in
  exists p s', opcode_node (expand F) instr m0 [q] s = Ok p s' /\ hv s s' /\
    obs s' = (if c2 <? 0 then set_errs (s_errs s + 1) (obs s) else obs s) /\ rep C false s' q e /\
    nth_error (s_nodes s') p = Some (mkNode (KOp instr c2 m2 0) [q]) /\ ops_kept s s'.
Proof.
  intros HF T St R K NA. destruct (build_mode _ _ _ _) as [m2 c2] eqn:BM. unfold opcode_node.
  unfold bind at 1, op_code, gets.
  set (g := get_op_code (s_c02 s) (s_ill s) instr) in *.
  set (mode := if g m_r =? -1 then m0 else m_r) in *.
  unfold bind at 1. rewrite alloc_eq. set (p := length (s_nodes s)).
  set (s1 := set_nodes (s_nodes s ++ [mkNode (KOp instr 0 mode 0) [q]]) s).
  assert (H1 : hv s s1) by (apply hv_alloc; [reflexivity|exact T]).
  destruct (eval_known C u e v F s1 q HF (h_tab _ _ H1) St (rep_hv _ _ _ _ _ _ H1 R) K) as (s2 & E2 & H2 & O2 & R2 & P2 & _).
  cbn [expand_all]. unfold bind at 1. unfold bind at 1. rewrite E2. unfold ret at 1.
  assert (N1 : nth_error (s_nodes s1) p = Some (mkNode (KOp instr 0 mode 0) [q])) by apply alloc_nth.
  pose proof (P2 _ _ _ _ _ _ N1) as N2.
  unfold bind at 1. rewrite (has_uninitialized_rep _ _ _ _ _ _ N2 R2).
  assert (A : (if mode =? m_a then is_id_A q else ret false) s2 = Ok false s2).
  { destruct (mode =? m_a); [|reflexivity]. eapply is_id_A_rep; eauto. }
  unfold bind at 1. rewrite A. unfold bind at 1.
  assert (Gs : forall m, get_op_code (s_c02 s2) (s_ill s2) instr m = g m).
  { intros m. assert (X := f_equal s_c02 O2). assert (Y := f_equal s_ill O2). obs_simp_in X; obs_simp_in Y. unfold g. now rewrite X, Y. }
  rewrite Gs. unfold bind at 1. rewrite Gs.
  unfold build_mode in BM. fold mode in BM. injection BM as Bm Bc. rewrite Bm, Bc.
  unfold bind at 1, node_set, modify.
  set (s3 := set_nodes (upd p (mkNode (KOp instr c2 m2 0) [q]) (s_nodes s2)) s2).
  assert (H3 : hv s2 s3) by (eapply hv_node; [reflexivity|apply (h_tab _ _ H2)|exact N2|apply N2op]).
  assert (N3 : nth_error (s_nodes s3) p = Some (mkNode (KOp instr c2 m2 0) [q])).
  { cbn. apply nth_upd_same. apply nth_error_Some. congruence. }
  assert (O3 : obs s3 = obs s) by (unfold s3; rewrite obs_set_nodes, O2; unfold s1; apply obs_set_nodes).
  assert (K3 : known C (s_pc s3) e v) by (rewrite (obs_pc _ _ O3); exact K).
  destruct (eval_known C false e v F s3 q HF (h_tab _ _ H3) ltac:(rewrite (obs_stop _ _ O3); exact St)
             (rep_hv _ _ _ _ _ _ H3 R2) K3) as (s4 & E4 & H4 & O4 & R4 & P4 & _).
  unfold bind at 1. unfold bind at 1. rewrite E4. unfold ret at 1.
  assert (O : obs s4 = obs s) by congruence.
  pose proof (hv_trans _ _ _ H1 (hv_trans _ _ _ H2 (hv_trans _ _ _ H3 H4))) as H.
  pose proof (P4 _ _ _ _ _ _ N3) as N4.
  assert (Pk : ops_kept s s4).
  { eapply ops_kept_trans; [|exact P4]. intros p0 i o m c l X.
    assert (p0 <> p). { intros ->. assert (p < length (s_nodes s))%nat by (apply nth_error_Some; congruence). unfold p in H0. lia. }
    unfold s3. cbn [s_nodes set_nodes]. rewrite nth_upd_other by auto. apply P2. unfold s1. apply ops_kept_alloc. exact X. }
  unfold bind, when. destruct (c2 <? 0).
  - unfold err, modify, ret. exists p. eexists. split; [reflexivity|].
    split; [eapply hv_trans; [exact H|apply hv_err, (h_tab _ _ H4)]|].
    split; [obs_simp; rewrite O, (obs_errs _ _ O); reflexivity|].
    split; [eapply rep_hv; [apply hv_err, (h_tab _ _ H4)|exact R4]|]. split; [exact N4|].
    eapply ops_kept_trans; [exact Pk|]. apply ops_kept_same. reflexivity.
  - unfold ret. exists p, s4. auto 10.
Qed.

Lemma opcode_node_implied instr s ex : tab s -> get_op_code (s_c02 s) (s_ill s) instr m_r = -1 ->
  exists p s', opcode_node ex instr m_i [] s = Ok p s' /\ hv s s' /\
    obs s' = (if get_op_code (s_c02 s) (s_ill s) instr m_i <? 0 then set_errs (s_errs s + 1) (obs s) else obs s) /\
    nth_error (s_nodes s') p = Some (mkNode (KOp instr (get_op_code (s_c02 s) (s_ill s) instr m_i) m_i 0) []).
Proof.
  intros T B. unfold opcode_node. unfold bind at 1, op_code, gets. rewrite B.
  change (-1 =? -1) with true. cbn [negb]. cbv iota. unfold bind at 1. rewrite alloc_eq. set (p := length (s_nodes s)).
  set (s1 := set_nodes (s_nodes s ++ [mkNode (KOp instr 0 m_i 0) []]) s).
  assert (H1 : hv s s1) by (apply hv_alloc; [reflexivity|exact T]).
  assert (N1 : nth_error (s_nodes s1) p = Some (mkNode (KOp instr 0 m_i 0) [])) by apply alloc_nth.
  cbn [expand_all]. unfold bind at 1, ret at 1. unfold bind at 1.
  assert (U : has_uninitialized p s1 = Ok false s1).
  { unfold has_uninitialized, gets, bind. rewrite (has_uninit_eq _ _ _ _ N1). reflexivity. }
  rewrite U. unfold bind at 1, ret at 1. unfold bind at 1. cbn [s_c02 s_ill set_nodes s1].
  set (c := get_op_code (s_c02 s) (s_ill s) instr m_i).
  change (get_op_code (s_c02 s1) (s_ill s1) instr m_i) with c.
  replace (short_mode m_i) with m_i by reflexivity.
  unfold bind at 1. 
  assert (Z0 : (if negb (over 0 255) && negb false || (c =? -1) then m_i else m_i) = m_i) by (destruct (_ || _); reflexivity).
  rewrite Z0. change (get_op_code (s_c02 s1) (s_ill s1) instr m_i) with c. rewrite Z.eqb_refl. cbn [negb andb].
  unfold bind at 1, node_set, modify.
  set (s3 := set_nodes (upd p (mkNode (KOp instr c m_i 0) []) (s_nodes s1)) s1).
  assert (H3 : hv s1 s3) by (eapply hv_node; [reflexivity|apply (h_tab _ _ H1)|exact N1|apply N2op]).
  assert (N3 : nth_error (s_nodes s3) p = Some (mkNode (KOp instr c m_i 0) [])).
  { unfold s3. cbn [s_nodes set_nodes]. apply nth_upd_same. apply nth_error_Some. rewrite N1. discriminate. }
  pose proof (hv_trans _ _ _ H1 H3) as H. unfold bind, ret, when.
  destruct (c <? 0).
  - unfold err, modify. exists p. eexists. split; [reflexivity|].
    split; [eapply hv_trans; [exact H|apply hv_err, (h_tab _ _ H3)]|].
    split; [unfold s3, s1; obs_simp; reflexivity|exact N3].
  - exists p, s3. split; [reflexivity|]. split; [exact H|]. split; [unfold s3, s1; obs_simp; reflexivity|exact N3].
Qed.

(** ** Writing an instruction *)
(** bytes appended to the output *)
Definition put (l : list Z) (s : state) : state :=
  set_out (rev (map (fun b => b mod 256) l) ++ s_out s) (set_total (s_total s + Z.of_nat (length l)) s).
(** the load address of a C64 file goes first *)
Definition header (s : state) : state :=
  if (s_total s =? 0) && s_c64 s then put [s_origin s; s_origin s / 256] s else s.
(** output is written once the file is open and an origin is known *)
Definition writes (l : list Z) (s : state) : state :=
  if s_opened s && s_org_spec s then put l (header s) else s.
(** the program counter is not beyond the place the next byte goes to *)
Definition no_gap (s : state) : Prop :=
  s_opened s && s_org_spec s = true -> s_pc s <= s_origin s + s_total (header s).

Lemma put_app l1 l2 s : put l2 (put l1 s) = put (l1 ++ l2) s.
Proof.
  unfold put. cbn [s_out s_total set_out set_total]. rewrite map_app, rev_app_distr, <- app_assoc, app_length, Nat2Z.inj_add.
  rewrite Z.add_assoc. reflexivity.
Qed.
Lemma put_nil s : put [] s = s.
Proof. unfold put. cbn [map rev app length Z.of_nat]. rewrite Z.add_0_r. destruct s; reflexivity. Qed.
Lemma emit_put b s : emit b s = Ok tt (put [b] s).
Proof. reflexivity. Qed.
Lemma emit_word_put w s : emit_word w s = Ok tt (put [w; w / 256] s).
Proof. unfold emit_word, bind. rewrite emit_put. rewrite emit_put, put_app. reflexivity. Qed.
Lemma obs_put l s : obs (put l s) = put l (obs s).
Proof. unfold put. obs_simp. reflexivity. Qed.
Lemma hv_put l s : tab s -> hv0 s (put l s).
Proof. intros T. apply hv0_frame; auto. Qed.
Lemma obs_header s : obs (header s) = header (obs s).
Proof. unfold header. obs_simp. destruct (_ && _); [apply obs_put|reflexivity]. Qed.

Definition nbytes (m : Z) : Z := if (m =? m_A) || (m =? m_i) then 0
  else if (m =? m_a) || (m =? m_ax) || (m =? m_ay) || (m =? m_aix) || (m =? m_ind) then 2 else 1.
Lemma mode_bytes_ok m s : 0 <= m < 15 -> mode_bytes m s = Ok (nbytes m) s.
Proof.
  intros H. assert (I : In m (zseq 0 15)) by (apply zseq_in; lia).
  cbn in I. repeat (destruct I as [<-|I]; [reflexivity|]). destruct I.
Qed.
Lemma nbytes_range m : 0 <= nbytes m <= 2.
Proof. unfold nbytes. destruct (_ || _); [lia|]. destruct (_ || _); lia. Qed.

(** the operand bytes of an instruction with operand value [v] *)
Definition le (n v : Z) : list Z := if n =? 0 then [] else if n =? 1 then [v] else [v; v / 256].

Definition far (mode npc v : Z) : bool := (mode =? m_r) && ((128 <? v - (npc + 2)) || (v - (npc + 2) <? -127)).
Definition operand (mode npc v : Z) : list Z := if mode =? m_r then [Z.land (v - (npc + 2)) 255] else le (nbytes mode) v.
Definition entry (b : lbody) (s : state) : lrec := mkLrec (s_file s) (s_line s) (s_pstate s) false b.
Lemma entry_tagged b s : framed b -> tagged (ltag s) (entry b s). Proof. repeat split. assumption. Qed.
Lemma hv_list b dir s : tab s -> hv0 s (set_list (mkLrec (s_file s) (s_line s) (s_pstate s) dir b :: s_list s) s).
Proof. intros T. apply hv0_frame; auto. Qed.
(** a listed instruction *)
Lemma land_65535 v : Z.land v 65535 = v mod 65536.
Proof. change 65535 with (Z.ones 16). apply Z.land_ones. lia. Qed.
Definition op_body (instr opc mode npc v : Z) : lbody :=
  LOp (Z.land npc 65535) opc instr mode (if nbytes mode =? 0 then [] else map (fun b => b mod 256) (operand mode npc v)) (if nbytes mode =? 0 then 0 else v).

Lemma obs_field {A} (f : state -> A) a b : obs a = obs b -> (forall s, f (obs s) = f s) -> f a = f b.
Proof. intros O H. rewrite <- (H a), <- (H b), O. reflexivity. Qed.
(** the listing does not matter for anything else *)
Lemma obs_place s s' : obs s' = obs s -> s_file s' = s_file s /\ s_line s' = s_line s /\ s_pstate s' = s_pstate s.
Proof.
  intros O. repeat split; [pose proof (f_equal s_file O) as Z|pose proof (f_equal s_line O) as Z|pose proof (f_equal s_pstate O) as Z]; obs_simp_in Z; exact Z.
Qed.
Lemma entry_obs b s s' : obs s' = obs s -> entry b s' = entry b s.
Proof. intros O. destruct (obs_place _ _ O) as (A & B & C). unfold entry. rewrite A, B, C. reflexivity. Qed.
Lemma op_body_eq instr opc mode npc v : 0 < nbytes mode ->
  LOp (Z.land npc 65535) opc instr mode (if nbytes mode =? 1 then [(if mode =? m_r then Z.land (v - (npc + 2)) 255 else v) mod 256]
     else [(if mode =? m_r then Z.land (v - (npc + 2)) 255 else v) mod 256; (if mode =? m_r then Z.land (v - (npc + 2)) 255 else v) / 256 mod 256]) v
  = op_body instr opc mode npc v.
Proof.
  intros B. unfold op_body, operand, le. destruct (nbytes mode =? 0) eqn:E0; [apply Z.eqb_eq in E0; lia|]. f_equal.
  destruct (mode =? m_r) eqn:Er; [apply Z.eqb_eq in Er; subst mode; reflexivity|].
  destruct (nbytes mode =? 1); reflexivity.
Qed.
Lemma list_op C e v F s p q instr opc mode npc : (height e <= F)%nat -> tab s -> s_stop s = false -> rep C false s q e ->
  known C (s_pc s) e v -> 0 <= mode < 15 -> nth_error (s_nodes s) p = Some (mkNode (KOp instr opc mode npc) [q]) ->
  exists s', generate_list_node (expand F) p s = Ok tt s' /\ hv0 s s' /\ obs s' = obs s /\ ops_kept s s' /\
    (0 < nbytes mode -> far mode npc v = false -> s_list s' = entry (op_body instr opc mode npc v) s :: s_list s /\ s_soft s' = s_soft s).
Proof.
  intros HF T St R K M N. unfold generate_list_node, node_get, gets. unfold bind at 1, bind at 1. rewrite N. unfold ret at 1.
  unfold bind at 1. cbn [n_kind n_ops]. unfold bind at 1. rewrite mode_bytes_ok by auto.
  destruct (0 <? nbytes mode) eqn:B.
  2:{ unfold add_list, modify. eexists. split; [reflexivity|]. split; [apply hv_list, T|]. split; [apply obs_set_list|]. split; [apply ops_kept_same; reflexivity|].
      apply Z.ltb_ge in B. lia. }
  apply Z.ltb_lt in B.
  unfold bind at 1, opn. cbn [n_ops nth_error]. unfold ret at 1.
  destruct (eval_known C false e v F s q HF T St R K) as (s1 & E1 & H1 & O1 & R1 & P1 & _).
  destruct (eval_quiet C false e v F s q s1 HF T St R K E1) as (L1 & L1').
  unfold bind at 1. rewrite E1. pose proof (P1 _ _ _ _ _ _ N) as N1.
  destruct ((mode =? m_r) && ((128 <? v - (npc + 2)) || (v - (npc + 2) <? -127))) eqn:Fr.
  { exists s1; split; [reflexivity|]. split; [apply H1|]. split; [exact O1|]. split; [exact P1|]. unfold far. rewrite Fr. discriminate. }
  assert (K1 : known C (s_pc s1) e v) by (rewrite (obs_pc _ _ O1); exact K).
  assert (St1 : s_stop s1 = false) by (rewrite (obs_stop _ _ O1); exact St).
  destruct (eval_known C false e v F s1 q HF (h_tab _ _ H1) St1 R1 K1) as (s2 & E2 & H2 & O2 & R2 & P2 & _).
  destruct (eval_quiet C false e v F s1 q s2 HF (h_tab _ _ H1) St1 R1 K1 E2) as (L2 & L2').
  unfold bind at 1. rewrite E2. unfold bind at 1, ret at 1. unfold add_list, modify.
  eexists. split; [reflexivity|]. split; [eapply hv0_trans; [exact H1|eapply hv0_trans; [exact H2|apply hv_list, (h_tab _ _ H2)]]|].
  split; [rewrite obs_set_list; congruence|]. split; [exact (ops_kept_trans _ _ _ P1 (ops_kept_trans _ _ _ P2 (ops_kept_same _ _ eq_refl)))|].
  intros _ _. cbn [s_list set_list s_soft]. rewrite (op_body_eq instr opc mode npc v B). fold (entry (op_body instr opc mode npc v) s2).
  rewrite (entry_obs _ s s2) by congruence. split; congruence.
Qed.
Lemma list_op0 F s p instr opc mode npc : tab s -> nbytes mode = 0 -> 0 <= mode < 15 ->
  nth_error (s_nodes s) p = Some (mkNode (KOp instr opc mode npc) []) ->
  exists s', generate_list_node (expand F) p s = Ok tt s' /\ hv0 s s' /\ obs s' = obs s /\ ops_kept s s' /\
    s_list s' = entry (op_body instr opc mode npc 0) s :: s_list s /\ s_soft s' = s_soft s.
Proof.
  intros T B M N. unfold generate_list_node, node_get, gets. unfold bind at 1, bind at 1. rewrite N. unfold ret at 1.
  unfold bind at 1. cbn [n_kind n_ops]. unfold bind at 1. rewrite mode_bytes_ok by auto. unfold op_body. rewrite B.
  change (0 <? 0) with false. cbv iota. unfold add_list, modify.
  eexists. split; [reflexivity|]. split; [apply hv_list, T|]. split; [apply obs_set_list|]. split; [apply ops_kept_same; reflexivity|]. split; reflexivity.
Qed.
(** what has been listed and written agree *)
Lemma lk_writes k l n s s' : s_list s' = k ++ s_list s -> s_soft s' = s_soft s -> obs s' = writes l (obs s) ->
  listed k = map (fun b => b mod 256) l -> Forall (tagged (ltag s)) k -> n = Z.of_nat (length l) -> addressed (s_pc s) (rev k) -> lkp n s s'.
Proof.
  intros E1 E2 O E3 E4 En Ea t Ev Ep. assert (X : obs s' = obs (writes l s)).
  { rewrite O. unfold writes. obs_simp. destruct (_ && _); [|reflexivity]. rewrite obs_put, obs_header. reflexivity. }
  assert (A1 := obs_field s_errs _ _ X obs_get_errs). assert (A2 := obs_field s_c64 _ _ X obs_get_c64).
  assert (A3 := obs_field s_opened _ _ X obs_get_opened). assert (A4 := obs_field s_org_spec _ _ X obs_get_org_spec).
  assert (A5 := obs_field s_total _ _ X obs_get_total). assert (A6 := obs_field s_out _ _ X obs_get_out).
  assert (A7 := obs_field ltag _ _ X (fun _ => eq_refl)). assert (A8 := obs_field s_final _ _ X (fun _ => eq_refl)).
  assert (A9 := obs_field s_pc_assigned _ _ X (fun _ => eq_refl)). assert (A10 := obs_field s_pc _ _ X (fun _ => eq_refl)). clear X O.
  assert (W : s_errs (writes l s) = s_errs s /\ s_c64 (writes l s) = s_c64 s /\ s_opened (writes l s) = s_opened s /\ s_org_spec (writes l s) = s_org_spec s /\ ltag (writes l s) = ltag s /\
    s_final (writes l s) = s_final s /\ s_pc_assigned (writes l s) = s_pc_assigned s /\ s_pc (writes l s) = s_pc s).
  { unfold writes, header. destruct (_ && _); [|auto 10]. destruct (_ && _); auto 10. }
  destruct W as (W1 & W2 & W3 & W4 & W5 & W6 & W7 & W8).
  unfold lview in Ev. injection Ev as B1 B2 B3 B4 B5 B6 B7 B8 B9 B10 B11 B12.
  constructor; unfold writing, ltag in *.
  - rewrite B4, A1, W1. apply Z.le_refl.
  - rewrite B5, E2. apply Nat.le_refl.
  - congruence.
  - rewrite B7, B8, A3, A4, W3, W4. auto.
  - rewrite B3, A5. unfold writes, header, put. destruct (_ && _); [|auto]. destruct (_ && _); cbn; lia.
  - congruence.
  - congruence.
  - rewrite B12, A9, W7. apply Z.le_refl.
  - exists k. split; [rewrite B1; exact E1|]. split; [exact E4|]. split.
    2: { intros _. split; [rewrite Ep, A10, W8, E3, map_length, En; reflexivity|exact Ea]. }
    intros On T _. unfold writes in A5, A6. unfold writing in On. rewrite On in A5, A6. unfold says. rewrite B2, B3, E3, map_length.
    unfold header in A5, A6. destruct ((s_total s =? 0) && s_c64 s) eqn:Hd.
    + apply andb_true_iff in Hd as [H0 H1]. apply Z.eqb_eq in H0.
      exists (rev (map (fun b => b mod 256) [s_origin s; s_origin s / 256])). unfold put in A5, A6. cbn [s_out set_out s_total set_total] in A5, A6.
      split; [exact A6|]. split; [rewrite A5; cbn; lia|]. split; [right; auto|]. intros _ _ _. discriminate.
    + exists []. unfold put in A5, A6. cbn [s_out set_out s_total set_total] in A5, A6. split; [exact A6|]. split; [rewrite A5; cbn; lia|]. split; [auto|].
      intros X1 X2. rewrite X1, X2 in Hd. discriminate.
Qed.

(** the header *)
Lemma write_header_eq s : s_org_spec s = true ->
  when (s_total s =? 0) write_header s = Ok tt (if s_total s =? 0 then (if s_c64 s then set_delta 2 (put [s_origin s; s_origin s / 256] (set_delta 0 s)) else set_delta 0 s) else s).
Proof.
  intros O. unfold when. destruct (s_total s =? 0); [|reflexivity].
  unfold write_header, bind, modify, gets, when. cbn [s_org_spec set_delta s_c64]. rewrite O. cbn [negb]. unfold ret.
  change (s_c64 (set_delta 0 s)) with (s_c64 s). destruct (s_c64 s); [|reflexivity]. rewrite emit_word_put. reflexivity.
Qed.
Definition hdr (s : state) : state :=
  if s_total s =? 0 then (if s_c64 s then set_delta 2 (put [s_origin s; s_origin s / 256] (set_delta 0 s)) else set_delta 0 s) else s.
Lemma obs_hdr s : obs (hdr s) = header (obs s).
Proof.
  unfold hdr, header. obs_simp. destruct (s_total s =? 0); [|reflexivity]. destruct (s_c64 s); cbn [andb].
  - obs_simp. rewrite obs_put. obs_simp. reflexivity.
  - obs_simp. reflexivity.
Qed.
Lemma hv_hdr s : tab s -> hv0 s (hdr s).
Proof. intros T. unfold hdr. destruct (_ =? _); [destruct (s_c64 s)|]; apply hv0_frame; auto. Qed.
Lemma hdr_same s : s_nodes (hdr s) = s_nodes s /\ s_pc (hdr s) = s_pc s /\ s_stop (hdr s) = s_stop s /\ s_origin (hdr s) = s_origin s /\
  s_total (hdr s) = s_total (header s).
Proof. unfold hdr, header. destruct (_ =? _); [destruct (s_c64 s)|]; cbn; auto. Qed.
Lemma generate_output_eq ex p s : s_opened s && s_org_spec s = true -> s_pc s <= s_origin s + s_total (header s) ->
  generate_output ex p s = (x <- node_get p ;;
      match n_kind x with
      | KStr v => write_string_node v
      | KOp _ opc mode npc => write_opcode_node ex x opc mode npc
      | _ => write_data_node ex p
      end ;;;
      t <- gets s_total ;; ret (t - s_total s)) (hdr s).
Proof.
  intros O G. apply andb_true_iff in O as [O1 O2]. unfold generate_output. unfold bind at 1, gets at 1. unfold bind at 1, gets at 1.
  rewrite O1, O2. cbn [negb orb]. unfold bind at 1, gets at 1. unfold bind at 1. rewrite write_header_eq by auto.
  fold (hdr s). unfold bind at 1, gets at 1. destruct (hdr_same s) as (_ & P & _ & Og & Tt). rewrite P, Og, Tt.
  destruct (0 <? _) eqn:X; [apply Z.ltb_lt in X; lia|]. reflexivity.
Qed.

Lemma obs_writes l s : obs (writes l s) = writes l (obs s).
Proof. unfold writes. obs_simp. destruct (_ && _); [|reflexivity]. rewrite obs_put, obs_header. reflexivity. Qed.
Lemma put_dsz l n s : put l (set_dsz n s) = set_dsz n (put l s).
Proof. reflexivity. Qed.

Lemma write_op C e v F s p q instr opc mode npc : (height e <= F)%nat -> tab s -> s_stop s = false -> rep C false s q e ->
  known C (s_pc s) e v -> 0 <= mode < 15 -> 0 < nbytes mode -> far mode npc v = false ->
  nth_error (s_nodes s) p = Some (mkNode (KOp instr opc mode npc) [q]) ->
  exists s', write_opcode_node (expand F) (mkNode (KOp instr opc mode npc) [q]) opc mode npc s = Ok tt s' /\ hv0 s s' /\
    obs s' = put (opc :: operand mode npc v) (obs s) /\ ops_kept s s' /\ s_list s' = s_list s /\ s_soft s' = s_soft s.
Proof.
  intros HF T St R K M B Fr N. unfold write_opcode_node. unfold bind at 1. rewrite mode_bytes_ok by auto.
  unfold bind at 1. rewrite emit_put. destruct (0 <? nbytes mode) eqn:B0; [|apply Z.ltb_ge in B0; lia].
  unfold bind at 1, opn. cbn [n_ops nth_error]. unfold ret at 1.
  set (s1 := put [opc] s). assert (H1 : hv0 s s1) by (apply hv_put, T).
  destruct (eval_known C false e v F s1 q HF (h_tab _ _ H1) St (rep_hv _ _ _ _ _ _ H1 R) K) as (s2 & E2 & H2 & O2 & R2 & P2 & _).
  destruct (eval_quiet C false e v F s1 q s2 HF (h_tab _ _ H1) St (rep_hv _ _ _ _ _ _ H1 R) K E2) as (L2 & L2').
  unfold bind at 1. rewrite E2. pose proof (P2 _ _ _ _ _ _ N) as N2.
  assert (X : forall w, (modify (set_dsz (nbytes mode));;; write_data w) s2 = Ok tt (put (le (nbytes mode) w) (set_dsz (nbytes mode) s2))).
  { intros w. unfold bind, modify, write_data, gets. unfold bind. cbn [s_dsz set_dsz]. unfold le. pose proof (nbytes_range mode).
    destruct (nbytes mode =? 0) eqn:Y0; [apply Z.eqb_eq in Y0; lia|].
    destruct (nbytes mode =? 1) eqn:Y; [rewrite emit_put; reflexivity|rewrite emit_word_put; reflexivity]. }
  unfold far in Fr. unfold operand.
  assert (Y : (if mode =? m_r then
     let op := v - (npc + 2) in if (128 <? op) || (op <? -127) then err error_value_out_of_range
       else modify (set_dsz (nbytes mode));;; write_data (Z.land op 255)
     else modify (set_dsz (nbytes mode));;; write_data v) s2
     = Ok tt (put (if mode =? m_r then [Z.land (v - (npc + 2)) 255] else le (nbytes mode) v) (set_dsz (nbytes mode) s2))).
  { destruct (mode =? m_r) eqn:Er.
    - cbn [andb] in Fr. cbv zeta. rewrite Fr. rewrite X. apply Z.eqb_eq in Er. subst mode. reflexivity.
    - apply X. }
  cbv zeta in Y |- *. rewrite Y. eexists. split; [reflexivity|].
  split; [eapply hv0_trans; [exact H1|eapply hv0_trans; [exact H2|apply hv0_frame; auto; apply (h_tab _ _ H2)]]|].
  split; [|split; [exact (ops_kept_trans _ _ _ (ops_kept_same s s1 eq_refl) (ops_kept_trans _ _ _ P2 (ops_kept_same _ _ eq_refl)))|split; [exact L2|exact L2']]]. rewrite obs_put. obs_simp. rewrite O2. unfold s1. rewrite obs_put, put_app. reflexivity.
Qed.
Lemma write_op0 F s p instr opc mode npc : tab s -> 0 <= mode < 15 -> nbytes mode = 0 ->
  nth_error (s_nodes s) p = Some (mkNode (KOp instr opc mode npc) []) ->
  exists s', write_opcode_node (expand F) (mkNode (KOp instr opc mode npc) []) opc mode npc s = Ok tt s' /\ hv0 s s' /\
    obs s' = put [opc] (obs s) /\ ops_kept s s' /\ s_list s' = s_list s /\ s_soft s' = s_soft s.
Proof.
  intros T M B N. unfold write_opcode_node. unfold bind at 1. rewrite mode_bytes_ok by auto.
  unfold bind at 1. rewrite emit_put, B. change (0 <? 0) with false. cbv iota. unfold ret.
  eexists. split; [reflexivity|]. split; [apply hv_put, T|]. split; [apply obs_put|]. split; [apply ops_kept_same; reflexivity|]. split; reflexivity.
Qed.

Lemma hdr_list s : s_list (hdr s) = s_list s /\ s_soft (hdr s) = s_soft s.
Proof. unfold hdr. destruct (_ =? _); [destruct (s_c64 s)|]; split; reflexivity. Qed.
Lemma op_listed s instr opc mode npc v : 0 < nbytes mode -> listed [entry (op_body instr opc mode npc v) s] = map (fun b => b mod 256) (opc :: operand mode npc v).
Proof.
  intros B. unfold listed, op_body. cbn. rewrite app_nil_r. destruct (nbytes mode =? 0) eqn:E; [apply Z.eqb_eq in E; lia|]. cbn. f_equal.
  rewrite map_map. apply map_ext. intros a. apply Z.mod_mod. lia.
Qed.
Lemma op0_listed s instr opc mode npc v : nbytes mode = 0 -> listed [entry (op_body instr opc mode npc v) s] = map (fun b => b mod 256) [opc].
Proof. intros B. unfold listed, op_body. rewrite B. reflexivity. Qed.
Lemma op_addressed instr opc mode npc v s : npc = s_pc s -> addressed (s_pc s) (rev [entry (op_body instr opc mode npc v) s]).
Proof. intros ->. cbn [rev app addressed]. split; [|exact I]. cbn [entry l_body op_body place]. intros a [= <-]. apply land_65535. Qed.
Lemma mods_range l : Forall (fun b => 0 <= b < 256) (map (fun b => b mod 256) l).
Proof. induction l; cbn [map]; constructor; [apply Z.mod_pos_bound; lia|assumption]. Qed.
Lemma operand_len mode npc v : 0 < nbytes mode -> 0 <= mode < 15 -> nbytes mode + 1 = Z.of_nat (length (0 :: operand mode npc v)).
Proof.
  intros B M. cbn [length]. rewrite Nat2Z.inj_succ. enough (Z.of_nat (length (operand mode npc v)) = nbytes mode) by lia.
  unfold operand. destruct (mode =? m_r) eqn:E; [apply Z.eqb_eq in E; subst; reflexivity|]. unfold le. pose proof (nbytes_range mode).
  destruct (Z.eqb_spec (nbytes mode) 0); [lia|]. destruct (Z.eqb_spec (nbytes mode) 1) as [->|]; [reflexivity|]. cbn. lia.
Qed.
Lemma op_shaped instr opc mode npc v : 0 <= opc < 256 -> framed (op_body instr opc mode npc v).
Proof.
  intros Bo. cbn [op_body framed shaped]. split; [rewrite land_65535; apply Z.mod_pos_bound; lia|]. destruct (nbytes mode =? 0).
  - split; [cbn; lia|repeat constructor; lia].
  - split; [|constructor; [exact Bo|apply mods_range]]. rewrite map_length. unfold operand, le. destruct (mode =? m_r); [cbn; lia|].
    destruct (_ =? 0); [cbn; lia|]. destruct (_ =? 1); cbn; lia.
Qed.
(** a list and output step of an instruction *)
Lemma emit_op C e v F s p q instr opc mode npc : (height e <= F)%nat -> tab s -> s_stop s = false -> rep C false s q e ->
  known C (s_pc s) e v -> 0 <= mode < 15 -> 0 < nbytes mode -> far mode npc v = false -> no_gap s ->
  nth_error (s_nodes s) p = Some (mkNode (KOp instr opc mode npc) [q]) -> npc = s_pc s -> 0 <= opc < 256 ->
  exists s', list_and_output (expand F) p s = Ok tt s' /\ hvp (nbytes mode + 1) s s' /\ obs s' = writes (opc :: operand mode npc v) (obs s) /\ ops_kept s s'.
Proof.
  intros HF T St R K M B Fr G N Np Bo. unfold list_and_output.
  destruct (list_op C e v F s p q instr opc mode npc HF T St R K M N) as (s1 & E1 & H1 & O1 & K1 & L). destruct (L B Fr) as (Ll & Ls). clear L. pose proof (K1 _ _ _ _ _ _ N) as N1.
  unfold bind at 1. rewrite E1. unfold bind at 1.
  assert (L : s_opened s1 = s_opened s /\ s_org_spec s1 = s_org_spec s /\ s_origin s1 = s_origin s /\ s_total s1 = s_total s
            /\ s_c64 s1 = s_c64 s /\ s_pc s1 = s_pc s /\ s_stop s1 = s_stop s).
  { repeat split; [pose proof (f_equal s_opened O1) as Z|pose proof (f_equal s_org_spec O1) as Z|pose proof (f_equal s_origin O1) as Z
      |pose proof (f_equal s_total O1) as Z|pose proof (f_equal s_c64 O1) as Z|pose proof (f_equal s_pc O1) as Z|pose proof (f_equal s_stop O1) as Z];
      obs_simp_in Z; exact Z. }
  destruct L as (L1 & L2 & L3 & L4 & L5 & L6 & L7).
  destruct (s_opened s1 && s_org_spec s1) eqn:W.
  - assert (T1 : s_total (header s1) = s_total (header s)).
    { unfold header. rewrite L3, L4, L5. destruct ((s_total s =? 0) && s_c64 s); [|exact L4]. cbn. now rewrite L4. }
    rewrite generate_output_eq; [|exact W|rewrite L6, L3, T1; apply G; rewrite <- L1, <- L2; exact W].
    destruct (hdr_same s1) as (D1 & D2 & D3 & _ & _).
    unfold bind at 1, node_get at 1. unfold bind at 1, gets at 1. rewrite D1, N1. unfold ret at 1. cbn [n_kind].
    pose proof (hv_hdr s1 (h_tab _ _ H1)) as H2.
    destruct (write_op C e v F (hdr s1) p q instr opc mode npc HF (h_tab _ _ H2) ltac:(rewrite D3, L7; exact St)
       (rep_hv _ _ _ _ _ _ H2 (rep_hv _ _ _ _ _ _ H1 R)) ltac:(rewrite D2, L6; exact K) M B Fr ltac:(rewrite D1; exact N1))
      as (s3 & E3 & H3 & O3 & N3 & M1 & M2).
    unfold bind at 1. rewrite E3. unfold bind at 1, gets at 1, ret at 1. unfold ret.
    assert (Ob : obs s3 = writes (opc :: operand mode npc v) (obs s)).
    { rewrite O3, obs_hdr, O1. unfold writes. obs_simp. rewrite <- L1, <- L2, W. reflexivity. }
    eexists. split; [reflexivity|]. split; [|split; [exact Ob|exact (ops_kept_trans _ _ _ K1 (ops_kept_trans _ _ _ (ops_kept_same _ _ D1) N3))]].
    split; [exact (hv0_trans _ _ _ H1 (hv0_trans _ _ _ H2 H3))|].
    apply (lk_writes [entry (op_body instr opc mode npc v) s] (opc :: operand mode npc v)); auto.
    + rewrite M1, (proj1 (hdr_list s1)). exact Ll.
    + rewrite M2, (proj2 (hdr_list s1)). exact Ls.
    + apply op_listed; auto.
    + constructor; [apply entry_tagged, op_shaped; auto|constructor].
    + apply operand_len; auto.
    + apply op_addressed. exact Np.
  - unfold generate_output. unfold bind at 1, gets at 1. unfold bind at 1, gets at 1. rewrite <- negb_andb, W. cbn [negb]. unfold ret.
    assert (Ob : obs s1 = writes (opc :: operand mode npc v) (obs s)) by (unfold writes; obs_simp; rewrite <- L1, <- L2, W; exact O1).
    eexists. split; [reflexivity|]. split; [|split; [exact Ob|exact K1]]. split; [exact H1|].
    apply (lk_writes [entry (op_body instr opc mode npc v) s] (opc :: operand mode npc v)); auto; [apply op_listed; auto|constructor; [apply entry_tagged, op_shaped; auto|constructor]|apply operand_len; auto|apply op_addressed; exact Np].
Qed.
Lemma emit_op0 F s p instr opc mode npc : tab s -> 0 <= mode < 15 -> nbytes mode = 0 -> no_gap s ->
  nth_error (s_nodes s) p = Some (mkNode (KOp instr opc mode npc) []) -> npc = s_pc s -> 0 <= opc < 256 ->
  exists s', list_and_output (expand F) p s = Ok tt s' /\ hvp 1 s s' /\ obs s' = writes [opc] (obs s) /\ ops_kept s s'.
Proof.
  intros T M B G N Np Bo. unfold list_and_output.
  destruct (list_op0 F s p instr opc mode npc T B M N) as (s1 & E1 & H1 & O1 & K1 & Ll & Ls). pose proof (K1 _ _ _ _ _ _ N) as N1.
  unfold bind at 1. rewrite E1. unfold bind at 1.
  assert (L : s_opened s1 = s_opened s /\ s_org_spec s1 = s_org_spec s /\ s_origin s1 = s_origin s /\ s_total s1 = s_total s
            /\ s_c64 s1 = s_c64 s /\ s_pc s1 = s_pc s /\ s_stop s1 = s_stop s).
  { repeat split; [pose proof (f_equal s_opened O1) as Z|pose proof (f_equal s_org_spec O1) as Z|pose proof (f_equal s_origin O1) as Z
      |pose proof (f_equal s_total O1) as Z|pose proof (f_equal s_c64 O1) as Z|pose proof (f_equal s_pc O1) as Z|pose proof (f_equal s_stop O1) as Z];
      obs_simp_in Z; exact Z. }
  destruct L as (L1 & L2 & L3 & L4 & L5 & L6 & L7).
  destruct (s_opened s1 && s_org_spec s1) eqn:W.
  - assert (T1 : s_total (header s1) = s_total (header s)).
    { unfold header. rewrite L3, L4, L5. destruct ((s_total s =? 0) && s_c64 s); [|exact L4]. cbn. now rewrite L4. }
    rewrite generate_output_eq; [|exact W|rewrite L6, L3, T1; apply G; rewrite <- L1, <- L2; exact W].
    destruct (hdr_same s1) as (D1 & D2 & D3 & _ & _).
    unfold bind at 1, node_get at 1. unfold bind at 1, gets at 1. rewrite D1, N1. unfold ret at 1. cbn [n_kind].
    pose proof (hv_hdr s1 (h_tab _ _ H1)) as H2.
    destruct (write_op0 F (hdr s1) p instr opc mode npc (h_tab _ _ H2) M B ltac:(rewrite D1; exact N1)) as (s3 & E3 & H3 & O3 & N3 & M1 & M2).
    unfold bind at 1. rewrite E3. unfold bind at 1, gets at 1, ret at 1. unfold ret.
    assert (Ob : obs s3 = writes ([opc]) (obs s)).
    { rewrite O3, obs_hdr, O1. unfold writes. obs_simp. rewrite <- L1, <- L2, W. reflexivity. }
    eexists. split; [reflexivity|]. split; [|split; [exact Ob|exact (ops_kept_trans _ _ _ K1 (ops_kept_trans _ _ _ (ops_kept_same _ _ D1) N3))]].
    split; [exact (hv0_trans _ _ _ H1 (hv0_trans _ _ _ H2 H3))|].
    apply (lk_writes [entry (op_body instr opc mode npc 0) s] ([opc])); auto.
    + rewrite M1, (proj1 (hdr_list s1)). exact Ll.
    + rewrite M2, (proj2 (hdr_list s1)). exact Ls.
    + apply op0_listed; auto.
    + constructor; [apply entry_tagged, op_shaped; auto|constructor].
    + apply op_addressed. exact Np.
  - unfold generate_output. unfold bind at 1, gets at 1. unfold bind at 1, gets at 1. rewrite <- negb_andb, W. cbn [negb]. unfold ret.
    assert (Ob : obs s1 = writes ([opc]) (obs s)) by (unfold writes; obs_simp; rewrite <- L1, <- L2, W; exact O1).
    eexists. split; [reflexivity|]. split; [|split; [exact Ob|exact K1]]. split; [exact H1|].
    apply (lk_writes [entry (op_body instr opc mode npc 0) s] ([opc])); auto; [apply op0_listed; auto|constructor; [apply entry_tagged, op_shaped; auto|constructor]|apply op_addressed; exact Np].
Qed.

(** ** Expanding an instruction *)
Definition org (s : state) : state := if 0 <? s_pc_assigned s then set_org_spec true s else s.
Lemma obs_org s : obs (org s) = org (obs s).
Proof. unfold org. obs_simp. destruct (0 <? _); [apply obs_set_org_spec|reflexivity]. Qed.
Lemma hv_org s : tab s -> hv s (org s).
Proof.
  intros T. unfold org. destruct (0 <? _); [|apply hv_frame; auto]. split; [apply hv0_frame; auto|].
  constructor; cbn; auto; try lia. { unfold writing. cbn. intros H. apply andb_true_iff in H as [-> _]. reflexivity. }
  exists []. split; [reflexivity|]. split; [constructor|]. split; [intros _ _ _; apply says_nil; reflexivity|intros _; apply follows_nil; reflexivity].
Qed.
Lemma org_same s : s_nodes (org s) = s_nodes s /\ s_pc (org s) = s_pc s /\ s_stop (org s) = s_stop s /\ s_c02 (org s) = s_c02 s /\
  s_ill (org s) = s_ill s /\ s_final (org s) = s_final s /\ s_errs (org s) = s_errs s.
Proof. unfold org. destruct (0 <? _); cbn; auto 10. Qed.

(** the mode used for a value in the end, and whether it is refused *)
Definition adjust (g : Z -> Z) (m v : Z) : Z * bool :=
  if nbytes m =? 0 then (m, false)
  else if m =? m_r then (m, false)
  else if nbytes m =? 1 then
    if over v 255 && negb (over v 65535) then
      match long_mode m with
      | Some lm => if g lm =? -1 then (m, true) else (lm, false)
      | None => (m, true)
      end
    else (m, false)
  else if negb (over v 255) && negb (g (short_mode m) =? -1) then (short_mode m, false)
  else (m, false).

Lemma set_op_eq p f i o m c l s : nth_error (s_nodes s) p = Some (mkNode (KOp i o m c) l) ->
  set_op p f s = Ok tt (set_nodes (upd p (mkNode (f i o m c) l) (s_nodes s)) s).
Proof. intros H. unfold set_op, node_get, gets, bind. rewrite H. reflexivity. Qed.
Lemma op_info_eq p i o m c l s : nth_error (s_nodes s) p = Some (mkNode (KOp i o m c) l) -> op_info p s = Ok (i, o, m, c, l) s.
Proof. intros H. unfold op_info, node_get, gets, bind. rewrite H. reflexivity. Qed.
Lemma hv_setop p i o m c l i' o' m' c' l' s : tab s -> nth_error (s_nodes s) p = Some (mkNode (KOp i o m c) l) ->
  hv s (set_nodes (upd p (mkNode (KOp i' o' m' c') l') (s_nodes s)) s).
Proof. intros T H. eapply hv_node; eauto; apply N2op. Qed.
Lemma upd_here p x s y : nth_error (s_nodes s) p = Some y -> nth_error (s_nodes (set_nodes (upd p x (s_nodes s)) s)) p = Some x.
Proof. intros H. cbn [s_nodes set_nodes]. apply nth_upd_same. apply nth_error_Some. rewrite H. discriminate. Qed.

Lemma over_8 v : over v 255 = negb ((0 <=? v) && (v <=? 255)).
Proof.
  unfold over.
  assert (E : Z.land v (Z.lnot 255) = v / 256 * 256).
  { rewrite <- Z.ldiff_land. change 255 with (Z.ones 8). rewrite Z.ldiff_ones_r by lia. rewrite Z.shiftl_mul_pow2, Z.shiftr_div_pow2 by lia. reflexivity. }
  rewrite E. destruct ((0 <=? v) && (v <=? 255)) eqn:H.
  - apply andb_true_iff in H as [H1 H2]. apply Z.leb_le in H1, H2. rewrite Z.div_small by lia. reflexivity.
  - cbn [negb]. apply negb_true_iff, Z.eqb_neq. apply andb_false_iff in H. rewrite !Z.leb_gt in H.
    pose proof (Z.div_mod v 256 ltac:(lia)). pose proof (Z.mod_pos_bound v 256 ltac:(lia)). lia.
Qed.
(** a branch operand named by a local label is looked at by its first character *)
Lemma rep_name_char C u s q e x : rep C u s q e -> nth_error (s_nodes s) q = Some x ->
  let ch := match n_kind x with KId name _ => hd0 name | _ => 0 end in (ch =? 64) || (ch =? 45) || (ch =? 43) = false.
Proof.
  intros R N. inversion R as [p0 v0 N0|p0 v0 N0|p0 n a y N0 D Hy Ey|p0 n Eu N0 P Ey|p0 o q0 e0 N0 U L R'|p0 o q1 q2 e10 e20 N0 U L1 L2 R1 R2]; subst;
    rewrite N0 in N; injection N as <-; cbn [n_kind]; try reflexivity.
  - apply orb_false_iff. split; [apply orb_false_iff; split|]; apply Z.eqb_neq; intros E; apply D; rewrite E; cbn; auto.
  - apply plain_direct in P. apply orb_false_iff. split; [apply orb_false_iff; split|]; apply Z.eqb_neq; intros E; apply P; rewrite E; cbn; auto.
Qed.

Definition nth15 (P : Z -> Prop) : (forall m, In m (zseq 0 15) -> P m) -> forall m, 0 <= m < 15 -> P m.
Proof. intros H m M. apply H, zseq_in. lia. Qed.

Lemma op_loop_one C e v F s p q instr c m npc sm sc : (height e <= F)%nat -> tab s -> s_stop s = false -> rep C false s q e ->
  known C (s_pc s) e v -> 0 <= m < 15 -> nbytes m <> 0 -> far m npc v = false ->
  let g := get_op_code (s_c02 s) (s_ill s) instr in
  c = g m -> 0 <= c ->
  nth_error (s_nodes s) p = Some (mkNode (KOp instr c m npc) [q]) ->
  exists mc large s',
    op_loop (expand F) 1 p 0 (op_bytes_of m) (if m =? m_r then m_r else short_mode m) false false sm sc s = Ok (OpGo mc large) s' /\
    hv s s' /\ obs s' = (if snd (adjust g m v) then set_errs (s_errs s + 1) (obs s) else obs s) /\
    large = over v 255 /\ ops_but p s s' /\
    (if nbytes m =? 2 then mc = short_mode m /\ nth_error (s_nodes s') p = Some (mkNode (KOp instr c m npc) [q])
     else (large = false -> mc = m) /\
       nth_error (s_nodes s') p = Some (mkNode (KOp instr (g (fst (adjust g m v))) (fst (adjust g m v)) npc) [q])).
Proof.
  intros HF T St R K M B Fr g Ec Hc N. cbn [op_loop]. unfold bind at 1. rewrite (op_info_eq _ _ _ _ _ _ _ N).
  cbn [nth_error]. unfold bind at 1, ret at 1.
  destruct (eval_known C false e v F s q HF T St R K) as (s1 & E1 & H1 & O1 & R1 & P1 & _).
  unfold bind at 1. rewrite E1. pose proof (P1 _ _ _ _ _ _ N) as N1.
  assert (Q : exists xq, nth_error (s_nodes s1) q = Some xq).
  { destruct (nth_error (s_nodes s1) q) eqn:Z; [eauto|]. apply nth_error_None in Z. apply rep_height in R1. lia. }
  destruct Q as (xq & Nq). unfold bind at 1, node_get at 1. unfold bind at 1, gets at 1. rewrite Nq. unfold ret at 1.
  unfold bind at 1, gets at 1. pose proof (rep_name_char _ _ _ _ _ _ R1 Nq) as Hch. cbv zeta in Hch. rewrite Hch, andb_false_r.
  cbn [orb]. rewrite orb_false_l || idtac.
  assert (G1 : forall x, op_code instr x s1 = Ok (g x) s1).
  { intros x. unfold op_code, gets. assert (X := f_equal s_c02 O1). assert (Y := f_equal s_ill O1). obs_simp_in X; obs_simp_in Y.
    rewrite X, Y. reflexivity. }
  assert (Hset : forall o' m', exists s', set_op p (fun i _ _ c0 => KOp i o' m' c0) s1 = Ok tt s' /\ hv s1 s' /\ obs s' = obs s1 /\
     nth_error (s_nodes s') p = Some (mkNode (KOp instr o' m' npc) [q]) /\ ops_but p s1 s').
  { intros o' m'. rewrite (set_op_eq _ _ _ _ _ _ _ _ N1). eexists. split; [reflexivity|].
    split; [eapply hv_setop; [apply (h_tab _ _ H1)|exact N1]|]. split; [apply obs_set_nodes|split; [eapply upd_here, N1|apply ops_but_upd]]. }
  pose proof (ops_but_kept p _ _ P1) as B1'.
  assert (Cm : g m =? -1 = false) by (apply Z.eqb_neq; lia).
  destruct (m =? m_r) eqn:Er.
  - apply Z.eqb_eq in Er. subst m. unfold far in Fr. change (m_r =? m_r) with true in Fr. cbn [andb] in Fr.
    change (op_bytes_of m_r) with 2. change (2 <? 2) with false. rewrite !andb_false_r. cbn [andb length Nat.eqb]. rewrite Fr.
    cbn [op_loop]. exists m_r, (over v 255), s1. split; [reflexivity|].
    split; [exact H1|]. split; [exact O1|]. split; [reflexivity|]. split; [exact B1'|]. cbn. split; [reflexivity|]. rewrite <- Ec. exact N1.
  - cbn [andb].
    assert (OB : op_bytes_of m = nbytes m /\ (nbytes m = 1 -> short_mode m = m) /\ (nbytes m = 1 \/ nbytes m = 2)).
    { revert Er B. clear -M. revert m M. refine (nth15 _ _). intros m I. cbn in I.
      repeat (destruct I as [<-|I]; [vm_compute; intuition congruence|]). destruct I. }
    destruct OB as (OB & Sh & [B1|B2]).
    + rewrite OB, B1. change (1 <? 2) with true. rewrite !andb_true_r. cbn [andb]. unfold adjust. rewrite B1, Er.
      change (1 =? 0) with false. change (1 =? 1) with true. cbv iota. rewrite Sh by auto.
      destruct (over v 255) eqn:V1; cbn [andb orb].
      * rewrite orb_true_r. cbn [andb]. destruct (over v 65535) eqn:V2; cbn [negb].
        -- cbn [op_loop]. exists m, true, s1. split; [reflexivity|]. split; [exact H1|]. split; [exact O1|]. split; [reflexivity|]. split; [exact B1'|].
           split; [auto|]. cbn [fst]. rewrite <- Ec. exact N1.
        -- destruct (long_mode m) as [lm|] eqn:Lm.
           ++ unfold bind at 1, ret at 1. unfold bind at 1. rewrite G1. destruct (g lm =? -1) eqn:Gl.
              ** unfold bind, err, modify, ret. exists lm, true. eexists. split; [reflexivity|].
                 split; [eapply hv_trans; [exact H1|apply hv_err, (h_tab _ _ H1)]|].
                 split; [cbn [snd]; obs_simp; rewrite O1, (obs_errs _ _ O1); reflexivity|]. split; [reflexivity|]. split; [exact B1'|].
                 split; [discriminate|]. cbn [fst]. rewrite <- Ec. exact N1.
              ** destruct (Hset (g lm) lm) as (s2 & E2 & H2 & O2 & N2 & B2'). unfold bind at 1. rewrite E2. unfold ret.
                 exists lm, true, s2. split; [reflexivity|]. split; [exact (hv_trans _ _ _ H1 H2)|].
                 split; [cbn [snd]; congruence|]. split; [reflexivity|]. split; [exact (ops_but_trans _ _ _ _ B1' B2')|]. split; [discriminate|]. exact N2.
           ++ unfold bind at 1. unfold bind at 1. unfold err at 1, modify at 1. unfold ret at 1. unfold bind at 1.
              assert (G2 : op_code instr m (set_errs (s_errs s1 + 1) (set_msgs (error_value_out_of_range :: s_msgs s1) s1))
                 = Ok (g m) (set_errs (s_errs s1 + 1) (set_msgs (error_value_out_of_range :: s_msgs s1) s1))).
              { pose proof (G1 m) as Z. unfold op_code, gets in Z |- *. injection Z as Z. cbn [s_c02 s_ill set_errs set_msgs]. rewrite Z. reflexivity. }
              rewrite G2, Cm. set (s2 := set_errs _ _).
              assert (H2 : hv s1 s2) by apply hv_err, (h_tab _ _ H1).
              unfold bind at 1. rewrite (set_op_eq p _ instr c m npc [q] s2 N1). unfold ret. exists m, true. eexists. split; [reflexivity|].
              split; [eapply hv_trans; [exact H1|]; eapply hv_trans; [exact H2|]; eapply hv_setop; [apply (h_tab _ _ H2)|exact N1]|].
              split; [cbn [snd]; obs_simp; unfold s2; obs_simp; rewrite O1, (obs_errs _ _ O1); reflexivity|].
              split; [reflexivity|]. split; [eapply ops_but_trans; [exact B1'|]; eapply ops_but_trans; [apply (ops_but_same p s1 s2); reflexivity|apply ops_but_upd]|]. split; [discriminate|]. cbn [fst]. eapply upd_here. exact N1.
      * assert (V2 : over v 65535 = false) by (destruct (over v 65535) eqn:V2; [|reflexivity]; rewrite over_16 in V2; rewrite over_8 in V1; if_lia).
        rewrite V2. cbn [orb andb]. cbn [op_loop]. exists m, false, s1. split; [reflexivity|]. split; [exact H1|].
        split; [exact O1|]. split; [reflexivity|]. split; [exact B1'|]. split; [auto|]. cbn [fst]. rewrite <- Ec. exact N1.
    + rewrite OB, B2. change (2 <? 2) with false. rewrite !andb_false_r. cbn [andb op_loop].
      exists (short_mode m), (over v 255), s1. split; [reflexivity|]. split; [exact H1|].
      split; [|split; [reflexivity|split; [exact B1'|split; [reflexivity|exact N1]]]].
      unfold adjust. rewrite B2, Er. cbn. destruct (_ && _); exact O1.
Qed.

(** the observable effect of an instruction of code [c], mode [m] with operand bytes [l] *)
Definition step_op (l : list Z) (bad : bool) (s : state) : state :=
  let s1 := org s in
  let s2 := if bad then set_errs (s_errs s1 + 1) s1 else s1 in
  let s3 := if s_final s then writes l s2 else s2 in
  let n := Z.of_nat (length l) in
  set_code_gen (s_code_gen s3 + n) (set_pc (s_pc s3 + n) s3).

Lemma writes_same l s : s_pc (writes l s) = s_pc s /\ s_code_gen (writes l s) = s_code_gen s /\ s_errs (writes l s) = s_errs s
  /\ s_nodes (writes l s) = s_nodes s /\ s_final (writes l s) = s_final s /\ s_scope (writes l s) = s_scope s.
Proof. unfold writes, header. destruct (_ && _); [destruct (_ && _)|]; cbn; auto 10. Qed.

Lemma operand_length m npc v : 0 <= m < 15 -> Z.of_nat (length (operand m npc v)) = nbytes m.
Proof.
  intros M. unfold operand. destruct (m =? m_r) eqn:E; [apply Z.eqb_eq in E; subst; reflexivity|]. unfold le.
  pose proof (nbytes_range m). destruct (nbytes m =? 0) eqn:E0; [apply Z.eqb_eq in E0; rewrite E0; reflexivity|].
  destruct (nbytes m =? 1) eqn:E1; [apply Z.eqb_eq in E1; rewrite E1; reflexivity|]. cbn. apply Z.eqb_neq in E0, E1. lia.
Qed.

(** the end of expand_op_code_node, after the mode is fixed *)
Lemma op_tail C e v F s p q instr c' m' npc sc sm : (height e <= F)%nat -> tab s -> s_stop s = false -> rep C false s q e ->
  (s_final s = true -> known C (s_pc s) e v) -> 0 <= m' < 15 -> 0 < nbytes m' -> (s_final s = true -> far m' npc v = false) -> (s_final s = true -> no_gap s) ->
  nth_error (s_nodes s) p = Some (mkNode (KOp instr c' m' npc) [q]) -> npc = s_pc s -> (s_final s = true -> 0 <= c' < 256) ->
  exists s',
    (f <- gets s_final ;;
      when f (list_and_output (expand F) p) ;;;
      inf <- op_info p ;;
      let '(_, _, mode, _, _) := inf in
      b <- mode_bytes mode ;;
      modify (fun s => set_pc (s_pc s + b + 1) s) ;;;
      b <- mode_bytes mode ;;
      modify (fun s => set_code_gen (s_code_gen s + b + 1) s) ;;;
      set_op p (fun i _ _ c => KOp i sc sm c) ;;;
      ret 0) s = Ok 0 s' /\ hv s s' /\
    obs s' = (let s3 := if s_final s then writes (c' :: operand m' npc v) (obs s) else obs s in
              set_code_gen (s_code_gen s3 + (nbytes m' + 1)) (set_pc (s_pc s3 + (nbytes m' + 1)) s3)) /\
    nth_error (s_nodes s') p = Some (mkNode (KOp instr sc sm npc) [q]) /\ ops_but p s s'.
Proof.
  intros HF T St R K M B Fr G N Np Bo. unfold bind at 1, gets at 1.
  assert (X : exists s1, when (s_final s) (list_and_output (expand F) p) s = Ok tt s1 /\ hvp (nbytes m' + 1) s s1 /\
      obs s1 = (if s_final s then writes (c' :: operand m' npc v) (obs s) else obs s) /\
      nth_error (s_nodes s1) p = Some (mkNode (KOp instr c' m' npc) [q]) /\ ops_kept s s1).
  { unfold when. destruct (s_final s) eqn:Fn.
    - destruct (emit_op C e v F s p q instr c' m' npc HF T St R (K eq_refl) M B (Fr eq_refl) (G eq_refl) N Np (Bo eq_refl)) as (s1 & E1 & H1 & O1 & N1). pose proof (N1 _ _ _ _ _ _ N). eauto 10.
    - exists s. split; [reflexivity|]. split; [apply hvp_idle; auto|]. split; [reflexivity|]. split; [exact N|apply ops_kept_refl]. }
  destruct X as (s1 & E1 & H1 & O1 & N1 & K1). unfold bind at 1. rewrite E1.
  unfold bind at 1. rewrite (op_info_eq _ _ _ _ _ _ _ N1). unfold bind at 1. rewrite mode_bytes_ok by auto.
  unfold bind at 1, modify at 1. unfold bind at 1. rewrite mode_bytes_ok by auto. unfold bind at 1, modify at 1.
  set (s2 := set_pc _ s1). set (s3 := set_code_gen _ s2).
  assert (H3 : hv s s3) by (apply (hvp_move (nbytes m' + 1) s s1); auto; unfold s3, s2; cbn [s_pc set_code_gen set_pc]; lia).
  assert (N3 : nth_error (s_nodes s3) p = Some (mkNode (KOp instr c' m' npc) [q])) by exact N1.
  unfold bind at 1. rewrite (set_op_eq _ _ _ _ _ _ _ _ N3). unfold ret. eexists. split; [reflexivity|].
  split; [eapply hv_trans; [exact H3|]; eapply hv_setop; [apply (h_tab _ _ H3)|exact N3]|].
  split; [|split; [eapply upd_here; exact N3|]; eapply ops_but_trans; [apply ops_but_kept, K1|]; eapply ops_but_trans; [apply (ops_but_same p s1 s3); reflexivity|apply ops_but_upd]].
  obs_simp. unfold s3. obs_simp. unfold s2. obs_simp.
  change (s_code_gen (set_pc (s_pc s1 + nbytes m' + 1) s1)) with (s_code_gen s1).
  rewrite <- !Z.add_assoc. rewrite <- (obs_get_pc s1), <- (obs_get_code_gen s1), O1. reflexivity.
Qed.

Lemma adjust_range g m v npc : 0 <= m < 15 -> nbytes m <> 0 -> far m npc v = false ->
  0 <= fst (adjust g m v) < 15 /\ 0 < nbytes (fst (adjust g m v)) /\ far (fst (adjust g m v)) npc v = false.
Proof.
  intros M B Fr.
  assert (X : In (fst (adjust g m v)) (m :: match long_mode m with Some k => [k] | None => [] end ++ (if nbytes m =? 2 then [short_mode m] else []))).
  { unfold adjust. pose proof (nbytes_range m). destruct (nbytes m =? 0); [left; reflexivity|].
    destruct (m =? m_r); [left; reflexivity|]. destruct (Z.eqb_spec (nbytes m) 1).
    - destruct (_ && _); [|left; reflexivity]. destruct (long_mode m); [|left; reflexivity]. destruct (_ =? _); cbn; auto.
    - destruct (_ && _); [|left; reflexivity]. destruct (Z.eqb_spec (nbytes m) 2); [|lia]. right. apply in_or_app. right. left. reflexivity. }
  assert (Z : forall k, k <> m_r -> far k npc v = false) by (intros k Hk; unfold far; rewrite (proj2 (Z.eqb_neq _ _) Hk); reflexivity).
  destruct X as [<-|X]; [pose proof (nbytes_range m); auto with zarith|].
  assert (Y : 0 <= fst (adjust g m v) < 15 /\ 0 < nbytes (fst (adjust g m v)) /\ fst (adjust g m v) <> m_r).
  { revert X. generalize (fst (adjust g m v)). clear -M. revert m M. refine (nth15 _ _). intros m I.
    cbn in I. repeat (destruct I as [<-|I]; [intros k X; cbn in X; repeat (destruct X as [<-|X]; [vm_compute; intuition congruence|]); destruct X|]).
    destruct I. }
  destruct Y as (Y1 & Y2 & Y3). auto.
Qed.

Lemma adjust_code c02 ill i m v : 0 <= get_op_code c02 ill i m -> 0 <= get_op_code c02 ill i (fst (adjust (get_op_code c02 ill i) m v)) < 256.
Proof.
  intros H. pose proof (get_op_code_range c02 ill i) as Rg. split; [|apply Rg].
  assert (Z : forall k, (get_op_code c02 ill i k =? -1) = false -> 0 <= get_op_code c02 ill i k) by (intros k E; apply Z.eqb_neq in E; specialize (Rg k); lia).
  unfold adjust. destruct (nbytes m =? 0); [exact H|]. destruct (m =? m_r); [exact H|]. destruct (nbytes m =? 1).
  - destruct (_ && _); [|exact H]. destruct (long_mode m) as [lm|]; [|exact H]. destruct (_ =? -1) eqn:E; [exact H|apply Z, E].
  - destruct (negb (over v 255)); cbn [andb]; [|exact H]. destruct (_ =? -1) eqn:E; [exact H|apply Z, E].
Qed.

(** all names of the operand have values *)
Theorem x_op_code_ok C e v F s p q instr c m npc0 : (height e <= F)%nat -> tab s -> s_stop s = false -> rep C false s q e ->
  known C (s_pc s) e v -> unknown_name C e = false -> 0 <= m < 15 -> nbytes m <> 0 -> far m (s_pc s) v = false ->
  let g := get_op_code (s_c02 s) (s_ill s) instr in
  c = g m -> 0 <= c -> (s_final s = true -> no_gap (org s)) ->
  nth_error (s_nodes s) p = Some (mkNode (KOp instr c m npc0) [q]) ->
  exists s', x_op_code (expand F) p s = Ok 0 s' /\ hv s s' /\
    obs s' = step_op (g (fst (adjust g m v)) :: operand (fst (adjust g m v)) (s_pc s) v) (snd (adjust g m v)) (obs s) /\
    nth_error (s_nodes s') p = Some (mkNode (KOp instr c m (s_pc s)) [q]) /\ ops_but p s s'.
Proof.
  intros HF T St R K U M B Fr g Ec Hc G N. unfold x_op_code. unfold bind at 1. rewrite (op_info_eq _ _ _ _ _ _ _ N).
  unfold bind at 1, gets at 1. 
  assert (E1 : when (0 <? s_pc_assigned s) (modify (set_org_spec true)) s = Ok tt (org s)).
  { unfold when, org. destruct (0 <? _); reflexivity. }
  unfold bind at 1. rewrite E1. destruct (org_same s) as (D1 & D2 & D3 & D4 & D5 & D6 & D7). pose proof (hv_org s T) as H1.
  unfold bind at 1, gets at 1. rewrite D2.
  assert (N1 : nth_error (s_nodes (org s)) p = Some (mkNode (KOp instr c m npc0) [q])) by (rewrite D1; exact N).
  unfold bind at 1. rewrite (set_op_eq _ _ _ _ _ _ _ _ N1).
  set (s2 := set_nodes _ (org s)).
  assert (H2 : hv (org s) s2) by (eapply hv_setop; [apply (h_tab _ _ H1)|exact N1]).
  assert (N2 : nth_error (s_nodes s2) p = Some (mkNode (KOp instr c m (s_pc s)) [q])) by (eapply upd_here, N1).
  pose proof (hv_trans _ _ _ H1 H2) as H12. pose proof (rep_hv _ _ _ _ _ _ H12 R) as R2.
  assert (P2 : s_pc s2 = s_pc s) by exact D2. assert (St2 : s_stop s2 = false) by (rewrite <- St; exact D3).
  assert (O2 : obs s2 = obs (org s)) by apply obs_set_nodes.
  assert (B0 : (0 <? op_bytes_of m) = true).
  { clear -M B. revert B. revert m M. refine (nth15 _ _). intros m I. cbn in I.
    repeat (destruct I as [<-|I]; [vm_compute; intuition congruence|]). destruct I. }
  cbv zeta. rewrite B0. unfold bind at 1. rewrite (has_uninitialized_rep _ _ _ _ _ _ N2 R2). rewrite U. cbn [length].
  destruct (op_loop_one C e v F s2 p q instr c m (s_pc s) m c HF (h_tab _ _ H2) St2 R2 ltac:(rewrite P2; exact K) M B Fr)
    as (mc & large & s3 & E3 & H3 & O3 & L3 & U3 & N3).
  { unfold s2. cbn [s_c02 s_ill set_nodes]. rewrite D4, D5. exact Ec. } { exact Hc. } { exact N2. }
  assert (Gg : get_op_code (s_c02 s2) (s_ill s2) instr = g) by (unfold s2; cbn [s_c02 s_ill set_nodes]; rewrite D4, D5; reflexivity).
  rewrite Gg in O3, N3. change (s_errs s2) with (s_errs (org s)) in O3.
  unfold bind at 1. rewrite E3.
  assert (Q3 : s_pc s3 = s_pc s /\ s_stop s3 = false /\ s_c02 s3 = s_c02 s /\ s_ill s3 = s_ill s /\ s_final s3 = s_final s).
  { assert (O3' : obs s3 = if snd (adjust g m v) then set_errs (s_errs (org s) + 1) (obs (org s)) else obs (org s)) by (rewrite O3, O2; reflexivity).
    repeat split.
    - pose proof (f_equal s_pc O3') as Z. destruct (snd _); cbn [s_pc set_errs] in Z; obs_simp_in Z; congruence.
    - pose proof (f_equal s_stop O3') as Z. destruct (snd _); cbn [s_stop set_errs] in Z; obs_simp_in Z; congruence.
    - pose proof (f_equal s_c02 O3') as Z. destruct (snd _); cbn [s_c02 set_errs] in Z; obs_simp_in Z; congruence.
    - pose proof (f_equal s_ill O3') as Z. destruct (snd _); cbn [s_ill set_errs] in Z; obs_simp_in Z; congruence.
    - pose proof (f_equal s_final O3') as Z. destruct (snd _); cbn [s_final set_errs] in Z; obs_simp_in Z; congruence. }
  destruct Q3 as (Q1 & Q2 & Q4 & Q5 & Q6).
  set (a := adjust g m v) in *.
  (* the mode after shortening *)
  assert (X : exists s4 c4,
    (inf <- op_info p ;;
      let '(instr, _, mode, _, _) := inf in
      (if negb false && negb large && negb (mode =? mc) then
         code2 <- op_code instr mc ;;
         if code2 =? -1 then ret tt else set_op p (fun i _ _ c => KOp i code2 mc c)
       else ret tt)) s3 = Ok tt s4 /\ hv s3 s4 /\ obs s4 = obs s3 /\ c4 = g (fst a) /\
      ops_but p s3 s4 /\ nth_error (s_nodes s4) p = Some (mkNode (KOp instr c4 (fst a) (s_pc s)) [q])).
  { cbn [negb andb]. subst large. destruct (nbytes m =? 2) eqn:B2.
    - destruct N3 as (-> & N3). unfold bind at 1. rewrite (op_info_eq _ _ _ _ _ _ _ N3).
      apply Z.eqb_eq in B2. assert (Er : (m =? m_r) = false) by (apply Z.eqb_neq; intros ->; discriminate).
      assert (Sm : (m =? short_mode m) = false).
      { clear -M B2. revert B2. revert m M. refine (nth15 _ _). intros m I. cbn in I.
        repeat (destruct I as [<-|I]; [vm_compute; intuition congruence|]). destruct I. }
      unfold a, adjust. rewrite B2, Er, Sm. change (2 =? 0) with false. change (2 =? 1) with false. cbv iota.
      destruct (over v 255); cbn [negb andb].
      + exists s3, c. split; [reflexivity|]. split; [apply hv_refl, (h_tab _ _ H3)|]. split; [reflexivity|]. split; [exact Ec|]. split; [apply ops_but_same; reflexivity|exact N3].
      + unfold bind at 1, op_code, gets. rewrite Q4, Q5. fold g. destruct (g (short_mode m) =? -1); cbn [negb].
        * exists s3, c. split; [reflexivity|]. split; [apply hv_refl, (h_tab _ _ H3)|]. split; [reflexivity|]. split; [exact Ec|]. split; [apply ops_but_same; reflexivity|exact N3].
        * rewrite (set_op_eq _ _ _ _ _ _ _ _ N3). eexists. exists (g (short_mode m)). split; [reflexivity|].
          split; [eapply hv_setop; [apply (h_tab _ _ H3)|exact N3]|]. split; [apply obs_set_nodes|]. split; [reflexivity|]. split; [apply ops_but_upd|]. eapply upd_here, N3.
    - destruct N3 as (Hl & N3). unfold bind at 1. rewrite (op_info_eq _ _ _ _ _ _ _ N3).
      exists s3, (g (fst a)). split; [|split; [apply hv_refl, (h_tab _ _ H3)|split; [reflexivity|split; [reflexivity|split; [apply ops_but_same; reflexivity|exact N3]]]]].
      destruct (over v 255) eqn:V; [reflexivity|]. rewrite (Hl eq_refl).
      assert (fst a = m) as ->.
      { unfold a, adjust. rewrite V. pose proof (nbytes_range m). apply Z.eqb_neq in B2.
        assert (Z : nbytes m = 1) by lia. rewrite Z. change (1 =? 0) with false. change (1 =? 1) with true. cbv iota.
        destruct (m =? m_r); reflexivity. }
      rewrite Z.eqb_refl. reflexivity. }
  destruct X as (s4 & c4 & E4 & H4 & O4 & -> & U4 & N4).
  assert (N3' : exists x, nth_error (s_nodes s3) p = Some (mkNode (KOp instr (fst x) (snd x) (s_pc s)) [q])).
  { destruct (nbytes m =? 2); destruct N3 as (_ & N3); [exists (c, m)|exists (g (fst a), fst a)]; exact N3. }
  destruct N3' as (x & N3'). 
  unfold bind at 1. rewrite (op_info_eq _ _ _ _ _ _ _ N3').
  unfold bind at 1 in E4. rewrite (op_info_eq _ _ _ _ _ _ _ N3') in E4. unfold bind at 1. rewrite E4.
  assert (R4 : rep C false s4 q e) by (eapply rep_hv; [exact H4|]; eapply rep_hv; [exact H3|exact R2]).
  assert (M4 : 0 <= fst a < 15 /\ 0 < nbytes (fst a) /\ far (fst a) (s_pc s) v = false).
  { apply adjust_range; auto. }
  destruct M4 as (M4 & B4 & F4).
  assert (Q : s_pc s4 = s_pc s /\ s_stop s4 = false /\ s_final s4 = s_final s).
  { rewrite (obs_pc _ _ O4), (obs_stop _ _ O4), Q1, Q2. repeat split. pose proof (f_equal s_final O4) as Z. obs_simp_in Z. congruence. }
  destruct Q as (S1 & S2 & S3).
  assert (Oall : obs s4 = if snd a then set_errs (s_errs (org s) + 1) (obs (org s)) else obs (org s)) by (rewrite O4, O3, O2; reflexivity).
  destruct (op_tail C e v F s4 p q instr (g (fst a)) (fst a) (s_pc s) c m HF (h_tab _ _ H4) S2 R4 ltac:(rewrite S1; exact (fun _ => K)) M4 B4 (fun _ => F4))
    as (s5 & E5 & H5 & O5 & N5 & U5).
  { intros Fn. rewrite S3 in Fn. specialize (G Fn). unfold no_gap in *.
    assert (Eq : s_opened s4 = s_opened (org s) /\ s_org_spec s4 = s_org_spec (org s) /\ s_pc s4 = s_pc (org s) /\ s_origin s4 = s_origin (org s)
       /\ s_total s4 = s_total (org s) /\ s_c64 s4 = s_c64 (org s)).
    { repeat split; [pose proof (f_equal s_opened Oall) as Z|pose proof (f_equal s_org_spec Oall) as Z|pose proof (f_equal s_pc Oall) as Z
        |pose proof (f_equal s_origin Oall) as Z|pose proof (f_equal s_total Oall) as Z|pose proof (f_equal s_c64 Oall) as Z];
        destruct (snd a); cbn [s_opened s_org_spec s_pc s_origin s_total s_c64 set_errs] in Z; obs_simp_in Z; exact Z. }
    destruct Eq as (W1 & W2 & W3 & W4 & W5 & W6). rewrite W1, W2, W3, W4.
    assert (T1 : s_total (header s4) = s_total (header (org s))).
    { unfold header. rewrite W4, W5, W6. destruct ((s_total (org s) =? 0) && s_c64 (org s)); [|exact W5]. cbn. now rewrite W5. }
    rewrite T1. exact G. }
  { exact N4. } { symmetry. exact S1. } { intros _. apply adjust_code. unfold g in Ec. rewrite <- Ec. exact Hc. }
  exists s5. split; [exact E5|]. split; [exact (hv_trans _ _ _ H12 (hv_trans _ _ _ H3 (hv_trans _ _ _ H4 H5)))|].
  assert (U2 : ops_but p (org s) s2) by apply ops_but_upd.
  split; [|split; [exact N5|exact (ops_but_trans _ _ _ _ (ops_but_same p s (org s) D1) (ops_but_trans _ _ _ _ U2 (ops_but_trans _ _ _ _ U3 (ops_but_trans _ _ _ _ U4 U5))))]].
  rewrite O5, Oall, S3. unfold step_op. rewrite obs_org. obs_simp.
  destruct (org_same (obs s)) as (_ & _ & _ & _ & _ & _ & Er'). rewrite D7. obs_simp_in Er'. rewrite Er'.
  cbn [length]. rewrite Nat2Z.inj_succ. rewrite operand_length by auto. reflexivity.
Qed.
