(** Model of CMakePasm/source/parseargs.cc parse_arguments.
    The global variables it sets form the record [cfg]; the -d definitions are
    recorded in order (their effect on the symbol table is add_symbol /
    set_symbol_value, see Sym).  [AExit code err]: call of exit with the error
    reported (None for the help text). *)
From Coq Require Import String.
From Verif Require Import Base CNum.
Open Scope string_scope.
Open Scope list_scope.
Open Scope Z_scope.

Record cfg := mkCfg {
  c_out : option cstr; c_sym : option cstr; c_dir : option cstr; c_log : option cstr;
  c_list : option cstr; c_c64 : bool; c_verbose : bool; c_cpu : option bool (* Some true = 65C02 *);
  c_illegal : bool; c_nowarn : bool; c_defs : list (cstr * Z); c_inputs : list cstr }.

Definition cfg0 : cfg := mkCfg None None None None None false false None false false [] [].

Inductive argerr := EMissingOut | EOutTwice | EMissingSym | ESymTwice | EMissingParam | EDirTwice
  | EMissingLog | ELogTwice | EMissingList | EListTwice | EC64Twice | EVerboseTwice | ECpuTwice
  | EIllegalTwice | ENowarnTwice | EInvalid | ENoInput.

Inductive ares := AOk (c : cfg) | AExit (code : Z) (e : option argerr).

(** stricmp(argv[i], "-x") == 0 || stricmp(argv[i], "/x") == 0 *)
Definition is_opt (a : cstr) (name : string) : bool :=
  (stricmp a (45 :: cs name) =? 0) || (stricmp a (47 :: cs name) =? 0).

(** parseargs.cc:304-328: value of a -d definition *)
Definition def_value (v : cstr) : Z :=
  match v with
  | 36 :: v' => strtoi 16 v'                      (* '$' *)
  | 37 :: v' => strtoi 2 v'                       (* '%' *)
  | _ =>
      if 2 <? Z.of_nat (length v) then
        match v with
        | 48 :: 120 :: v' => strtoi 16 v'         (* 0x *)
        | 48 :: 98 :: v' => strtoi 2 v'           (* 0b *)
        | _ => 0
        end
      else strtoi 10 v
  end.

Definition set_out f c := mkCfg (Some f) (c_sym c) (c_dir c) (c_log c) (c_list c) (c_c64 c) (c_verbose c) (c_cpu c) (c_illegal c) (c_nowarn c) (c_defs c) (c_inputs c).
Definition set_sym f c := mkCfg (c_out c) (Some f) (c_dir c) (c_log c) (c_list c) (c_c64 c) (c_verbose c) (c_cpu c) (c_illegal c) (c_nowarn c) (c_defs c) (c_inputs c).
Definition set_dir f c := mkCfg (c_out c) (c_sym c) (Some f) (c_log c) (c_list c) (c_c64 c) (c_verbose c) (c_cpu c) (c_illegal c) (c_nowarn c) (c_defs c) (c_inputs c).
Definition set_log f c := mkCfg (c_out c) (c_sym c) (c_dir c) (Some f) (c_list c) (c_c64 c) (c_verbose c) (c_cpu c) (c_illegal c) (c_nowarn c) (c_defs c) (c_inputs c).
Definition set_list f c := mkCfg (c_out c) (c_sym c) (c_dir c) (c_log c) (Some f) (c_c64 c) (c_verbose c) (c_cpu c) (c_illegal c) (c_nowarn c) (c_defs c) (c_inputs c).
Definition set_c64 c := mkCfg (c_out c) (c_sym c) (c_dir c) (c_log c) (c_list c) true (c_verbose c) (c_cpu c) (c_illegal c) (c_nowarn c) (c_defs c) (c_inputs c).
Definition set_verbose c := mkCfg (c_out c) (c_sym c) (c_dir c) (c_log c) (c_list c) (c_c64 c) true (c_cpu c) (c_illegal c) (c_nowarn c) (c_defs c) (c_inputs c).
Definition set_cpu b c := mkCfg (c_out c) (c_sym c) (c_dir c) (c_log c) (c_list c) (c_c64 c) (c_verbose c) (Some b) (c_illegal c) (c_nowarn c) (c_defs c) (c_inputs c).
Definition set_illegal c := mkCfg (c_out c) (c_sym c) (c_dir c) (c_log c) (c_list c) (c_c64 c) (c_verbose c) (c_cpu c) true (c_nowarn c) (c_defs c) (c_inputs c).
Definition set_nowarn c := mkCfg (c_out c) (c_sym c) (c_dir c) (c_log c) (c_list c) (c_c64 c) (c_verbose c) (c_cpu c) (c_illegal c) true (c_defs c) (c_inputs c).
Definition add_def n v c := mkCfg (c_out c) (c_sym c) (c_dir c) (c_log c) (c_list c) (c_c64 c) (c_verbose c) (c_cpu c) (c_illegal c) (c_nowarn c) (c_defs c ++ [(n, v)]) (c_inputs c).
Definition add_input f c := mkCfg (c_out c) (c_sym c) (c_dir c) (c_log c) (c_list c) (c_c64 c) (c_verbose c) (c_cpu c) (c_illegal c) (c_nowarn c) (c_defs c) (c_inputs c ++ [f]).

Definition isSome {A} (o : option A) : bool := match o with Some _ => true | None => false end.

(** parseargs.cc:80-355, the argument loop on argv[1..] *)
Fixpoint parse_args (args : list cstr) (c : cfg) : ares :=
  match args with
  | [] => match c_inputs c with [] => AExit (-1) (Some ENoInput) | _ => AOk c end
  | a :: rest =>
      if is_opt a "?" || is_opt a "h" then AExit 0 None
      else if is_opt a "o" then
        match rest with
        | [] => AExit (-1) (Some EMissingOut)
        | f :: rest' => if isSome (c_out c) then AExit (-1) (Some EOutTwice) else parse_args rest' (set_out f c)
        end
      else if is_opt a "s" then
        match rest with
        | [] => AExit (-1) (Some EMissingSym)
        | f :: rest' => if isSome (c_sym c) then AExit (-1) (Some ESymTwice) else parse_args rest' (set_sym f c)
        end
      else if is_opt a "dir" then
        match rest with
        | [] => AExit (-1) (Some EMissingParam)
        | f :: rest' => if isSome (c_dir c) then AExit (-1) (Some EDirTwice) else parse_args rest' (set_dir f c)
        end
      else if is_opt a "log" then
        match rest with
        | [] => AExit (-1) (Some EMissingLog)
        | f :: rest' => if isSome (c_log c) then AExit (-1) (Some ELogTwice) else parse_args rest' (set_log f c)
        end
      else if is_opt a "l" then
        match rest with
        | [] => AExit (-1) (Some EMissingList)
        | f :: rest' => if isSome (c_list c) then AExit (-1) (Some EListTwice) else parse_args rest' (set_list f c)
        end
      else if is_opt a "c64" then
        if c_c64 c then AExit (-1) (Some EC64Twice) else parse_args rest (set_c64 c)
      else if is_opt a "v" then
        if c_verbose c then AExit (-1) (Some EVerboseTwice) else parse_args rest (set_verbose c)
      else if is_opt a "65c02" then
        if isSome (c_cpu c) then AExit (-1) (Some ECpuTwice) else parse_args rest (set_cpu true c)
      else if is_opt a "6502" then
        if isSome (c_cpu c) then AExit (-1) (Some ECpuTwice) else parse_args rest (set_cpu false c)
      else if is_opt a "i" then
        if c_illegal c then AExit (-1) (Some EIllegalTwice) else parse_args rest (set_illegal c)
      else if is_opt a "nowarn" then
        if c_nowarn c then AExit (-1) (Some ENowarnTwice) else parse_args rest (set_nowarn c)
      else if is_opt a "d" then
        match rest with
        | n :: v :: rest' => parse_args rest' (add_def n (def_value v) c)
        | _ => AExit (-1) (Some EInvalid)
        end
      else parse_args rest (add_input a c)
  end.

Definition parse_arguments (args : list cstr) : ares := parse_args args cfg0.
