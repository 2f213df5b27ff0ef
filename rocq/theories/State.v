(** The state of the assembler and the monad in which its functions are modelled.

    A C++ function becomes an action [M A]: it either returns, or calls exit(), or runs into undefined
    behaviour, or (only for loops and recursion without a bound in the code) runs out of the fuel given.
    Simplifications: malloc and fwrite never fail; diagnostics are kept as error numbers only (error.cc is
    modelled in Err.v); program_counter and the counters are integers without overflow. *)
From Coq Require Import String.
From Verif Require Import Base Hash Dict Opcodes Err.
Open Scope string_scope.
Open Scope list_scope.
Open Scope Z_scope.

(** ** Surface syntax: what the parser is given.

    The grammar is pasm.y:69-245.  Simplification: the source is a list of parsed lines, not text; the lexer's
    decisions that depend on the symbol table (macro name or label, pasm.l:376-418) are made by the model. *)

(** operators that can stand in a type_opr node (expand.cc:213-262) *)
Inductive opr :=
| OLo | OHi | OPcAssign | OOrg | OExprList | OMacro | OWhile | ORepeat | OSection | OEndSection | ODo | OFor
| ORegX | ORegY | OIf | OPrint | OPrintAll | ODs | OStatement | OEnd | OEqu | OUminus | OCompl | OPlus | OMinus
| OMul | ODiv | OBitOr | OBitAnd | OXor | OLt | OGt | OEq | ONe | OGe | OLe | OOr | OAnd | ONot | OShl | OShr
| OVar | OInc | OLoad | OFill.

Inductive expr :=
| EInt (v : Z)                      (* INTEGER *)
| ESym (name : cstr)                (* SYMBOL, and '-' '+' as in pasm.y:235-236 *)
| EPc                               (* '*' *)
| EUn (o : opr) (e : expr)          (* UMINUS ~ < > NOT *)
| EBin (o : opr) (e1 e2 : expr).

Inductive item := IExpr (e : expr) | IStr (raw : cstr).     (* expr_list elements; raw includes the quotes *)

Inductive opform := FImp | FImm (e : expr) | FAbs (e : expr) | FAbsX (e : expr) | FAbsY (e : expr)
| FInd (e : expr) | FIndX (e : expr) | FIndY (e : expr).    (* pasm.y:178-187 *)

(** statements; in a body every statement carries the value of yylineno after its last EOL *)
Inductive stmt :=
| SEmpty
| SOp (instr : Z) (f : opform)
| SOrg (e : expr) | SDs (e : expr) | SFill (e1 e2 : expr)
| SData (size : Z) (l : list item)                          (* .BYTE 1, .WORD 2, .STR 0 *)
| SPrint (all : bool) (l : list item)
| SPrintState (st : Z)
| SSection (name : cstr) | SEndSection | SEnd
| SInc (raw : cstr) | SLoad (raw : cstr)
| SAssign (name : cstr) (e : expr)
| SPcAssign (e : expr)
| SIf (e : expr) (b : list (Z * stmt)) (els : option (list (Z * stmt)))
| SRepeat (b : list (Z * stmt)) (e : expr)
| SDo (b : list (Z * stmt)) (e : expr)
| SWhile (e : expr) (b : list (Z * stmt))
| SFor (name : cstr) (e0 e1 : expr) (step : option expr) (b : list (Z * stmt)) (next : cstr)
| SForReg (x : bool) (e0 e1 : expr) (up : bool) (b : list (Z * stmt))
| SMacro (name : cstr) (b : list (Z * stmt))
| SName (name : cstr) (args : list item)                    (* macro call, or a label on its own *)
| SVar (l : list (cstr * option expr))
| SCpu (c02 : bool) | SIllegal (on : bool) | SC64           (* pasm.l:312-315, 318 *)
| SBad.                                                     (* does not parse *)

(** a statement of a file: yylineno after its last EOL, the name at the start of the line if there is one, what
    follows read as a statement, and what follows read as the arguments of a macro call.  Which of the two
    readings applies depends on the symbol table (pasm.l:376-418). *)
Record tline := mkLine { t_line : Z; t_label : option cstr; t_stmt : stmt; t_args : option (list item) }.

(** a source line, with the conditional directives that the lexer handles itself (pasm.l:158-249).
    Simplifications: a conditional directive stands alone on its line and not inside a block statement. *)
Inductive sline :=
| SrcLine (l : tline)
| SrcIf (neg : bool) (name : cstr)       (* .IFDEF, .IFNDEF *)
| SrcElse (line : Z)                     (* yylineno when it is read *)
| SrcEndif (line : Z).

(** ** Memory *)

(** sym.h:16-38 *)
Record symbol := mkSym {
  y_value : Z; y_times : Z; y_init : bool; y_mname : bool; y_mparam : bool; y_label : bool; y_local : bool;
  y_pm : bool; y_var : bool; y_scope : option cstr; y_name : cstr; y_full : cstr;
  y_macro : option (nat * nat)      (* macro_node: (parse tree generation, node) *)
}.

Record pmsym := mkPm { pm_file : cstr; pm_line : Z; pm_value : Z }.   (* sym.h:9-14 *)

(** node.h:26-117; [ops] is the op array, its length number_of_ops *)
Inductive nkind :=
| KCon (v : Z) (ispc : bool)
| KId (name : cstr) (i : option nat)
| KLabel (name : cstr) (i : option nat)
| KMacId (name : cstr) (i : option nat)
| KMacEx (name : cstr) (macro : nat) (params : option nat)
| KOpr (o : opr)
| KOp (instr opcode mode pc : Z)
| KData (size : Z) (data : nat)
| KStr (v : cstr)
| KPrint (st : Z).
Record node := mkNode { n_kind : nkind; n_ops : list nat }.

(** expand.cc:62-71 *)
Inductive etype := EtMacro | EtBytes | EtStrings | EtPrint | EtPrintAll | EtSymbol.

(** genlist.h:14-24 and the text produced by node.cc:1517-1864 in structured form *)
Inductive lbody :=
| LNone
| LOp (pc opcode instr mode : Z) (bytes : list Z) (operand : Z)
| LData (pc : Z) (bytes : list Z)
| LStr (pc : Z) (chars : list Z)               (* three characters of a string *)
| LTail (pc : Z) (chars : list Z) (pad : bool) (* its last one or two; [pad]: a NUL follows *)
| LPad (pc : Z) (chars : list Z).              (* a NUL after the group of three [chars], which is listed again *)
Record lrec := mkLrec { l_file : cstr; l_line : Z; l_pstate : Z; l_dir : bool; l_body : lbody }.

(** inputs that never change *)
Record config := mkCfg {
  g_files : cstr -> option (list sline);     (* source files, by name as written *)
  g_bins : cstr -> option (list Z);          (* files for .LOAD *)
  g_inputs : list cstr;                      (* input_files *)
  g_out : bool;                              (* output_file_name != NULL *)
  g_canwrite : bool                          (* fopen of the output file succeeds *)
}.

(** All global variables of the assembler (globals.cc, expand.cc, sym.cc, genoutput.cc, genlist.cc, pass.cc). *)
Record state := mkState {
  s_cfg : config (* constant inputs of one assembly *);
  s_c02 : bool (* cpu_mode == cpu_65C02 (opcodes.cc:14) *);
  s_ill : bool (* allow_illegal_op_codes (opcodes.cc:15) *);
  s_c64 : bool (* output_file_format == c64 (globals.cc:41) *);
  s_final : bool (* final_pass *);
  s_pass : Z (* pass *);
  s_pc : Z (* program_counter *);
  s_errs : Z (* error_count *);
  s_warns : Z (* warning_count *);
  s_msgs : list Z (* error numbers reported so far, newest first; syntax errors are -1 *);
  s_changed : Z (* sym_value_changed *);
  s_origin : Z (* origin (genoutput.cc:24) *);
  s_org_spec : bool (* origin_specified *);
  s_org_once : bool (* org_origin_specified *);
  s_pc_assigned : Z (* program_counter_assigned (expand.cc:40), never reset *);
  s_code_gen : Z (* code_generated (expand.cc:41) *);
  s_stop : bool (* end_expansion *);
  s_ety : etype (* expansion_type *);
  s_dsz : Z (* data_size *);
  s_mpi : Z (* macro_parameter_index *);
  s_maxmp : Z (* max_macro_param, never reset *);
  s_forx : Z (* for_x_count *);
  s_fory : Z (* for_y_count *);
  s_scope : option cstr (* current_scope *);
  s_label : option cstr (* last_label *);
  s_out : list Z (* bytes written to output_file, newest first *);
  s_opened : bool (* output_file != NULL *);
  s_total : Z (* total_bytes_written *);
  s_delta : Z (* byte_delta *);
  s_list : list lrec (* list table (genlist.cc:22), newest first *);
  s_pstate : Z (* print_list_state *);
  s_console : list Z (* characters written by PRINT directives, newest first *);
  s_line : Z (* yylineno *);
  s_file : cstr (* current_file_name *);
  s_fstack : list (cstr * Z) (* file_stack, top first *);
  s_input : list (list sline) (* flex buffer stack: lines still to be read, top first *);
  s_skip : bool (* start condition IF_DEF (pasm.l:55) *);
  s_ifs : list Z (* ifdef_stack, top first *);
  s_mstack : list (list Z) (* macro_params_stack, top first *);
  s_minus : list pmsym (* minus_symbol_table *);
  s_plus : list pmsym (* plus_symbol_table *);
  s_dict : dict (* symbol_dictionary *);
  s_syms : list symbol (* value memory of symbol_dictionary *);
  s_mdict : dict (* macro_dict *);
  s_mvals : list Z (* value memory of macro_dict and of create_macro_entry: times_executed *);
  s_nodes : list node (* parse nodes of this pass, index = address *);
  s_gen : nat (* number of parse trees freed so far (free_parse_tree) *);
  s_macdef : Z (* in_macro_definition *);
  s_soft : list Z (* events that are undefined behaviour in C++ but harmless in practice, newest first *)
}.

Definition set_cfg (v : config) (s : state) : state :=
  mkState v (s_c02 s) (s_ill s) (s_c64 s) (s_final s) (s_pass s) (s_pc s) (s_errs s) (s_warns s) (s_msgs s) (s_changed s) (s_origin s) (s_org_spec s) (s_org_once s) (s_pc_assigned s) (s_code_gen s) (s_stop s) (s_ety s) (s_dsz s) (s_mpi s) (s_maxmp s) (s_forx s) (s_fory s) (s_scope s) (s_label s) (s_out s) (s_opened s) (s_total s) (s_delta s) (s_list s) (s_pstate s) (s_console s) (s_line s) (s_file s) (s_fstack s) (s_input s) (s_skip s) (s_ifs s) (s_mstack s) (s_minus s) (s_plus s) (s_dict s) (s_syms s) (s_mdict s) (s_mvals s) (s_nodes s) (s_gen s) (s_macdef s) (s_soft s).
Definition set_c02 (v : bool) (s : state) : state :=
  mkState (s_cfg s) v (s_ill s) (s_c64 s) (s_final s) (s_pass s) (s_pc s) (s_errs s) (s_warns s) (s_msgs s) (s_changed s) (s_origin s) (s_org_spec s) (s_org_once s) (s_pc_assigned s) (s_code_gen s) (s_stop s) (s_ety s) (s_dsz s) (s_mpi s) (s_maxmp s) (s_forx s) (s_fory s) (s_scope s) (s_label s) (s_out s) (s_opened s) (s_total s) (s_delta s) (s_list s) (s_pstate s) (s_console s) (s_line s) (s_file s) (s_fstack s) (s_input s) (s_skip s) (s_ifs s) (s_mstack s) (s_minus s) (s_plus s) (s_dict s) (s_syms s) (s_mdict s) (s_mvals s) (s_nodes s) (s_gen s) (s_macdef s) (s_soft s).
Definition set_ill (v : bool) (s : state) : state :=
  mkState (s_cfg s) (s_c02 s) v (s_c64 s) (s_final s) (s_pass s) (s_pc s) (s_errs s) (s_warns s) (s_msgs s) (s_changed s) (s_origin s) (s_org_spec s) (s_org_once s) (s_pc_assigned s) (s_code_gen s) (s_stop s) (s_ety s) (s_dsz s) (s_mpi s) (s_maxmp s) (s_forx s) (s_fory s) (s_scope s) (s_label s) (s_out s) (s_opened s) (s_total s) (s_delta s) (s_list s) (s_pstate s) (s_console s) (s_line s) (s_file s) (s_fstack s) (s_input s) (s_skip s) (s_ifs s) (s_mstack s) (s_minus s) (s_plus s) (s_dict s) (s_syms s) (s_mdict s) (s_mvals s) (s_nodes s) (s_gen s) (s_macdef s) (s_soft s).
Definition set_c64 (v : bool) (s : state) : state :=
  mkState (s_cfg s) (s_c02 s) (s_ill s) v (s_final s) (s_pass s) (s_pc s) (s_errs s) (s_warns s) (s_msgs s) (s_changed s) (s_origin s) (s_org_spec s) (s_org_once s) (s_pc_assigned s) (s_code_gen s) (s_stop s) (s_ety s) (s_dsz s) (s_mpi s) (s_maxmp s) (s_forx s) (s_fory s) (s_scope s) (s_label s) (s_out s) (s_opened s) (s_total s) (s_delta s) (s_list s) (s_pstate s) (s_console s) (s_line s) (s_file s) (s_fstack s) (s_input s) (s_skip s) (s_ifs s) (s_mstack s) (s_minus s) (s_plus s) (s_dict s) (s_syms s) (s_mdict s) (s_mvals s) (s_nodes s) (s_gen s) (s_macdef s) (s_soft s).
Definition set_final (v : bool) (s : state) : state :=
  mkState (s_cfg s) (s_c02 s) (s_ill s) (s_c64 s) v (s_pass s) (s_pc s) (s_errs s) (s_warns s) (s_msgs s) (s_changed s) (s_origin s) (s_org_spec s) (s_org_once s) (s_pc_assigned s) (s_code_gen s) (s_stop s) (s_ety s) (s_dsz s) (s_mpi s) (s_maxmp s) (s_forx s) (s_fory s) (s_scope s) (s_label s) (s_out s) (s_opened s) (s_total s) (s_delta s) (s_list s) (s_pstate s) (s_console s) (s_line s) (s_file s) (s_fstack s) (s_input s) (s_skip s) (s_ifs s) (s_mstack s) (s_minus s) (s_plus s) (s_dict s) (s_syms s) (s_mdict s) (s_mvals s) (s_nodes s) (s_gen s) (s_macdef s) (s_soft s).
Definition set_pass (v : Z) (s : state) : state :=
  mkState (s_cfg s) (s_c02 s) (s_ill s) (s_c64 s) (s_final s) v (s_pc s) (s_errs s) (s_warns s) (s_msgs s) (s_changed s) (s_origin s) (s_org_spec s) (s_org_once s) (s_pc_assigned s) (s_code_gen s) (s_stop s) (s_ety s) (s_dsz s) (s_mpi s) (s_maxmp s) (s_forx s) (s_fory s) (s_scope s) (s_label s) (s_out s) (s_opened s) (s_total s) (s_delta s) (s_list s) (s_pstate s) (s_console s) (s_line s) (s_file s) (s_fstack s) (s_input s) (s_skip s) (s_ifs s) (s_mstack s) (s_minus s) (s_plus s) (s_dict s) (s_syms s) (s_mdict s) (s_mvals s) (s_nodes s) (s_gen s) (s_macdef s) (s_soft s).
Definition set_pc (v : Z) (s : state) : state :=
  mkState (s_cfg s) (s_c02 s) (s_ill s) (s_c64 s) (s_final s) (s_pass s) v (s_errs s) (s_warns s) (s_msgs s) (s_changed s) (s_origin s) (s_org_spec s) (s_org_once s) (s_pc_assigned s) (s_code_gen s) (s_stop s) (s_ety s) (s_dsz s) (s_mpi s) (s_maxmp s) (s_forx s) (s_fory s) (s_scope s) (s_label s) (s_out s) (s_opened s) (s_total s) (s_delta s) (s_list s) (s_pstate s) (s_console s) (s_line s) (s_file s) (s_fstack s) (s_input s) (s_skip s) (s_ifs s) (s_mstack s) (s_minus s) (s_plus s) (s_dict s) (s_syms s) (s_mdict s) (s_mvals s) (s_nodes s) (s_gen s) (s_macdef s) (s_soft s).
Definition set_errs (v : Z) (s : state) : state :=
  mkState (s_cfg s) (s_c02 s) (s_ill s) (s_c64 s) (s_final s) (s_pass s) (s_pc s) v (s_warns s) (s_msgs s) (s_changed s) (s_origin s) (s_org_spec s) (s_org_once s) (s_pc_assigned s) (s_code_gen s) (s_stop s) (s_ety s) (s_dsz s) (s_mpi s) (s_maxmp s) (s_forx s) (s_fory s) (s_scope s) (s_label s) (s_out s) (s_opened s) (s_total s) (s_delta s) (s_list s) (s_pstate s) (s_console s) (s_line s) (s_file s) (s_fstack s) (s_input s) (s_skip s) (s_ifs s) (s_mstack s) (s_minus s) (s_plus s) (s_dict s) (s_syms s) (s_mdict s) (s_mvals s) (s_nodes s) (s_gen s) (s_macdef s) (s_soft s).
Definition set_warns (v : Z) (s : state) : state :=
  mkState (s_cfg s) (s_c02 s) (s_ill s) (s_c64 s) (s_final s) (s_pass s) (s_pc s) (s_errs s) v (s_msgs s) (s_changed s) (s_origin s) (s_org_spec s) (s_org_once s) (s_pc_assigned s) (s_code_gen s) (s_stop s) (s_ety s) (s_dsz s) (s_mpi s) (s_maxmp s) (s_forx s) (s_fory s) (s_scope s) (s_label s) (s_out s) (s_opened s) (s_total s) (s_delta s) (s_list s) (s_pstate s) (s_console s) (s_line s) (s_file s) (s_fstack s) (s_input s) (s_skip s) (s_ifs s) (s_mstack s) (s_minus s) (s_plus s) (s_dict s) (s_syms s) (s_mdict s) (s_mvals s) (s_nodes s) (s_gen s) (s_macdef s) (s_soft s).
Definition set_msgs (v : list Z) (s : state) : state :=
  mkState (s_cfg s) (s_c02 s) (s_ill s) (s_c64 s) (s_final s) (s_pass s) (s_pc s) (s_errs s) (s_warns s) v (s_changed s) (s_origin s) (s_org_spec s) (s_org_once s) (s_pc_assigned s) (s_code_gen s) (s_stop s) (s_ety s) (s_dsz s) (s_mpi s) (s_maxmp s) (s_forx s) (s_fory s) (s_scope s) (s_label s) (s_out s) (s_opened s) (s_total s) (s_delta s) (s_list s) (s_pstate s) (s_console s) (s_line s) (s_file s) (s_fstack s) (s_input s) (s_skip s) (s_ifs s) (s_mstack s) (s_minus s) (s_plus s) (s_dict s) (s_syms s) (s_mdict s) (s_mvals s) (s_nodes s) (s_gen s) (s_macdef s) (s_soft s).
Definition set_changed (v : Z) (s : state) : state :=
  mkState (s_cfg s) (s_c02 s) (s_ill s) (s_c64 s) (s_final s) (s_pass s) (s_pc s) (s_errs s) (s_warns s) (s_msgs s) v (s_origin s) (s_org_spec s) (s_org_once s) (s_pc_assigned s) (s_code_gen s) (s_stop s) (s_ety s) (s_dsz s) (s_mpi s) (s_maxmp s) (s_forx s) (s_fory s) (s_scope s) (s_label s) (s_out s) (s_opened s) (s_total s) (s_delta s) (s_list s) (s_pstate s) (s_console s) (s_line s) (s_file s) (s_fstack s) (s_input s) (s_skip s) (s_ifs s) (s_mstack s) (s_minus s) (s_plus s) (s_dict s) (s_syms s) (s_mdict s) (s_mvals s) (s_nodes s) (s_gen s) (s_macdef s) (s_soft s).
Definition set_origin (v : Z) (s : state) : state :=
  mkState (s_cfg s) (s_c02 s) (s_ill s) (s_c64 s) (s_final s) (s_pass s) (s_pc s) (s_errs s) (s_warns s) (s_msgs s) (s_changed s) v (s_org_spec s) (s_org_once s) (s_pc_assigned s) (s_code_gen s) (s_stop s) (s_ety s) (s_dsz s) (s_mpi s) (s_maxmp s) (s_forx s) (s_fory s) (s_scope s) (s_label s) (s_out s) (s_opened s) (s_total s) (s_delta s) (s_list s) (s_pstate s) (s_console s) (s_line s) (s_file s) (s_fstack s) (s_input s) (s_skip s) (s_ifs s) (s_mstack s) (s_minus s) (s_plus s) (s_dict s) (s_syms s) (s_mdict s) (s_mvals s) (s_nodes s) (s_gen s) (s_macdef s) (s_soft s).
Definition set_org_spec (v : bool) (s : state) : state :=
  mkState (s_cfg s) (s_c02 s) (s_ill s) (s_c64 s) (s_final s) (s_pass s) (s_pc s) (s_errs s) (s_warns s) (s_msgs s) (s_changed s) (s_origin s) v (s_org_once s) (s_pc_assigned s) (s_code_gen s) (s_stop s) (s_ety s) (s_dsz s) (s_mpi s) (s_maxmp s) (s_forx s) (s_fory s) (s_scope s) (s_label s) (s_out s) (s_opened s) (s_total s) (s_delta s) (s_list s) (s_pstate s) (s_console s) (s_line s) (s_file s) (s_fstack s) (s_input s) (s_skip s) (s_ifs s) (s_mstack s) (s_minus s) (s_plus s) (s_dict s) (s_syms s) (s_mdict s) (s_mvals s) (s_nodes s) (s_gen s) (s_macdef s) (s_soft s).
Definition set_org_once (v : bool) (s : state) : state :=
  mkState (s_cfg s) (s_c02 s) (s_ill s) (s_c64 s) (s_final s) (s_pass s) (s_pc s) (s_errs s) (s_warns s) (s_msgs s) (s_changed s) (s_origin s) (s_org_spec s) v (s_pc_assigned s) (s_code_gen s) (s_stop s) (s_ety s) (s_dsz s) (s_mpi s) (s_maxmp s) (s_forx s) (s_fory s) (s_scope s) (s_label s) (s_out s) (s_opened s) (s_total s) (s_delta s) (s_list s) (s_pstate s) (s_console s) (s_line s) (s_file s) (s_fstack s) (s_input s) (s_skip s) (s_ifs s) (s_mstack s) (s_minus s) (s_plus s) (s_dict s) (s_syms s) (s_mdict s) (s_mvals s) (s_nodes s) (s_gen s) (s_macdef s) (s_soft s).
Definition set_pc_assigned (v : Z) (s : state) : state :=
  mkState (s_cfg s) (s_c02 s) (s_ill s) (s_c64 s) (s_final s) (s_pass s) (s_pc s) (s_errs s) (s_warns s) (s_msgs s) (s_changed s) (s_origin s) (s_org_spec s) (s_org_once s) v (s_code_gen s) (s_stop s) (s_ety s) (s_dsz s) (s_mpi s) (s_maxmp s) (s_forx s) (s_fory s) (s_scope s) (s_label s) (s_out s) (s_opened s) (s_total s) (s_delta s) (s_list s) (s_pstate s) (s_console s) (s_line s) (s_file s) (s_fstack s) (s_input s) (s_skip s) (s_ifs s) (s_mstack s) (s_minus s) (s_plus s) (s_dict s) (s_syms s) (s_mdict s) (s_mvals s) (s_nodes s) (s_gen s) (s_macdef s) (s_soft s).
Definition set_code_gen (v : Z) (s : state) : state :=
  mkState (s_cfg s) (s_c02 s) (s_ill s) (s_c64 s) (s_final s) (s_pass s) (s_pc s) (s_errs s) (s_warns s) (s_msgs s) (s_changed s) (s_origin s) (s_org_spec s) (s_org_once s) (s_pc_assigned s) v (s_stop s) (s_ety s) (s_dsz s) (s_mpi s) (s_maxmp s) (s_forx s) (s_fory s) (s_scope s) (s_label s) (s_out s) (s_opened s) (s_total s) (s_delta s) (s_list s) (s_pstate s) (s_console s) (s_line s) (s_file s) (s_fstack s) (s_input s) (s_skip s) (s_ifs s) (s_mstack s) (s_minus s) (s_plus s) (s_dict s) (s_syms s) (s_mdict s) (s_mvals s) (s_nodes s) (s_gen s) (s_macdef s) (s_soft s).
Definition set_stop (v : bool) (s : state) : state :=
  mkState (s_cfg s) (s_c02 s) (s_ill s) (s_c64 s) (s_final s) (s_pass s) (s_pc s) (s_errs s) (s_warns s) (s_msgs s) (s_changed s) (s_origin s) (s_org_spec s) (s_org_once s) (s_pc_assigned s) (s_code_gen s) v (s_ety s) (s_dsz s) (s_mpi s) (s_maxmp s) (s_forx s) (s_fory s) (s_scope s) (s_label s) (s_out s) (s_opened s) (s_total s) (s_delta s) (s_list s) (s_pstate s) (s_console s) (s_line s) (s_file s) (s_fstack s) (s_input s) (s_skip s) (s_ifs s) (s_mstack s) (s_minus s) (s_plus s) (s_dict s) (s_syms s) (s_mdict s) (s_mvals s) (s_nodes s) (s_gen s) (s_macdef s) (s_soft s).
Definition set_ety (v : etype) (s : state) : state :=
  mkState (s_cfg s) (s_c02 s) (s_ill s) (s_c64 s) (s_final s) (s_pass s) (s_pc s) (s_errs s) (s_warns s) (s_msgs s) (s_changed s) (s_origin s) (s_org_spec s) (s_org_once s) (s_pc_assigned s) (s_code_gen s) (s_stop s) v (s_dsz s) (s_mpi s) (s_maxmp s) (s_forx s) (s_fory s) (s_scope s) (s_label s) (s_out s) (s_opened s) (s_total s) (s_delta s) (s_list s) (s_pstate s) (s_console s) (s_line s) (s_file s) (s_fstack s) (s_input s) (s_skip s) (s_ifs s) (s_mstack s) (s_minus s) (s_plus s) (s_dict s) (s_syms s) (s_mdict s) (s_mvals s) (s_nodes s) (s_gen s) (s_macdef s) (s_soft s).
Definition set_dsz (v : Z) (s : state) : state :=
  mkState (s_cfg s) (s_c02 s) (s_ill s) (s_c64 s) (s_final s) (s_pass s) (s_pc s) (s_errs s) (s_warns s) (s_msgs s) (s_changed s) (s_origin s) (s_org_spec s) (s_org_once s) (s_pc_assigned s) (s_code_gen s) (s_stop s) (s_ety s) v (s_mpi s) (s_maxmp s) (s_forx s) (s_fory s) (s_scope s) (s_label s) (s_out s) (s_opened s) (s_total s) (s_delta s) (s_list s) (s_pstate s) (s_console s) (s_line s) (s_file s) (s_fstack s) (s_input s) (s_skip s) (s_ifs s) (s_mstack s) (s_minus s) (s_plus s) (s_dict s) (s_syms s) (s_mdict s) (s_mvals s) (s_nodes s) (s_gen s) (s_macdef s) (s_soft s).
Definition set_mpi (v : Z) (s : state) : state :=
  mkState (s_cfg s) (s_c02 s) (s_ill s) (s_c64 s) (s_final s) (s_pass s) (s_pc s) (s_errs s) (s_warns s) (s_msgs s) (s_changed s) (s_origin s) (s_org_spec s) (s_org_once s) (s_pc_assigned s) (s_code_gen s) (s_stop s) (s_ety s) (s_dsz s) v (s_maxmp s) (s_forx s) (s_fory s) (s_scope s) (s_label s) (s_out s) (s_opened s) (s_total s) (s_delta s) (s_list s) (s_pstate s) (s_console s) (s_line s) (s_file s) (s_fstack s) (s_input s) (s_skip s) (s_ifs s) (s_mstack s) (s_minus s) (s_plus s) (s_dict s) (s_syms s) (s_mdict s) (s_mvals s) (s_nodes s) (s_gen s) (s_macdef s) (s_soft s).
Definition set_maxmp (v : Z) (s : state) : state :=
  mkState (s_cfg s) (s_c02 s) (s_ill s) (s_c64 s) (s_final s) (s_pass s) (s_pc s) (s_errs s) (s_warns s) (s_msgs s) (s_changed s) (s_origin s) (s_org_spec s) (s_org_once s) (s_pc_assigned s) (s_code_gen s) (s_stop s) (s_ety s) (s_dsz s) (s_mpi s) v (s_forx s) (s_fory s) (s_scope s) (s_label s) (s_out s) (s_opened s) (s_total s) (s_delta s) (s_list s) (s_pstate s) (s_console s) (s_line s) (s_file s) (s_fstack s) (s_input s) (s_skip s) (s_ifs s) (s_mstack s) (s_minus s) (s_plus s) (s_dict s) (s_syms s) (s_mdict s) (s_mvals s) (s_nodes s) (s_gen s) (s_macdef s) (s_soft s).
Definition set_forx (v : Z) (s : state) : state :=
  mkState (s_cfg s) (s_c02 s) (s_ill s) (s_c64 s) (s_final s) (s_pass s) (s_pc s) (s_errs s) (s_warns s) (s_msgs s) (s_changed s) (s_origin s) (s_org_spec s) (s_org_once s) (s_pc_assigned s) (s_code_gen s) (s_stop s) (s_ety s) (s_dsz s) (s_mpi s) (s_maxmp s) v (s_fory s) (s_scope s) (s_label s) (s_out s) (s_opened s) (s_total s) (s_delta s) (s_list s) (s_pstate s) (s_console s) (s_line s) (s_file s) (s_fstack s) (s_input s) (s_skip s) (s_ifs s) (s_mstack s) (s_minus s) (s_plus s) (s_dict s) (s_syms s) (s_mdict s) (s_mvals s) (s_nodes s) (s_gen s) (s_macdef s) (s_soft s).
Definition set_fory (v : Z) (s : state) : state :=
  mkState (s_cfg s) (s_c02 s) (s_ill s) (s_c64 s) (s_final s) (s_pass s) (s_pc s) (s_errs s) (s_warns s) (s_msgs s) (s_changed s) (s_origin s) (s_org_spec s) (s_org_once s) (s_pc_assigned s) (s_code_gen s) (s_stop s) (s_ety s) (s_dsz s) (s_mpi s) (s_maxmp s) (s_forx s) v (s_scope s) (s_label s) (s_out s) (s_opened s) (s_total s) (s_delta s) (s_list s) (s_pstate s) (s_console s) (s_line s) (s_file s) (s_fstack s) (s_input s) (s_skip s) (s_ifs s) (s_mstack s) (s_minus s) (s_plus s) (s_dict s) (s_syms s) (s_mdict s) (s_mvals s) (s_nodes s) (s_gen s) (s_macdef s) (s_soft s).
Definition set_scope (v : option cstr) (s : state) : state :=
  mkState (s_cfg s) (s_c02 s) (s_ill s) (s_c64 s) (s_final s) (s_pass s) (s_pc s) (s_errs s) (s_warns s) (s_msgs s) (s_changed s) (s_origin s) (s_org_spec s) (s_org_once s) (s_pc_assigned s) (s_code_gen s) (s_stop s) (s_ety s) (s_dsz s) (s_mpi s) (s_maxmp s) (s_forx s) (s_fory s) v (s_label s) (s_out s) (s_opened s) (s_total s) (s_delta s) (s_list s) (s_pstate s) (s_console s) (s_line s) (s_file s) (s_fstack s) (s_input s) (s_skip s) (s_ifs s) (s_mstack s) (s_minus s) (s_plus s) (s_dict s) (s_syms s) (s_mdict s) (s_mvals s) (s_nodes s) (s_gen s) (s_macdef s) (s_soft s).
Definition set_label (v : option cstr) (s : state) : state :=
  mkState (s_cfg s) (s_c02 s) (s_ill s) (s_c64 s) (s_final s) (s_pass s) (s_pc s) (s_errs s) (s_warns s) (s_msgs s) (s_changed s) (s_origin s) (s_org_spec s) (s_org_once s) (s_pc_assigned s) (s_code_gen s) (s_stop s) (s_ety s) (s_dsz s) (s_mpi s) (s_maxmp s) (s_forx s) (s_fory s) (s_scope s) v (s_out s) (s_opened s) (s_total s) (s_delta s) (s_list s) (s_pstate s) (s_console s) (s_line s) (s_file s) (s_fstack s) (s_input s) (s_skip s) (s_ifs s) (s_mstack s) (s_minus s) (s_plus s) (s_dict s) (s_syms s) (s_mdict s) (s_mvals s) (s_nodes s) (s_gen s) (s_macdef s) (s_soft s).
Definition set_out (v : list Z) (s : state) : state :=
  mkState (s_cfg s) (s_c02 s) (s_ill s) (s_c64 s) (s_final s) (s_pass s) (s_pc s) (s_errs s) (s_warns s) (s_msgs s) (s_changed s) (s_origin s) (s_org_spec s) (s_org_once s) (s_pc_assigned s) (s_code_gen s) (s_stop s) (s_ety s) (s_dsz s) (s_mpi s) (s_maxmp s) (s_forx s) (s_fory s) (s_scope s) (s_label s) v (s_opened s) (s_total s) (s_delta s) (s_list s) (s_pstate s) (s_console s) (s_line s) (s_file s) (s_fstack s) (s_input s) (s_skip s) (s_ifs s) (s_mstack s) (s_minus s) (s_plus s) (s_dict s) (s_syms s) (s_mdict s) (s_mvals s) (s_nodes s) (s_gen s) (s_macdef s) (s_soft s).
Definition set_opened (v : bool) (s : state) : state :=
  mkState (s_cfg s) (s_c02 s) (s_ill s) (s_c64 s) (s_final s) (s_pass s) (s_pc s) (s_errs s) (s_warns s) (s_msgs s) (s_changed s) (s_origin s) (s_org_spec s) (s_org_once s) (s_pc_assigned s) (s_code_gen s) (s_stop s) (s_ety s) (s_dsz s) (s_mpi s) (s_maxmp s) (s_forx s) (s_fory s) (s_scope s) (s_label s) (s_out s) v (s_total s) (s_delta s) (s_list s) (s_pstate s) (s_console s) (s_line s) (s_file s) (s_fstack s) (s_input s) (s_skip s) (s_ifs s) (s_mstack s) (s_minus s) (s_plus s) (s_dict s) (s_syms s) (s_mdict s) (s_mvals s) (s_nodes s) (s_gen s) (s_macdef s) (s_soft s).
Definition set_total (v : Z) (s : state) : state :=
  mkState (s_cfg s) (s_c02 s) (s_ill s) (s_c64 s) (s_final s) (s_pass s) (s_pc s) (s_errs s) (s_warns s) (s_msgs s) (s_changed s) (s_origin s) (s_org_spec s) (s_org_once s) (s_pc_assigned s) (s_code_gen s) (s_stop s) (s_ety s) (s_dsz s) (s_mpi s) (s_maxmp s) (s_forx s) (s_fory s) (s_scope s) (s_label s) (s_out s) (s_opened s) v (s_delta s) (s_list s) (s_pstate s) (s_console s) (s_line s) (s_file s) (s_fstack s) (s_input s) (s_skip s) (s_ifs s) (s_mstack s) (s_minus s) (s_plus s) (s_dict s) (s_syms s) (s_mdict s) (s_mvals s) (s_nodes s) (s_gen s) (s_macdef s) (s_soft s).
Definition set_delta (v : Z) (s : state) : state :=
  mkState (s_cfg s) (s_c02 s) (s_ill s) (s_c64 s) (s_final s) (s_pass s) (s_pc s) (s_errs s) (s_warns s) (s_msgs s) (s_changed s) (s_origin s) (s_org_spec s) (s_org_once s) (s_pc_assigned s) (s_code_gen s) (s_stop s) (s_ety s) (s_dsz s) (s_mpi s) (s_maxmp s) (s_forx s) (s_fory s) (s_scope s) (s_label s) (s_out s) (s_opened s) (s_total s) v (s_list s) (s_pstate s) (s_console s) (s_line s) (s_file s) (s_fstack s) (s_input s) (s_skip s) (s_ifs s) (s_mstack s) (s_minus s) (s_plus s) (s_dict s) (s_syms s) (s_mdict s) (s_mvals s) (s_nodes s) (s_gen s) (s_macdef s) (s_soft s).
Definition set_list (v : list lrec) (s : state) : state :=
  mkState (s_cfg s) (s_c02 s) (s_ill s) (s_c64 s) (s_final s) (s_pass s) (s_pc s) (s_errs s) (s_warns s) (s_msgs s) (s_changed s) (s_origin s) (s_org_spec s) (s_org_once s) (s_pc_assigned s) (s_code_gen s) (s_stop s) (s_ety s) (s_dsz s) (s_mpi s) (s_maxmp s) (s_forx s) (s_fory s) (s_scope s) (s_label s) (s_out s) (s_opened s) (s_total s) (s_delta s) v (s_pstate s) (s_console s) (s_line s) (s_file s) (s_fstack s) (s_input s) (s_skip s) (s_ifs s) (s_mstack s) (s_minus s) (s_plus s) (s_dict s) (s_syms s) (s_mdict s) (s_mvals s) (s_nodes s) (s_gen s) (s_macdef s) (s_soft s).
Definition set_pstate (v : Z) (s : state) : state :=
  mkState (s_cfg s) (s_c02 s) (s_ill s) (s_c64 s) (s_final s) (s_pass s) (s_pc s) (s_errs s) (s_warns s) (s_msgs s) (s_changed s) (s_origin s) (s_org_spec s) (s_org_once s) (s_pc_assigned s) (s_code_gen s) (s_stop s) (s_ety s) (s_dsz s) (s_mpi s) (s_maxmp s) (s_forx s) (s_fory s) (s_scope s) (s_label s) (s_out s) (s_opened s) (s_total s) (s_delta s) (s_list s) v (s_console s) (s_line s) (s_file s) (s_fstack s) (s_input s) (s_skip s) (s_ifs s) (s_mstack s) (s_minus s) (s_plus s) (s_dict s) (s_syms s) (s_mdict s) (s_mvals s) (s_nodes s) (s_gen s) (s_macdef s) (s_soft s).
Definition set_console (v : list Z) (s : state) : state :=
  mkState (s_cfg s) (s_c02 s) (s_ill s) (s_c64 s) (s_final s) (s_pass s) (s_pc s) (s_errs s) (s_warns s) (s_msgs s) (s_changed s) (s_origin s) (s_org_spec s) (s_org_once s) (s_pc_assigned s) (s_code_gen s) (s_stop s) (s_ety s) (s_dsz s) (s_mpi s) (s_maxmp s) (s_forx s) (s_fory s) (s_scope s) (s_label s) (s_out s) (s_opened s) (s_total s) (s_delta s) (s_list s) (s_pstate s) v (s_line s) (s_file s) (s_fstack s) (s_input s) (s_skip s) (s_ifs s) (s_mstack s) (s_minus s) (s_plus s) (s_dict s) (s_syms s) (s_mdict s) (s_mvals s) (s_nodes s) (s_gen s) (s_macdef s) (s_soft s).
Definition set_line (v : Z) (s : state) : state :=
  mkState (s_cfg s) (s_c02 s) (s_ill s) (s_c64 s) (s_final s) (s_pass s) (s_pc s) (s_errs s) (s_warns s) (s_msgs s) (s_changed s) (s_origin s) (s_org_spec s) (s_org_once s) (s_pc_assigned s) (s_code_gen s) (s_stop s) (s_ety s) (s_dsz s) (s_mpi s) (s_maxmp s) (s_forx s) (s_fory s) (s_scope s) (s_label s) (s_out s) (s_opened s) (s_total s) (s_delta s) (s_list s) (s_pstate s) (s_console s) v (s_file s) (s_fstack s) (s_input s) (s_skip s) (s_ifs s) (s_mstack s) (s_minus s) (s_plus s) (s_dict s) (s_syms s) (s_mdict s) (s_mvals s) (s_nodes s) (s_gen s) (s_macdef s) (s_soft s).
Definition set_file (v : cstr) (s : state) : state :=
  mkState (s_cfg s) (s_c02 s) (s_ill s) (s_c64 s) (s_final s) (s_pass s) (s_pc s) (s_errs s) (s_warns s) (s_msgs s) (s_changed s) (s_origin s) (s_org_spec s) (s_org_once s) (s_pc_assigned s) (s_code_gen s) (s_stop s) (s_ety s) (s_dsz s) (s_mpi s) (s_maxmp s) (s_forx s) (s_fory s) (s_scope s) (s_label s) (s_out s) (s_opened s) (s_total s) (s_delta s) (s_list s) (s_pstate s) (s_console s) (s_line s) v (s_fstack s) (s_input s) (s_skip s) (s_ifs s) (s_mstack s) (s_minus s) (s_plus s) (s_dict s) (s_syms s) (s_mdict s) (s_mvals s) (s_nodes s) (s_gen s) (s_macdef s) (s_soft s).
Definition set_fstack (v : list (cstr * Z)) (s : state) : state :=
  mkState (s_cfg s) (s_c02 s) (s_ill s) (s_c64 s) (s_final s) (s_pass s) (s_pc s) (s_errs s) (s_warns s) (s_msgs s) (s_changed s) (s_origin s) (s_org_spec s) (s_org_once s) (s_pc_assigned s) (s_code_gen s) (s_stop s) (s_ety s) (s_dsz s) (s_mpi s) (s_maxmp s) (s_forx s) (s_fory s) (s_scope s) (s_label s) (s_out s) (s_opened s) (s_total s) (s_delta s) (s_list s) (s_pstate s) (s_console s) (s_line s) (s_file s) v (s_input s) (s_skip s) (s_ifs s) (s_mstack s) (s_minus s) (s_plus s) (s_dict s) (s_syms s) (s_mdict s) (s_mvals s) (s_nodes s) (s_gen s) (s_macdef s) (s_soft s).
Definition set_input (v : list (list sline)) (s : state) : state :=
  mkState (s_cfg s) (s_c02 s) (s_ill s) (s_c64 s) (s_final s) (s_pass s) (s_pc s) (s_errs s) (s_warns s) (s_msgs s) (s_changed s) (s_origin s) (s_org_spec s) (s_org_once s) (s_pc_assigned s) (s_code_gen s) (s_stop s) (s_ety s) (s_dsz s) (s_mpi s) (s_maxmp s) (s_forx s) (s_fory s) (s_scope s) (s_label s) (s_out s) (s_opened s) (s_total s) (s_delta s) (s_list s) (s_pstate s) (s_console s) (s_line s) (s_file s) (s_fstack s) v (s_skip s) (s_ifs s) (s_mstack s) (s_minus s) (s_plus s) (s_dict s) (s_syms s) (s_mdict s) (s_mvals s) (s_nodes s) (s_gen s) (s_macdef s) (s_soft s).
Definition set_skip (v : bool) (s : state) : state :=
  mkState (s_cfg s) (s_c02 s) (s_ill s) (s_c64 s) (s_final s) (s_pass s) (s_pc s) (s_errs s) (s_warns s) (s_msgs s) (s_changed s) (s_origin s) (s_org_spec s) (s_org_once s) (s_pc_assigned s) (s_code_gen s) (s_stop s) (s_ety s) (s_dsz s) (s_mpi s) (s_maxmp s) (s_forx s) (s_fory s) (s_scope s) (s_label s) (s_out s) (s_opened s) (s_total s) (s_delta s) (s_list s) (s_pstate s) (s_console s) (s_line s) (s_file s) (s_fstack s) (s_input s) v (s_ifs s) (s_mstack s) (s_minus s) (s_plus s) (s_dict s) (s_syms s) (s_mdict s) (s_mvals s) (s_nodes s) (s_gen s) (s_macdef s) (s_soft s).
Definition set_ifs (v : list Z) (s : state) : state :=
  mkState (s_cfg s) (s_c02 s) (s_ill s) (s_c64 s) (s_final s) (s_pass s) (s_pc s) (s_errs s) (s_warns s) (s_msgs s) (s_changed s) (s_origin s) (s_org_spec s) (s_org_once s) (s_pc_assigned s) (s_code_gen s) (s_stop s) (s_ety s) (s_dsz s) (s_mpi s) (s_maxmp s) (s_forx s) (s_fory s) (s_scope s) (s_label s) (s_out s) (s_opened s) (s_total s) (s_delta s) (s_list s) (s_pstate s) (s_console s) (s_line s) (s_file s) (s_fstack s) (s_input s) (s_skip s) v (s_mstack s) (s_minus s) (s_plus s) (s_dict s) (s_syms s) (s_mdict s) (s_mvals s) (s_nodes s) (s_gen s) (s_macdef s) (s_soft s).
Definition set_mstack (v : list (list Z)) (s : state) : state :=
  mkState (s_cfg s) (s_c02 s) (s_ill s) (s_c64 s) (s_final s) (s_pass s) (s_pc s) (s_errs s) (s_warns s) (s_msgs s) (s_changed s) (s_origin s) (s_org_spec s) (s_org_once s) (s_pc_assigned s) (s_code_gen s) (s_stop s) (s_ety s) (s_dsz s) (s_mpi s) (s_maxmp s) (s_forx s) (s_fory s) (s_scope s) (s_label s) (s_out s) (s_opened s) (s_total s) (s_delta s) (s_list s) (s_pstate s) (s_console s) (s_line s) (s_file s) (s_fstack s) (s_input s) (s_skip s) (s_ifs s) v (s_minus s) (s_plus s) (s_dict s) (s_syms s) (s_mdict s) (s_mvals s) (s_nodes s) (s_gen s) (s_macdef s) (s_soft s).
Definition set_minus (v : list pmsym) (s : state) : state :=
  mkState (s_cfg s) (s_c02 s) (s_ill s) (s_c64 s) (s_final s) (s_pass s) (s_pc s) (s_errs s) (s_warns s) (s_msgs s) (s_changed s) (s_origin s) (s_org_spec s) (s_org_once s) (s_pc_assigned s) (s_code_gen s) (s_stop s) (s_ety s) (s_dsz s) (s_mpi s) (s_maxmp s) (s_forx s) (s_fory s) (s_scope s) (s_label s) (s_out s) (s_opened s) (s_total s) (s_delta s) (s_list s) (s_pstate s) (s_console s) (s_line s) (s_file s) (s_fstack s) (s_input s) (s_skip s) (s_ifs s) (s_mstack s) v (s_plus s) (s_dict s) (s_syms s) (s_mdict s) (s_mvals s) (s_nodes s) (s_gen s) (s_macdef s) (s_soft s).
Definition set_plus (v : list pmsym) (s : state) : state :=
  mkState (s_cfg s) (s_c02 s) (s_ill s) (s_c64 s) (s_final s) (s_pass s) (s_pc s) (s_errs s) (s_warns s) (s_msgs s) (s_changed s) (s_origin s) (s_org_spec s) (s_org_once s) (s_pc_assigned s) (s_code_gen s) (s_stop s) (s_ety s) (s_dsz s) (s_mpi s) (s_maxmp s) (s_forx s) (s_fory s) (s_scope s) (s_label s) (s_out s) (s_opened s) (s_total s) (s_delta s) (s_list s) (s_pstate s) (s_console s) (s_line s) (s_file s) (s_fstack s) (s_input s) (s_skip s) (s_ifs s) (s_mstack s) (s_minus s) v (s_dict s) (s_syms s) (s_mdict s) (s_mvals s) (s_nodes s) (s_gen s) (s_macdef s) (s_soft s).
Definition set_dict (v : dict) (s : state) : state :=
  mkState (s_cfg s) (s_c02 s) (s_ill s) (s_c64 s) (s_final s) (s_pass s) (s_pc s) (s_errs s) (s_warns s) (s_msgs s) (s_changed s) (s_origin s) (s_org_spec s) (s_org_once s) (s_pc_assigned s) (s_code_gen s) (s_stop s) (s_ety s) (s_dsz s) (s_mpi s) (s_maxmp s) (s_forx s) (s_fory s) (s_scope s) (s_label s) (s_out s) (s_opened s) (s_total s) (s_delta s) (s_list s) (s_pstate s) (s_console s) (s_line s) (s_file s) (s_fstack s) (s_input s) (s_skip s) (s_ifs s) (s_mstack s) (s_minus s) (s_plus s) v (s_syms s) (s_mdict s) (s_mvals s) (s_nodes s) (s_gen s) (s_macdef s) (s_soft s).
Definition set_syms (v : list symbol) (s : state) : state :=
  mkState (s_cfg s) (s_c02 s) (s_ill s) (s_c64 s) (s_final s) (s_pass s) (s_pc s) (s_errs s) (s_warns s) (s_msgs s) (s_changed s) (s_origin s) (s_org_spec s) (s_org_once s) (s_pc_assigned s) (s_code_gen s) (s_stop s) (s_ety s) (s_dsz s) (s_mpi s) (s_maxmp s) (s_forx s) (s_fory s) (s_scope s) (s_label s) (s_out s) (s_opened s) (s_total s) (s_delta s) (s_list s) (s_pstate s) (s_console s) (s_line s) (s_file s) (s_fstack s) (s_input s) (s_skip s) (s_ifs s) (s_mstack s) (s_minus s) (s_plus s) (s_dict s) v (s_mdict s) (s_mvals s) (s_nodes s) (s_gen s) (s_macdef s) (s_soft s).
Definition set_mdict (v : dict) (s : state) : state :=
  mkState (s_cfg s) (s_c02 s) (s_ill s) (s_c64 s) (s_final s) (s_pass s) (s_pc s) (s_errs s) (s_warns s) (s_msgs s) (s_changed s) (s_origin s) (s_org_spec s) (s_org_once s) (s_pc_assigned s) (s_code_gen s) (s_stop s) (s_ety s) (s_dsz s) (s_mpi s) (s_maxmp s) (s_forx s) (s_fory s) (s_scope s) (s_label s) (s_out s) (s_opened s) (s_total s) (s_delta s) (s_list s) (s_pstate s) (s_console s) (s_line s) (s_file s) (s_fstack s) (s_input s) (s_skip s) (s_ifs s) (s_mstack s) (s_minus s) (s_plus s) (s_dict s) (s_syms s) v (s_mvals s) (s_nodes s) (s_gen s) (s_macdef s) (s_soft s).
Definition set_mvals (v : list Z) (s : state) : state :=
  mkState (s_cfg s) (s_c02 s) (s_ill s) (s_c64 s) (s_final s) (s_pass s) (s_pc s) (s_errs s) (s_warns s) (s_msgs s) (s_changed s) (s_origin s) (s_org_spec s) (s_org_once s) (s_pc_assigned s) (s_code_gen s) (s_stop s) (s_ety s) (s_dsz s) (s_mpi s) (s_maxmp s) (s_forx s) (s_fory s) (s_scope s) (s_label s) (s_out s) (s_opened s) (s_total s) (s_delta s) (s_list s) (s_pstate s) (s_console s) (s_line s) (s_file s) (s_fstack s) (s_input s) (s_skip s) (s_ifs s) (s_mstack s) (s_minus s) (s_plus s) (s_dict s) (s_syms s) (s_mdict s) v (s_nodes s) (s_gen s) (s_macdef s) (s_soft s).
Definition set_nodes (v : list node) (s : state) : state :=
  mkState (s_cfg s) (s_c02 s) (s_ill s) (s_c64 s) (s_final s) (s_pass s) (s_pc s) (s_errs s) (s_warns s) (s_msgs s) (s_changed s) (s_origin s) (s_org_spec s) (s_org_once s) (s_pc_assigned s) (s_code_gen s) (s_stop s) (s_ety s) (s_dsz s) (s_mpi s) (s_maxmp s) (s_forx s) (s_fory s) (s_scope s) (s_label s) (s_out s) (s_opened s) (s_total s) (s_delta s) (s_list s) (s_pstate s) (s_console s) (s_line s) (s_file s) (s_fstack s) (s_input s) (s_skip s) (s_ifs s) (s_mstack s) (s_minus s) (s_plus s) (s_dict s) (s_syms s) (s_mdict s) (s_mvals s) v (s_gen s) (s_macdef s) (s_soft s).
Definition set_gen (v : nat) (s : state) : state :=
  mkState (s_cfg s) (s_c02 s) (s_ill s) (s_c64 s) (s_final s) (s_pass s) (s_pc s) (s_errs s) (s_warns s) (s_msgs s) (s_changed s) (s_origin s) (s_org_spec s) (s_org_once s) (s_pc_assigned s) (s_code_gen s) (s_stop s) (s_ety s) (s_dsz s) (s_mpi s) (s_maxmp s) (s_forx s) (s_fory s) (s_scope s) (s_label s) (s_out s) (s_opened s) (s_total s) (s_delta s) (s_list s) (s_pstate s) (s_console s) (s_line s) (s_file s) (s_fstack s) (s_input s) (s_skip s) (s_ifs s) (s_mstack s) (s_minus s) (s_plus s) (s_dict s) (s_syms s) (s_mdict s) (s_mvals s) (s_nodes s) v (s_macdef s) (s_soft s).
Definition set_macdef (v : Z) (s : state) : state :=
  mkState (s_cfg s) (s_c02 s) (s_ill s) (s_c64 s) (s_final s) (s_pass s) (s_pc s) (s_errs s) (s_warns s) (s_msgs s) (s_changed s) (s_origin s) (s_org_spec s) (s_org_once s) (s_pc_assigned s) (s_code_gen s) (s_stop s) (s_ety s) (s_dsz s) (s_mpi s) (s_maxmp s) (s_forx s) (s_fory s) (s_scope s) (s_label s) (s_out s) (s_opened s) (s_total s) (s_delta s) (s_list s) (s_pstate s) (s_console s) (s_line s) (s_file s) (s_fstack s) (s_input s) (s_skip s) (s_ifs s) (s_mstack s) (s_minus s) (s_plus s) (s_dict s) (s_syms s) (s_mdict s) (s_mvals s) (s_nodes s) (s_gen s) v (s_soft s).
Definition set_soft (v : list Z) (s : state) : state :=
  mkState (s_cfg s) (s_c02 s) (s_ill s) (s_c64 s) (s_final s) (s_pass s) (s_pc s) (s_errs s) (s_warns s) (s_msgs s) (s_changed s) (s_origin s) (s_org_spec s) (s_org_once s) (s_pc_assigned s) (s_code_gen s) (s_stop s) (s_ety s) (s_dsz s) (s_mpi s) (s_maxmp s) (s_forx s) (s_fory s) (s_scope s) (s_label s) (s_out s) (s_opened s) (s_total s) (s_delta s) (s_list s) (s_pstate s) (s_console s) (s_line s) (s_file s) (s_fstack s) (s_input s) (s_skip s) (s_ifs s) (s_mstack s) (s_minus s) (s_plus s) (s_dict s) (s_syms s) (s_mdict s) (s_mvals s) (s_nodes s) (s_gen s) (s_macdef s) v.

(** ** Actions *)
Inductive ubkind := UbNull | UbIndex | UbFreed | UbArith | UbString.
Inductive res (A : Type) :=
| Ok (a : A) (s : state)
| Exit (code : Z) (s : state)
| Ub (u : ubkind)
| OutOfFuel.
Arguments Ok {A}. Arguments Exit {A}. Arguments Ub {A}. Arguments OutOfFuel {A}.

Definition M (A : Type) := state -> res A.
Definition ret {A} (a : A) : M A := fun s => Ok a s.
Definition bind {A B} (m : M A) (k : A -> M B) : M B :=
  fun s => match m s with
           | Ok a s' => k a s'
           | Exit c s' => Exit c s'
           | Ub u => Ub u
           | OutOfFuel => OutOfFuel
           end.
Definition gets {A} (f : state -> A) : M A := fun s => Ok (f s) s.
Definition modify (f : state -> state) : M unit := fun s => Ok tt (f s).
Definition exit_ {A} (c : Z) : M A := fun s => Exit c s.
Definition ub {A} (u : ubkind) : M A := fun _ => Ub u.
Definition nofuel {A} : M A := fun _ => OutOfFuel.
Declare Scope m_scope.
Delimit Scope m_scope with m.
Notation "x <- m ;; k" := (bind m (fun x => k)) (at level 61, m at next level, right associativity) : m_scope.
Notation "m ;;; k" := (bind m (fun _ => k)) (at level 61, right associativity) : m_scope.
Open Scope m_scope.

Definition when (b : bool) (m : M unit) : M unit := if b then m else ret tt.

(** error.cc:77-81, 150-154 *)
Definition err (n : Z) : M unit := modify (fun s => set_errs (s_errs s + 1) (set_msgs (n :: s_msgs s) s)).
(** error.cc:87-92 *)
Definition warn_ (n : Z) : M unit := modify (fun s => set_warns (s_warns s + 1) s).

(** int arithmetic: a result outside int is undefined behaviour *)
Definition in_int (v : Z) : bool := (- 2 ^ 31 <=? v) && (v <? 2 ^ 31).
Definition ck (v : Z) : M Z := if in_int v then ret v else ub UbArith.

(** (v & ~mask) != 0 *)
Definition over (v mask : Z) : bool := negb (Z.land v (Z.lnot mask) =? 0).

(** nodes *)
Definition node_get (n : nat) : M node :=
  bind (gets s_nodes) (fun l => match nth_error l n with Some x => ret x | None => ub UbFreed end).
Definition node_set (n : nat) (x : node) : M unit := modify (fun s => set_nodes (upd n x (s_nodes s)) s).
(** node.cc:55-91 allocate_node *)
Definition alloc (k : nkind) (ops : list nat) : M nat :=
  bind (gets (fun s => length (s_nodes s))) (fun n =>
  bind (modify (fun s => set_nodes (s_nodes s ++ [mkNode k ops]) s)) (fun _ => ret n)).

(** symbols *)
Definition sym_get (a : nat) : M symbol :=
  bind (gets s_syms) (fun l => match nth_error l a with Some x => ret x | None => ub UbIndex end).
Definition sym_set (a : nat) (y : symbol) : M unit := modify (fun s => set_syms (upd a y (s_syms s)) s).

Definition op_code (i m : Z) : M Z := gets (fun s => get_op_code (s_c02 s) (s_ill s) i m).
