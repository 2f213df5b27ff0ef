(** Model of CMakePasm/source/error.cc.  [errors] is the message table error.cc:19-70,
    [err_code] the enumeration error.h (in order).  The console output is the list
    of messages (the source excerpt yymessage prints below them is left out). *)
From Coq Require Import String.
From Verif Require Import Base.
Open Scope string_scope.
Open Scope list_scope.
Open Scope Z_scope.

Definition error_start : Z := 0.
Definition error_max : Z := 49.
Definition error_out_of_memory : Z := 1.
Definition error_source_string_null : Z := 2.
Definition error_unrecognized_escape_sequence : Z := 3.
Definition error_cant_open_include_file : Z := 4.
Definition error_no_input_file_specified : Z := 5.
Definition error_cant_open_input_file : Z := 6.
Definition error_opening_list_file : Z := 7.
Definition error_invalid_opcode_or_mode : Z := 8.
Definition error_writing_output_file : Z := 9.
Definition error_value_out_of_range : Z := 10.
Definition error_missing_parameter : Z := 11.
Definition error_adding_symbol : Z := 12.
Definition error_for_reg_cant_be_nested : Z := 13.
Definition error_end_section_without_section : Z := 14.
Definition error_branch_out_of_range : Z := 15.
Definition error_org_specified_more_than_once : Z := 16.
Definition error_initializing_variable : Z := 17.
Definition error_unknown_node_type : Z := 18.
Definition error_unknown_operator_type : Z := 19.
Definition error_divide_by_zero : Z := 20.
Definition error_infinite_loop_detected : Z := 21.
Definition error_expected_next : Z := 22.
Definition error_free_without_malloc : Z := 23.
Definition error_free_unknown_pointer : Z := 24.
Definition error_macro_parameter_not_found : Z := 25.
Definition error_macro_parameter_under_flow : Z := 26.
Definition error_plus_sym_not_allowed_in_macro : Z := 27.
Definition error_plus_sym_overflow : Z := 28.
Definition error_missing_output_file : Z := 29.
Definition error_output_file_specified_more_than_once : Z := 30.
Definition error_missing_symbol_file : Z := 31.
Definition error_symbol_file_specified_more_than_once : Z := 32.
Definition error_invalid_parameters : Z := 33.
Definition error_ignore_warnings_specified_more_than_once : Z := 34.
Definition error_instruction_set_specified_more_than_once : Z := 35.
Definition error_illegal_opcodes_specified_more_than_once : Z := 36.
Definition error_missing_log_file : Z := 37.
Definition error_log_file_specified_more_than_once : Z := 38.
Definition error_c64_output_format_specified_more_than_once : Z := 39.
Definition error_verbose_specified_more_than_once : Z := 40.
Definition error_missing_list_file : Z := 41.
Definition error_list_file_specified_more_than_once : Z := 42.
Definition error_opening_log_file : Z := 43.
Definition error_maximum_number_of_passes_exceeded : Z := 44.
Definition error_opening_symbol_file : Z := 45.
Definition error_opening_output_file : Z := 46.
Definition error_creating_list_node : Z := 47.
Definition error_path_name_too_long : Z := 48.

(** error.cc:19-70 *)
Definition errors : list cstr := map cs
  ["";
   "Out of Memory.";
   "Source string NULL.";
   "Unrecognized escape sequence.";
   "Can't open include file";
   "No input file specified.";
   "Can't open input file.";
   "Error opening list list file.";
   "Invalid opcode or mode.";
   "Error writing to output file.";
   "Value out of range.";
   "Missing parameter.";
   "Error adding symbol.";
   "FOR_REG can't be nested.";
   "END_SECTION without section.";
   "Branch out of range, creating jmp.";
   "ORG specified more than once.";
   "Error setting symbol value.";
   "Internal error: Unknown node type.";
   "Internal error: Unknown operator type.";
   "Divide by zero.";
   "Infinite loop detected.";
   "Error expected NEXT.";
   "Error free called without alloc.";
   "Error free unknown pointer.";
   "Macro Parameter not found.";
   "Macro parameter underflow.";
   "Plus and Minus symbols not allowed in macro.";
   "Plus symbol overflow.";
   "Error missing output file.";
   "Output file specified more than once.";
   "Error missing symbol file name.";
   "Symbol file specified more than once.";
   "Invalid parameters specified.";
   "Ignore warnings specified more than once.";
   "Instruction set specified more than once.";
   "Allow illegal opcodes specified more than once.";
   "Error missing log file name.";
   "Logfile specified more than once.";
   "Output file format specified more than once.";
   "Verbose specified more than once.";
   "Error missing list file.";
   "List file specified more than once.";
   "Error creating log file.";
   "Maximum number of passes exceeded.";
   "Error opening symbol file.";
   "Error opening output file.";
   "Error creating list node.";
   "Error path name too long."].

Record estate := mkErr { err_count : Z; warn_count : Z; e_out : list cstr; e_buf : cstr }.

Definition msg (n : Z) : cstr := nth (Z.to_nat n) errors [].

(** error.cc:151-155 *)
Definition yyerror (s : cstr) (e : estate) : estate :=
  mkErr (err_count e + 1) (warn_count e) (e_out e ++ [s]) (e_buf e).

(** error.cc:76-80; None = assertion failure *)
Definition error (n : Z) (e : estate) : option estate :=
  if (error_start <? n) && (n <? error_max) then Some (yyerror (msg n) e) else None.

(** error.cc:86-91 *)
Definition warn (n : Z) (e : estate) : option estate :=
  if (error_start <? n) && (n <? error_max)
  then Some (mkErr (err_count e) (warn_count e + 1) (e_out e ++ [msg n]) (e_buf e)) else None.

(** error.cc:98-112 *)
Definition error2 (n : Z) (param : cstr) (e : estate) : option estate :=
  if (error_start <? n) && (n <? error_max) then
    if Z.of_nat (length (msg n)) + Z.of_nat (length param) + 2 <? 2048 then
      let buf := msg n ++ 32 :: param in
      Some (yyerror buf (mkErr (err_count e) (warn_count e) (e_out e) buf))
    else
      match error n e with
      | Some e' => Some (yyerror (e_buf e') e')
      | None => None
      end
  else None.

Inductive eop := EError (n : Z) | EWarn (n : Z) | EError2 (n : Z) (p : cstr).
Definition err_step (e : estate) (o : eop) : option estate :=
  match o with EError n => error n e | EWarn n => warn n e | EError2 n p => error2 n p e end.
Fixpoint err_run (e : estate) (os : list eop) : option estate :=
  match os with [] => Some e | o :: os' => match err_step e o with Some e' => err_run e' os' | None => None end end.
