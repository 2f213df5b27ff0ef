(** Model of CMakePasm/source/pass.cc and of the end-of-file action of pasm.l:430-450. *)
From Coq Require Import String.
From Verif Require Import Base Hash Dict Str Opcodes Err State Sym Machine Build.
Open Scope string_scope.
Open Scope list_scope.
Open Scope Z_scope.
Open Scope m_scope.

(** pasm.l:430-450: end of a file *)
Definition end_of_file : M unit :=
  modify (fun s => set_line (s_line s + 1) s) ;;;
  f <- gets s_final ;;
  when f list_null ;;;
  modify (fun s => set_input (tl (s_input s)) s) ;;;
  st <- gets s_fstack ;;
  match st with
  | [] => ret tt
  | (file, line) :: st' =>
      modify (set_fstack st') ;;; modify (set_file file) ;;; modify (set_line line) ;;;
      when f list_null
  end.

(** pasm.l:158-249, as in IfDef.v: [skip] is the start condition IF_DEF.  An empty stack trips the assertion of
    stacks.cc. *)
Definition cond_line (l : sline) : M unit :=
  sk <- gets s_skip ;; st <- gets s_ifs ;; f <- gets s_final ;;
  match l with
  | SrcLine _ => ret tt
  | SrcIf neg name =>
      if sk then modify (set_ifs (1 :: st))
      else
        modify (set_ifs (0 :: st)) ;;;
        r <- look_up_symbol name ;;
        modify (set_skip (match r with Some _ => neg | None => negb neg end))
  | SrcElse ln =>
      match st with
      | [] => ub UbIndex
      | t :: _ =>
          if sk then
            if t =? 0 then modify (set_line ln) ;;; when f list_null ;;; modify (set_skip false) else ret tt
          else if t =? 0 then modify (set_skip true)
          else ret tt
      end
  | SrcEndif ln =>
      match st with
      | [] => ub UbIndex
      | _ :: st' =>
          modify (set_ifs st') ;;;
          match sk, st' with
          | true, [] => modify (set_line ln) ;;; when f list_null ;;; modify (set_skip false)
          | _, _ => ret tt
          end
      end
  end.

(** one line: [None] is a syntax error.  .ELSE and .ENDIF outside any conditional reach the parser, where they
    are syntax errors. *)
Definition read_line (F : nat) (l : sline) : M (option unit) :=
  sk <- gets s_skip ;; st <- gets s_ifs ;;
  match l with
  | SrcLine l => if sk then ret (Some tt) else run_line (expand F) l
  | SrcEndif _ => if negb sk && (match st with [] => true | t :: _ => negb (t =? 0) end) then ret None
                  else cond_line l ;;; ret (Some tt)
  | SrcElse _ => match sk, st with
                 | false, t :: _ => if t =? 0 then cond_line l ;;; ret (Some tt) else ret None
                 | _, _ => cond_line l ;;; ret (Some tt)
                 end
  | SrcIf _ _ => cond_line l ;;; ret (Some tt)
  end.

(** yyparse.  A syntax error ends the parse (there are no error productions); what is left in the flex buffer
    stack is dropped here. *)
Fixpoint parse_input (F fuel : nat) : M unit :=
  match fuel with
  | O => nofuel
  | S f =>
      inp <- gets s_input ;;
      match inp with
      | [] => ret tt
      | [] :: _ => end_of_file ;;; parse_input F f
      | (l :: ls) :: rest =>
          modify (set_input (ls :: rest)) ;;;
          r <- read_line F l ;;
          match r with
          | Some _ => parse_input F f
          | None => err (-1) ;;; modify (set_input [])
          end
      end
  end.

(** expand.cc:1339-1356 reset_macro_dict: every entry of the dictionary is zeroed *)
Definition reset_macro_dict (s : state) : state :=
  let hs := map snd (concat (dtable (s_mdict s))) in
  set_code_gen 0 (set_mvals (fold_left (fun l a => upd a 0 l) hs (s_mvals s)) s).

(** pass.cc:28-91 reset_lex *)
Definition program_origin_default : Z := 4096.
Definition reset_lex (s : state) : state :=
  reset_macro_dict
    (set_errs 0 (set_label None (set_changed 0 (set_pc program_origin_default (set_stop false
    (set_org_spec false (set_org_once false (set_fstack [] (set_ifs [] (set_macdef 0 s)))))))))).

(** pass.cc:114-146: one input file *)
Definition parse_file (F : nat) (name : cstr) : M unit :=
  modify (set_line 0) ;;;
  modify (set_file name) ;;;
  c <- gets s_cfg ;;
  match g_files c name with
  | None => err error_cant_open_input_file ;;; exit_ (-1)
  | Some l =>
      modify (set_input [l]) ;;;
      f <- gets s_final ;;
      when f list_null ;;;
      parse_input F F ;;;
      when f list_null
  end.
Fixpoint parse_files (F : nat) (l : list cstr) : M unit :=
  match l with [] => ret tt | n :: l => parse_file F n ;;; parse_files F l end.

(** pass.cc:97-160 parse_pass; free_parse_tree *)
Definition parse_pass (F : nat) : M unit :=
  modify reset_lex ;;;
  c <- gets s_cfg ;;
  parse_files F (g_inputs c) ;;;
  modify (fun s => set_nodes [] (set_gen (S (s_gen s)) (set_scope None s))).

(** pass.cc:183-216: the pass loop; the result is clean_pass_count.  [k] is the number of passes still allowed,
    which max_passes bounds. *)
Definition max_passes : Z := 20.
Fixpoint pass_loop (F k : nat) : M bool :=
  match k with
  | O => nofuel
  | S k =>
      parse_pass F ;;;
      u <- gets unresolved_symbol_count ;;
      e <- gets s_errs ;; c <- gets s_changed ;;
      let clean := (e =? 0) && (c =? 0) && (u =? 0) in
      modify (fun s => set_pass (s_pass s + 1) s) ;;;
      p <- gets s_pass ;;
      if (e =? 0) && (p <? max_passes) && negb clean then pass_loop F k else ret clean
  end.

(** pass.cc:162-303 assemble.  The log, list and symbol files are not written here (List.v makes the list file of [s_list];
    the symbol file is [dump_symbols]). *)
Definition assemble (F : nat) : M Z :=
  modify (fun s => set_errs 0 (set_list [] (set_line 0 (set_final false (set_pass 1 s))))) ;;;
  _ <- pass_loop F 20 ;;
  p <- gets s_pass ;; e <- gets s_errs ;;
  if max_passes <=? p then err error_maximum_number_of_passes_exceeded ;;; ret (-1)
  else if 0 <? e then ret (-1)
  else
    modify (set_final true) ;;;
    c <- gets s_cfg ;;
    if g_out c && negb (g_canwrite c) then err error_opening_output_file ;;; ret (-1)
    else
      modify (set_opened (g_out c)) ;;;
      parse_pass F ;;;
      ret 0.

(** the state before main; cpu mode and output format are what the command line sets (parseargs.cc) *)
Definition init_state (c : config) (c02 ill c64 : bool) : state :=
  mkState c c02 ill c64 false 0 0 0 0 [] 0 0 false false 0 0 false EtMacro 0 0 0 0 0 None None [] false 0 0
          [] 1 [] 0 [] [] [] false [] [] [] [] dict_create [] dict_create [] [] 0 0 [].
