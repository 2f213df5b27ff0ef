(** Programs given as text, for examples and counterexamples. *)
From Coq Require Import String List ZArith Bool.
From Verif Require Import Base Dict Opcodes State Sym Machine Build Pass Lexer Parser.
Import ListNotations.
Open Scope string_scope.
Open Scope list_scope.
Open Scope Z_scope.

Fixpoint lines (l : list string) : cstr :=
  match l with [] => [] | x :: r => cs x ++ [10] ++ lines r end.

(** the state in which main calls assemble with one input file and an output file that can be written *)
Definition one_file (l : list string) : config :=
  mkCfg (fun _ => Some (parse_text (lines l))) (fun _ => None) [cs "m.a"] true true.
Definition boot (l : list string) : state := init_state (one_file l) false false false.
Definition boot_c64 (l : list string) : state := init_state (one_file l) false false true.
Definition boot_c02 (l : list string) : state := init_state (one_file l) true false false.

(** how the run ended (exit() or return), status, file contents, errors of the last pass *)
Record summary := mkSum { u_exit : bool; u_code : Z; u_bytes : list Z; u_errs : Z; u_passes : Z }.
Definition summarise (r : res Z) : option summary :=
  match r with
  | Ok c s => Some (mkSum false c (rev (s_out s)) (s_errs s) (s_pass s - 1))
  | Exit c s => Some (mkSum true c (rev (s_out s)) (s_errs s) (s_pass s - 1))
  | _ => None
  end.
Definition run (l : list string) : option summary := summarise (assemble 1000 (boot l)).
Definition run_c64 (l : list string) : option summary := summarise (assemble 1000 (boot_c64 l)).
Definition run_c02 (l : list string) : option summary := summarise (assemble 1000 (boot_c02 l)).
