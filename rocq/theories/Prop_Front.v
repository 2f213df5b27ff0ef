(** Properties of the front end: conditional lexing (C34), command line (C35, C53), file search (C36),
    source lines (C52). *)
From Coq Require Import String.
From Verif Require Import Base BaseProofs CNum Args ArgsProofs IfDef IfDefProofs File FileProofs FrontMore.
Open Scope string_scope.
Open Scope list_scope.
Open Scope Z_scope.

(** ** C34 *)
Theorem C34_ifdef_partial : forall i, safe false i ->
  lex_run (mkLst false []) (source i) = Some (mkLst false [], selected i).
Proof. exact (fun i => safe_run i []). Qed.
Print Assumptions C34_ifdef_partial.

Theorem C34_ifdef_refuted : exists i, lex_run (mkLst false []) (source i) <> Some (mkLst false [], selected i).
Proof. exact ifdef_refuted. Qed.
Print Assumptions C34_ifdef_refuted.

(** what goes wrong, in general: in any conditional already open, a conditional that ends in a skipped
    part leaves the lexer skipping *)
Theorem C34_nested_skip_sticks : forall b th el st t, (b = true -> safe true th) ->
  lex_run (mkLst false (t :: st)) (source (ICond b th b el INil)) =
  Some (mkLst true (t :: st), if b then selected th else []).
Proof. exact unsafe_stuck. Qed.
Print Assumptions C34_nested_skip_sticks.

Example C34_example :
  let i := ICond true (ITxt 1 (ICond true (ITxt 2 INil) false INil (IOrd (ITxt 3 INil) true (ITxt 4 INil) INil))) false INil
           (ICond false (ICond true (ITxt 5 INil) true (ITxt 6 INil) INil) true (ITxt 7 (ICond false (ITxt 8 INil) true (ITxt 9 INil) INil)) (ITxt 10 INil)) in
  safe false i /\ selected i = [OText 1; OText 2; OIf; OText 3; OElse; OText 4; OEndif; OText 7; OText 9; OText 10].
Proof. cbn. repeat split; discriminate. Qed.

(** ** C35 *)
Theorem C35_def_hex : forall ds, Forall (fun d => 0 <= d < 16) ds -> posval 16 ds < 2 ^ 31 ->
  def_value (36 :: map dig ds) = posval 16 ds /\ (ds <> [] -> def_value (48 :: 120 :: map dig ds) = posval 16 ds).
Proof. exact def_hex_both. Qed.
Print Assumptions C35_def_hex.

Theorem C35_def_bin : forall ds, Forall (fun d => 0 <= d < 2) ds -> posval 2 ds < 2 ^ 31 ->
  def_value (37 :: map dig ds) = posval 2 ds /\ (ds <> [] -> def_value (48 :: 98 :: map dig ds) = posval 2 ds).
Proof. exact def_bin_both. Qed.
Print Assumptions C35_def_bin.

Theorem C35_def_dec_partial : forall ds, Forall (fun d => 0 <= d < 10) ds -> (List.length ds <= 2)%nat ->
  def_value (map dig ds) = posval 10 ds.
Proof. exact def_value_dec_short. Qed.
Print Assumptions C35_def_dec_partial.

(** every decimal numeral of three or more digits gives 0 *)
Theorem C35_def_dec_long : forall ds, Forall (fun d => 0 <= d < 10) ds -> (2 < List.length ds)%nat ->
  def_value (map dig ds) = 0.
Proof. exact def_value_dec_long. Qed.
Print Assumptions C35_def_dec_long.

Theorem C35_def_dec_refuted : exists ds, Forall (fun d => 0 <= d < 10) ds /\ posval 10 ds = 100 /\ def_value (map dig ds) <> posval 10 ds.
Proof. exact def_dec_refuted. Qed.
Print Assumptions C35_def_dec_refuted.

Example C35_example : def_value (cs "$C000") = 49152 /\ def_value (cs "0xff") = 255 /\ def_value (cs "%1010") = 10 /\
  def_value (cs "0b11") = 3 /\ def_value (cs "42") = 42 /\ def_value (cs "100") = 0 /\
  cs "$c0" = 36 :: map dig [12; 0].
Proof. vm_compute. repeat split; reflexivity. Qed.

(** ** C36 *)
Theorem C36_open_file_order : forall fs file c l,
  comp_ok c -> fits file c -> last_ok c l ->
  Forall (fun bc => blanks (fst bc) /\ comp_ok (snd bc) /\ starts_ok (snd bc) /\ fits file (snd bc)) l ->
  open_file fs (Some (c ++ render_tail l)) file = first_found fs (file :: map (fun c => c ++ file) (c :: map snd l)).
Proof. exact open_file_spec. Qed.
Print Assumptions C36_open_file_order.

Theorem C36_open_file_only_candidates : forall fs dirs file p, open_file fs dirs file = OFound p ->
  fs p = true /\ exists d, p = d ++ file /\ (d = [] \/ exists dd, dirs = Some dd /\ exists a b, dd = a ++ d ++ b).
Proof. exact open_file_candidates. Qed.
Print Assumptions C36_open_file_only_candidates.

Theorem C36_open_file_terminates : forall fs dirs file, open_file fs dirs file <> OFuel.
Proof. exact open_file_fuel. Qed.
Print Assumptions C36_open_file_terminates.

Example C36_example :
  let fs := fun p => streq p (cs "/b/x.a") || streq p (cs "/c/x.a") in
  open_file fs (Some (cs "/a/; /b/;/c/")) (cs "x.a") = OFound (cs "/b/x.a") /\
  cs "/a/; /b/;/c/" = cs "/a/" ++ render_tail [(cs " ", cs "/b/"); ([], cs "/c/")].
Proof. vm_compute. split; reflexivity. Qed.

(** ** C52 *)
Theorem C52_read_lines_complete : forall s, concat (map snd (read_file_lines s)) = s.
Proof. exact read_file_concat. Qed.
Print Assumptions C52_read_lines_complete.

Theorem C52_read_lines_numbered : forall s i p, nth_error (read_file_lines s) i = Some p -> fst p = 1 + Z.of_nat i.
Proof. exact (fun s => read_lines_numbers (List.length s) 1 s). Qed.
Print Assumptions C52_read_lines_numbered.

Theorem C52_read_lines_text_partial : forall ls,
  Forall (fun l => Forall (fun x => x <> 10) l /\ Z.of_nat (List.length l) < 2047) ls ->
  read_file_lines (concat (map nl ls)) = number 1 (map nl ls).
Proof. exact read_file_text. Qed.
Print Assumptions C52_read_lines_text_partial.

(** a line of 2047 or more characters is split, so the numbers of all later lines are wrong *)
Theorem C52_read_lines_refuted : exists l s, Forall (fun x => x <> 10) l /\ Z.of_nat (List.length l) = 2047 /\
  nth_error (read_file_lines (nl l ++ s)) 1 = Some (2, [10]).
Proof. exact read_lines_long. Qed.
Print Assumptions C52_read_lines_refuted.

Example C52_example : read_file_lines (cs "a" ++ [10] ++ cs "bc" ++ [10; 10]) = [(1, cs "a" ++ [10]); (2, cs "bc" ++ [10]); (3, [10])].
Proof. reflexivity. Qed.

(** ** C53 *)
Theorem C53_command_line : forall l, Forall opt_ok l -> once l -> c_inputs (meaning l) <> [] ->
  parse_arguments (flat_map render l) = AOk (meaning l).
Proof. exact parse_arguments_meaning. Qed.
Print Assumptions C53_command_line.

Example C53_example :
  let l := [OIn (cs "a.asm"); OOut (cs "a.prg"); OCpu true; ODef (cs "X") (cs "$10"); OIn (cs "b.asm"); OC64] in
  Forall opt_ok l /\ once l /\
  parse_arguments [cs "a.asm"; cs "-o"; cs "a.prg"; cs "-65C02"; cs "-d"; cs "X"; cs "$10"; cs "b.asm"; cs "-c64"] =
    AOk (mkCfg (Some (cs "a.prg")) None None None None true false (Some true) false false [(cs "X", 16)] [cs "a.asm"; cs "b.asm"]).
Proof. exact command_line_example. Qed.
