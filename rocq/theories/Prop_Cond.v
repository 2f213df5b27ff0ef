(** Properties of .IFDEF and .IFNDEF in the assembler, see properties.jsonl. *)
From Coq Require Import String Lia.
From Verif Require Import Base BaseProofs Hash Dict DictProofs Str Err State Sym Machine Build Pass Parser Prog
  SymProofs SymMore DictMore IfDef IfDefProofs IfdefPass NamesStay SymEx.
Open Scope string_scope.
Open Scope list_scope.
Open Scope Z_scope.

(** ** C34 *)
(** A conditional of the assembler outside all others, around plain lines.  With the test true the lines of the first part
    are read and, when they have been, those of the other part are passed over; with the test false the lines of the first
    part are passed over and those of the other part read.  Passing over does nothing ([only_read]) but move on in the
    source, add to the list file and count a use of the name. *)
Theorem C34_branches : forall F neg name th el n rest up s,
  (stored s -> reads s [] ((conditional neg name th el n ++ rest) :: up) ->
   exists s', goes_on F s s' /\ only_read s s' /\
     if xorb neg (in_table s name) then reads s' [0] ((map SrcLine th ++ otherwise el ++ SrcEndif n :: rest) :: up)
     else match el with
          | Some (_, ls) => reads s' [0] ((map SrcLine ls ++ SrcEndif n :: rest) :: up)
          | None => reads s' [] (rest :: up)
          end) /\
  (reads s [0] ((otherwise el ++ SrcEndif n :: rest) :: up) ->
   exists s', goes_on F s s' /\ only_read s s' /\ reads s' [] (rest :: up)).
Proof.
  intros F neg name th el n rest up s. split.
  - intros S R. destruct (xorb neg (in_table s name)) eqn:T.
    + exact (enter_then F neg name th el n rest up s S R T).
    + exact (enter_else F neg name th el n rest up s S R T).
  - exact (leave_then F el n rest up s).
Qed.
Print Assumptions C34_branches.

(** Every conditional directive of the assembler, in any nesting, is a step of the scanner of C34_exact, its test being
    whether the name is in the symbol table at that moment. *)
Theorem C34_refines : forall F l s, (forall x, l <> SrcLine x) -> stored s ->
  match lex_step (mkLst (s_skip s) (s_ifs s)) (lexeme_of s l) with
  | None => read_line F l s = Ub UbIndex
  | Some (st, []) => exists s', read_line F l s = Ok (Some tt) s' /\ only_read s s' /\ mkLst (s_skip s') (s_ifs s') = st /\ s_input s' = s_input s
  | Some (_, _ :: _) => read_line F l s = Ok None s
  end.
Proof. intros F l s N S. apply read_step; [destruct l; auto; exact I|exact N]. Qed.
Print Assumptions C34_refines.

Definition guard_prog : list string :=
  ["  .org $1000"; ".ifndef guard"; "guard=1"; "  .byte 7"; ".endif"; "  .byte 8"].
(** the state after the first pass, at the .ifndef again *)
Definition guard_st : state :=
  let s := after guard_prog in
  set_skip false (set_ifs [] (set_input [parse_text (lines (tl guard_prog))] s)).

Lemma guard_sound : sound guard_st.
Proof. apply table_sound. apply (table_okb_ok guard_st). vm_compute. reflexivity. Qed.
Lemma guard_entered : entered guard_st (cs "guard").
Proof.
  apply search_entered with (a := 0%nat); [exact guard_sound|vm_compute; reflexivity| |apply validsb_ok; vm_compute; reflexivity].
  intros k H. vm_compute in H. repeat (destruct H as [<-|H]; [apply validsb_ok; vm_compute; reflexivity|]). destruct H.
Qed.
Example C34_branches_example :
  stored guard_st /\ in_table guard_st (cs "guard") = true /\
  exists th n rest, reads guard_st [] ((conditional true (cs "guard") th None n ++ rest) :: []) /\ List.length th = 2%nat /\ List.length rest = 1%nat.
Proof.
  split; [apply sound_stored, guard_sound|]. split; [vm_compute; reflexivity|].
  eexists [_; _], _, [_]. split; [|split; reflexivity]. split; [vm_compute; reflexivity|]. split; [vm_compute; reflexivity|]. vm_compute. reflexivity.
Qed.
Example C34_program : option_map (fun u => (u_code u, u_bytes u, u_errs u)) (run
  ["  .org $1000"; "n1=1"; ".ifdef n1"; "  .byte 1"; ".else"; "  .byte 2"; ".endif"; ".ifndef n1"; "  .byte 3"; ".else"; "  .byte 4"; ".endif";
   ".ifdef n2"; "  .byte 5"; ".endif"; "  .byte 6"]) = Some (0, [1; 4; 6], 0).
Proof. vm_compute. reflexivity. Qed.

(** ** C58 *)
(** A name that has a record keeps it: through the lines of a pass, from one pass to the next, and into the final pass. *)
Theorem C58_names_stay : forall F s name, sound s -> entered s name ->
  (forall s', reading F s s' -> sound s' /\ entered s' name) /\
  (forall s', parse_pass F s = Ok tt s' -> sound s' /\ entered s' name) /\
  (forall k b s', pass_loop F k s = Ok b s' -> sound s' /\ entered s' name).
Proof.
  intros F s name S N. split; [|split]; intros.
  - apply reading_keeps in H. split; [apply H, S|eapply keeps_entered; eauto].
  - apply pass_keeps in H. split; [apply H, S|eapply keeps_entered; eauto].
  - apply loop_keeps in H. split; [apply H, S|eapply keeps_entered; eauto].
Qed.
Print Assumptions C58_names_stay.

(** So in a pass that begins with the name in the table, which for a name made in the first pass are all the others and
    with them the final one, an .IFNDEF of it outside other conditionals passes its lines over, wherever it stands. *)
Theorem C58_guard_lost : forall F name body n rest up s0 s, sound s0 -> valids name -> entered s0 name -> reading F s0 s ->
  reads s [] ((conditional true name body None n ++ rest) :: up) ->
  exists s', goes_on F s s' /\ only_read s s' /\ reads s' [] (rest :: up).
Proof. exact guard_lost. Qed.
Print Assumptions C58_guard_lost.

(** and an .IFDEF of it has its first part read, wherever it stands, also in front of the definition *)
Theorem C58_taken : forall F name th el n rest up s0 s, sound s0 -> valids name -> entered s0 name -> reading F s0 s ->
  reads s [] ((conditional false name th el n ++ rest) :: up) ->
  exists s', goes_on F s s' /\ only_read s s' /\ reads s' [0] ((map SrcLine th ++ otherwise el ++ SrcEndif n :: rest) :: up).
Proof. exact taken. Qed.
Print Assumptions C58_taken.

Example C58_example : sound guard_st /\ valids (cs "guard") /\ entered guard_st (cs "guard") /\ reading 1000 guard_st guard_st /\
  exists th n rest, reads guard_st [] ((conditional true (cs "guard") th None n ++ rest) :: []) /\ List.length th = 2%nat.
Proof.
  split; [exact guard_sound|]. split; [apply validsb_ok; vm_compute; reflexivity|]. split; [exact guard_entered|]. split; [constructor|].
  eexists [_; _], _, [_]. split; [|reflexivity]. split; [vm_compute; reflexivity|]. split; [vm_compute; reflexivity|]. vm_compute. reflexivity.
Qed.

(** The 7 under its own guard is not in the file, and nothing is said; without the guard it is. *)
Theorem C58_guard_refuted :
  option_map (fun u => (u_code u, u_bytes u, u_errs u)) (run guard_prog) = Some (0, [8], 0) /\
  option_map (fun u => (u_code u, u_bytes u, u_errs u)) (run ["  .org $1000"; "guard=1"; "  .byte 7"; "  .byte 8"]) = Some (0, [7; 8], 0).
Proof. split; vm_compute; reflexivity. Qed.
Print Assumptions C58_guard_refuted.
(** Defined below, or only used: the name counts as defined. *)
Theorem C58_order_refuted :
  option_map (fun u => (u_code u, u_bytes u, u_errs u)) (run ["  .org $1000"; ".ifdef n1"; "  .byte 1"; ".else"; "  .byte 2"; ".endif"; "n1=1"]) = Some (0, [1], 0) /\
  option_map (fun u => (u_code u, u_bytes u, u_errs u)) (run ["  .org $1000"; "  .byte n1"; ".ifdef n1"; "  .byte 1"; ".else"; "  .byte 2"; ".endif"]) = Some (0, [0; 1], 0).
Proof. split; vm_compute; reflexivity. Qed.
Print Assumptions C58_order_refuted.
