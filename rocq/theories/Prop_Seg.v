(** Programs that set the program counter more than once, see properties.jsonl.
    The programs are those of Prop_Prog.v, but any number of lines may be .ORG e or * = e, where e is any expression of the fragment; the
    lines [pre] before the first of them, [ol], have no instructions or data.
    [arranged c02 ill env pc lines ch] (Layout.v) is the specification: [ch] has the number, the address and the bytes of every instruction and data line
    from [pc] on, where a line that sets the program counter moves the lines after it to the value of its expression, every label is the address of
    its statement, every assigned name the value of its expression, and all names denote [env].  [packed ch] are the bytes of the lines one after
    the other, [load_address ch] is the address of the first of the lines, low byte first. *)
From Coq Require Import String Lia.
From Verif Require Import Base BaseProofs Hash Dict DictProofs DictMore Str Opcodes OpcodesProofs Err State Sym Machine Build Lexer Parser Pass Prog File
  SymProofs SymMore SymEx Sem ExprProofs OpProofs DataProofs DefProofs DataMore
  Colon Layout LineTwo LineFour PassProofs Frag FragPass FragProg FragAsm FragSeg FragEx List ListRel ListProofs ListFile ListLines ListOnce ListAsm FileProofs TextLines ListBeside ListAddr ListSeg Prop_Prog Prop_List.
Open Scope string_scope.
Open Scope list_scope.
Open Scope Z_scope.

(** ** C66 *)
(** The analysis passes end in [s1].  Either some label has a value other than 0 then, or no name is defined at all.  The file holds the bytes of the lines in the order of the
    source, nothing between them wherever they are loaded, after the address of the first one if it is a C64 file. *)
Theorem C66_segments : forall c02 ill c64 cfg F pre ol e body s1 s',
  (1 <= F)%nat -> all_lines cfg (g_inputs cfg) (pre ++ ol :: body) -> Forall (okl c02 ill F) (pre ++ ol :: body) ->
  move_of ol = Some e -> Forall (fun l => move_of l = None /\ silent (t_stmt l) = true) pre ->
  g_out cfg = true ->
  pass_loop (S F) 20 (start (init_state cfg c02 ill c64)) = Ok true s1 ->
  (exists l n, In l (pre ++ ol :: body) /\ t_label l = Some n /\ env s1 (uncolon n) <> 0) \/ (forall l n, In l (pre ++ ol :: body) -> ldef l = Some n -> False) ->
  assemble (S F) (init_state cfg c02 ill c64) = Ok 0 s' -> s_errs s' = 0 ->
  denotes (env s1) (pre ++ ol :: body) /\ s_pc s' = s_pc s1 /\ (forall n, plain n -> env s' n = env s1 n) /\
  exists ch, arranged c02 ill (env s1) 4096 (pre ++ ol :: body) ch /\ rev (s_out s') = (if c64 then load_address ch else []) ++ packed ch.
Proof.
  intros c02 ill c64 cfg F pre ol e body s1 s' F1 Fi OK Eo Sp Go E1 An E Er.
  destruct (assemble_segments c02 ill c64 cfg F _ pre ol e body s1 s' F1 Fi OK Go eq_refl Sp Eo E1 An E Er) as (_ & Nm & Ep & En & ch & A1 & A2 & _).
  split; [exact Nm|]. split; [exact Ep|]. split; [exact En|]. exists ch. auto.
Qed.
Print Assumptions C66_segments.
(** The same without regard to the analysis, when no line moves the program counter from a positive address to one that is not. *)
Theorem C66_segments_at : forall c02 ill c64 cfg F pre ol e body s',
  (1 <= F)%nat -> all_lines cfg (g_inputs cfg) (pre ++ ol :: body) -> Forall (okl c02 ill F) (pre ++ ol :: body) ->
  move_of ol = Some e -> Forall (fun l => move_of l = None /\ silent (t_stmt l) = true) pre ->
  (forall l e' en pc v, In l (ol :: body) -> move_of l = Some e' -> 1 <= pc -> value en pc e' = Some v -> 1 <= v) ->
  (exists l n, In l (pre ++ ol :: body) /\ t_label l = Some n) \/ (forall l n, In l (pre ++ ol :: body) -> ldef l = Some n -> False) ->
  g_out cfg = true ->
  assemble (S F) (init_state cfg c02 ill c64) = Ok 0 s' -> s_errs s' = 0 ->
  exists ch en, denotes en (pre ++ ol :: body) /\ arranged c02 ill en 4096 (pre ++ ol :: body) ch /\ rev (s_out s') = (if c64 then load_address ch else []) ++ packed ch.
Proof.
  intros c02 ill c64 cfg F pre ol e body s' F1 Fi OK Eo Sp Mv An Go E Er. destruct (assemble_loop c02 ill c64 cfg F s' E) as (s1 & E1 & Cl).
  assert (Po : Forall positive (pre ++ ol :: body)).
  { apply Forall_forall. intros l Hl e' M C pc v Pc V. apply in_app_or in Hl as [Hl|Hl]; [rewrite Forall_forall in Sp; destruct (Sp l Hl); congruence|].
    exact (Mv l e' (fun n => cval (C n)) pc v Hl M Pc V). }
  pose proof (positive_anchored c02 ill c64 cfg F _ s1 F1 Fi OK E1 Cl Po An) as An1.
  destruct (assemble_segments c02 ill c64 cfg F _ pre ol e body s1 s' F1 Fi OK Go eq_refl Sp Eo E1 An1 E Er) as (_ & Nm & Ep & En & ch & A1 & A2 & _).
  exists ch, (env s1). auto.
Qed.
Print Assumptions C66_segments_at.

(** The list file shows the bytes of every line at their addresses ([image], ListSeg.v) and beside the line, and every line of every input file once. *)
Theorem C66_listing : forall rd c02 ill c64 cfg F pre ol e body s1 s' ps,
  (1 <= F)%nat -> all_lines cfg (g_inputs cfg) (pre ++ ol :: body) -> Forall (okl c02 ill F) (pre ++ ol :: body) ->
  move_of ol = Some e -> Forall (fun l => move_of l = None /\ silent (t_stmt l) = true) pre ->
  g_out cfg = true ->
  pass_loop (S F) 20 (start (init_state cfg c02 ill c64)) = Ok true s1 ->
  (exists l n, In l (pre ++ ol :: body) /\ t_label l = Some n /\ env s1 (uncolon n) <> 0) \/ (forall l n, In l (pre ++ ol :: body) -> ldef l = Some n -> False) ->
  (forall a b, stricmp a b = 0 -> rd a = rd b) -> (forall n ls, In n (g_inputs cfg) -> g_files cfg n = Some (map SrcLine ls) -> in_step rd n ls) ->
  distinct (g_inputs cfg) ->
  assemble (S F) (init_state cfg c02 ill c64) = Ok 0 s' -> s_errs s' = 0 ->
  generate_list_file rd (rev (s_list s')) = Some ps -> (forall t, In t (columns ps) -> ~ within (cs " $00.db") t) ->
  exists ch, arranged c02 ill (env s1) 4096 (pre ++ ol :: body) ch /\ rev (s_out s') = (if c64 then load_address ch else []) ++ packed ch /\
    read_image (columns ps) = Some (image ch) /\ grouped (by_line ch) (beside 0 ps) /\ sources ps = concat (map (text_lines rd) (g_inputs cfg)).
Proof.
  intros rd c02 ill c64 cfg F pre ol e body s1 s' ps F1 Fi OK Eo Sp Go E1 An Hrd Hin Hd E Er Eg Np.
  destruct (assemble_segments c02 ill c64 cfg F _ pre ol e body s1 s' F1 Fi OK Go eq_refl Sp Eo E1 An E Er) as (_ & Nm & Ep & En & ch & A1 & A2 & K2 & K3 & K7).
  pose proof (all_placed rd cfg _ _ Hin K3) as P. apply Forall_rev in K2.
  pose proof (all_wholes rd cfg _ _ Hin K2 K3) as W. exists ch. split; [exact A1|]. split; [exact A2|]. split; [exact (list_image_segments rd Hrd _ _ ch K2 P Eg Np K7)|]. split.
  - rewrite (list_file_beside rd (g_inputs cfg) (rev (s_list s')) ps 0 W Hd); [|revert P; apply Forall_impl; intros r; apply placed_reaches|exact (all_clumped rd cfg _ _ Hin K3)|exact Eg].
    apply spread_grouped; [exact (spreads_spread _ _ K7)|exact (rows_unpadded rd Hrd _ _ K2 P Eg Np)].
  - exact (list_file_lines rd _ _ _ W Hd Eg).
Qed.
Print Assumptions C66_listing.

(** ** Cases that meet the hypotheses *)
Definition parts : list string :=
  ["code = $1000"; " * = code"; "start ldx #end-start"; " jmp sub"; "end rts"; " * = $2000"; "sub lda vec"; " rts"; " * = *+3"; "vec .word start, sub"; " * = code+$10"; " .byte 1"].
Definition parts_lines : list tline := match src_lines (parse_text (lines parts)) with Some p => p | None => [] end.
Definition parts_org : tline := nth 1 parts_lines org_line.
(** of C66_segments; the bytes at their addresses *)
Example C66_example :
  all_lines (one_file parts) (g_inputs (one_file parts)) (firstn 1 parts_lines ++ parts_org :: skipn 2 parts_lines) /\
  Forall (okl false false 99) (firstn 1 parts_lines ++ parts_org :: skipn 2 parts_lines) /\
  move_of parts_org = Some (ESym (cs "code")) /\ Forall (fun l => move_of l = None /\ silent (t_stmt l) = true) (firstn 1 parts_lines) /\
  match pass_loop 100 20 (start (boot parts)) with Ok true s1 => env s1 (cs "start") = 4096 /\ env s1 (cs "vec") = 8199 | _ => False end /\
  (exists l, In l (firstn 1 parts_lines ++ parts_org :: skipn 2 parts_lines) /\ t_label l = Some (cs "start")) /\
  is_ok (assemble 100 (boot parts)) [162; 5; 76; 0; 32; 96; 173; 7; 32; 96; 0; 16; 0; 32; 1] 3.
Proof.
  split; [cbn [all_lines g_inputs one_file]; exists parts_lines, []; rewrite app_nil_r; split; [vm_compute; reflexivity|split; [vm_compute; reflexivity|reflexivity]]|].
  split; [apply oklsb_ok; vm_compute; reflexivity|]. split; [vm_compute; reflexivity|]. split; [vm_compute; repeat constructor|]. split; [vm_compute; auto|].
  split; [exists (nth 2 parts_lines org_line); vm_compute; auto|vm_compute; auto].
Qed.
(** of C66_segments_at: constants and offsets only *)
Definition steps : list string := [" * = $1000"; "start lda tab"; " rts"; " * = *+$100"; "tab .byte 7"; " .org $C000"; " jmp start"].
Definition steps_lines : list tline := match src_lines (parse_text (lines steps)) with Some p => p | None => [] end.
Example C66_at_example :
  all_lines (one_file steps) (g_inputs (one_file steps)) ([] ++ nth 0 steps_lines org_line :: skipn 1 steps_lines) /\
  Forall (okl false false 99) ([] ++ nth 0 steps_lines org_line :: skipn 1 steps_lines) /\
  (forall l e' en pc v, In l (nth 0 steps_lines org_line :: skipn 1 steps_lines) -> move_of l = Some e' -> 1 <= pc -> value en pc e' = Some v -> 1 <= v) /\
  is_ok (assemble 100 (boot steps)) [173; 4; 17; 96; 7; 76; 0; 16] 3.
Proof.
  split; [apply (line_split _ _ _ steps_lines); [vm_compute; reflexivity|vm_compute; reflexivity|reflexivity]|].
  split; [apply oklsb_ok; vm_compute; reflexivity|]. split; [|vm_compute; auto].
  intros l e' en pc v H M P V. vm_compute in H.
  repeat (destruct H as [<-|H]; [vm_compute in M; try discriminate M; injection M as <-; try (injection V as <-; lia)|]); try destruct H.
  revert V. unfold value. cbn [sem sem_bin]. unfold Sem.fits. destruct (_ && _); [|discriminate]. cbn [Z.add]. intros [= <-]. lia.
Qed.
(** of C66_listing: the image and the rows of the lines *)
Definition parts_rd : cstr -> option cstr := fun _ => Some (lines parts).
Lemma parts_step : forall n ls, In n (g_inputs (one_file parts)) -> g_files (one_file parts) n = Some (map SrcLine ls) -> in_step parts_rd n ls.
Proof.
  intros n ls [<-|[]] E. cbn [g_files one_file] in E. replace ls with parts_lines.
  - unfold in_step. split; [vm_compute; repeat split; discriminate|]. split; [vm_compute; repeat constructor; discriminate|vm_compute; discriminate].
  - apply src_inj. injection E as E. rewrite <- E. vm_compute. reflexivity.
Qed.
Definition parts_ps : list piece :=
  match assemble 100 (boot parts) with
  | Ok _ s => match generate_list_file parts_rd (rev (s_list s)) with Some ps => ps | None => [] end
  | _ => []
  end.
Example C66_listing_example :
  (forall n ls, In n (g_inputs (one_file parts)) -> g_files (one_file parts) n = Some (map SrcLine ls) -> in_step parts_rd n ls) /\ distinct (g_inputs (one_file parts)) /\
  match assemble 100 (boot parts) with Ok 0 s' => s_errs s' = 0 /\ generate_list_file parts_rd (rev (s_list s')) = Some parts_ps | _ => False end /\
  (forall t, In t (columns parts_ps) -> ~ within (cs " $00.db") t) /\
  read_image (columns parts_ps) = Some (from 4096 [162; 5; 76; 0; 32; 96] ++ from 8192 [173; 7; 32; 96] ++ from 8199 [0; 16; 0; 32] ++ from 4112 [1]) /\
  map (fun x => (fst x, read_row (snd x))) (beside 0 parts_ps) =
    [(3, Some [162; 5]); (4, Some [76; 0; 32]); (5, Some [96]); (7, Some [173; 7; 32]); (8, Some [96]); (10, Some [0; 16]); (10, Some [0; 32]); (12, Some [1])].
Proof.
  split; [exact parts_step|]. split; [vm_compute; repeat constructor; intros [] |]. split; [vm_compute; auto|].
  split; [|split; vm_compute; reflexivity]. assert (X : forallb (fun t => negb (withinb (cs " $00.db") t)) (columns parts_ps) = true) by (vm_compute; reflexivity).
  intros t T. apply withinb_not. rewrite forallb_forall in X. apply negb_true_iff. exact (X t T).
Qed.

(** ** Outside the fragment, and what the file does not hold *)
(** the gap between two parts is not in the file, so a byte after the first part need not be loaded where it was assembled: 2 is for $1010, but is the second byte after $1000 *)
Theorem C66_gap_refuted : exists l, l = [" .c64"; " * = $1000"; " .byte 1"; " * = $1010"; " .byte 2"] /\ is_ok (assemble 100 (boot l)) [0; 16; 1; 2] 2.
Proof. eexists. split; [reflexivity|]. vm_compute. auto. Qed.
Print Assumptions C66_gap_refuted.
(** .DS between the bytes of one part stops the assembly, after a second * = the same .DS is only skipped: 4 is for $2002 *)
Theorem C66_space_refuted : exists l, l = [" * = $1000"; " .byte 1,2,3"; " * = $2000"; " .ds 2"; " .byte 4"] /\ is_ok (assemble 100 (boot l)) [1; 2; 3; 4] 2 /\
  match assemble 100 (boot [" * = $1000"; " .byte 1,2,3"; " .ds 2"; " .byte 4"]) with Exit _ s' => s_errs s' = 1 | _ => False end.
Proof. eexists. split; [reflexivity|]. split; vm_compute; auto. Qed.
Print Assumptions C66_space_refuted.
(** a name of * = that no line defines is an error *)
Example C66_undefined_example : match assemble 100 (boot [" * = $1000"; " .byte 5"; " * = ghost"; "m .byte 7"]) with Ok r s' => r = -1 /\ s_out s' = [] | _ => False end.
Proof. vm_compute. auto. Qed.
