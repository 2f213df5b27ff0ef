(** Properties of the utility modules: C01-C08, C37, C38, C39, C50, C51. *)
From Coq Require Import String.
From Verif Require Import Base BaseProofs Hash HashProofs Dict DictProofs DictMore Stack StackProofs
  Str StrProofs Eol EolProofs MemTrack MemTrackProofs Err ErrProofs.
Open Scope string_scope.
Open Scope list_scope.
Open Scope Z_scope.

(** ** C01 *)
Theorem C01_hash_respects_stricmp : forall a b, valids a -> valids b -> stricmp a b = 0 ->
  hash_function a = hash_function b /\ 0 <= hash_function a < 2 ^ 32.
Proof. exact hash_respects_stricmp. Qed.
Print Assumptions C01_hash_respects_stricmp.

Example C01_example : stricmp (cs "Loop_1") (cs "lOOP_1") = 0 /\ cs "Loop_1" <> cs "lOOP_1" /\
  hash_function (cs "Loop_1") = hash_function (cs "lOOP_1") /\ hash_function (cs "Loop_1") <> hash_function (cs "Loop_2").
Proof. vm_compute. repeat split; discriminate. Qed.

(** ** C02 *)
Theorem C02_stricmp_equality : forall a b, valids a -> valids b ->
  (stricmp a b = 0 <->
   (List.length a = List.length b /\ forall i x y, nth_error a i = Some x -> nth_error b i = Some y -> tolower x = tolower y)).
Proof. exact stricmp_pointwise. Qed.
Print Assumptions C02_stricmp_equality.

Theorem C02_stricmp_antisym : forall a b, valids a -> valids b -> Z.sgn (stricmp b a) = - Z.sgn (stricmp a b).
Proof. exact stricmp_antisym. Qed.
Print Assumptions C02_stricmp_antisym.

Theorem C02_stricmp_trans : forall a b c, valids a -> valids b -> valids c ->
  stricmp a b <= 0 -> stricmp b c <= 0 -> stricmp a c <= 0.
Proof. exact stricmp_trans. Qed.
Print Assumptions C02_stricmp_trans.

Example C02_example : stricmp (cs "abc") (cs "ABD") < 0 /\ stricmp (cs "ABD") (cs "abde") < 0 /\ stricmp (cs "aBc") (cs "AbC") = 0
  /\ valids (cs "abc") /\ valids (cs "ABD") /\ valids (cs "abde").
Proof. repeat split; try (vm_compute; reflexivity); repeat constructor; vm_compute; congruence. Qed.

(** ** C03 *)
Theorem C03_dict_refines_map : forall (V : Type) (ops : list (dop (V:=V))) k,
  Forall (fun o => valids (dop_key o)) ops -> fresh_ops aempty ops -> valids k ->
  dlookup (drun ops) k = fold_left astep ops aempty (map tolower k).
Proof. exact @dict_refines_map. Qed.
Print Assumptions C03_dict_refines_map.

(** one thousand keys force a growth; one is deleted and inserted again afterwards *)
Example C03_example :
  let ops := map (fun n => DInsert (key3 n) n) (upto 1000) ++ [DDelete (key3 5); DInsert (key3 5) 4711] in
  dsize (fst (drun ops)) = 2048 /\ freshb ops = true /\
  dlookup (drun ops) (key3 5) = Some 4711 /\ dlookup (drun ops) (key3 999) = Some 999 /\
  dlookup (drun (ops ++ [DDelete (key3 5)])) (key3 5) = None.
Proof. vm_compute. repeat split; reflexivity. Qed.

(** ** C04 *)
Theorem C04_most_recent_partial : forall (V : Type) (ops : list (dop (V:=V))) k,
  Forall (fun o => valids (dop_key o)) ops -> valids k -> (ninserts ops < 921)%nat ->
  dlookup (drun ops) k = hd_error (fold_left sstep ops (fun _ => []) (map tolower k)).
Proof. exact @dict_most_recent_no_growth. Qed.
Print Assumptions C04_most_recent_partial.

Theorem C04_growth_reverses : forall (V : Type) (s : @dict * heap (V:=V)) o k, WF (fst s) (snd s) -> valids (dop_key o) ->
  let old := records s k in
  let new := match o with
             | DInsert k1 v => if lzeqb (map tolower k1) (map tolower k) then Some v :: old else old
             | DDelete k1 => if lzeqb (map tolower k1) (map tolower k) then tl old else old
             end in
  records (dstep s o) k = if grows s o then rev new else new.
Proof. exact @step_records. Qed.
Print Assumptions C04_growth_reverses.

Theorem C04_most_recent_refuted : exists (ops : list (dop (V:=Z))) k,
  Forall (fun o => valids (dop_key o)) ops /\ valids k /\
  fold_left sstep ops (fun _ => []) (map tolower k) = [2; 1] /\ dlookup (drun ops) k = Some 1.
Proof. exact dict_most_recent_refuted. Qed.
Print Assumptions C04_most_recent_refuted.

Example C04_example : dlookup (drun [DInsert (cs "a") 1; DInsert (cs "b") 5; DInsert (cs "A") 2]) (cs "a") = Some 2 /\
  dlookup (drun [DInsert (cs "a") 1; DInsert (cs "A") 2; DDelete (cs "a")]) (cs "a") = Some 1.
Proof. vm_compute. split; reflexivity. Qed.

(** ** C05 *)
Theorem C05_dict_invariant : forall (V : Type) (ops : list (dop (V:=V))), Forall (fun o => valids (dop_key o)) ops ->
  let d := fst (drun ops) in
  dcount d = Z.of_nat (List.length (concat (dtable d))) /\
  (exists p : nat, dsize d = 1024 * 2 ^ Z.of_nat p) /\
  List.length (dtable d) = Z.to_nat (dsize d) /\
  (forall n b e, nth_error (dtable d) n = Some b -> In e b -> hash_function (fst e) mod dsize d = Z.of_nat n) /\
  10 * dcount d < 9 * dsize d.
Proof. exact @dict_invariant. Qed.
Print Assumptions C05_dict_invariant.

Example C05_example : let d := fst (drun (map (fun n => DInsert (key3 n) n) (upto 1000))) in
  dcount d = 1000 /\ dsize d = 2048.
Proof. vm_compute. split; reflexivity. Qed.

(** ** C06 *)
Theorem C06_stack_refines_list : forall (A : Type) (ops : list (sop (A:=A))),
  match lrun ops [] with
  | Some (out, l') => exists s', srun ops create_stack = Some (out, s') /\
       sidx s' = Z.of_nat (List.length l') - 1 /\ Z.of_nat (List.length l') <= ssize s' /\ ssize s' mod 25 = 0
  | None => srun ops create_stack = None
  end.
Proof. exact @stack_refines_list. Qed.
Print Assumptions C06_stack_refines_list.

(** item_at accepts an index above the top of the stack and hands out a dead element *)
Theorem C06_item_at_dead_refuted : exists ops s i (x : Z),
  srun ops create_stack = Some ([7], s) /\ sidx s < i /\ item_at s i = Some (Some x).
Proof. exact item_at_dead. Qed.
Print Assumptions C06_item_at_dead_refuted.

Example C06_example : exists s, srun [SPush 1; SPush 2; SPop; SPush 3; STop; SClear; SPush 4] create_stack = Some ([2; 3], s)
  /\ lrun [SPush 1; SPush 2; SPop; SPush 3; STop; SClear; SPush 4] [] = Some ([2; 3], [4]) /\ ssize s = 25.
Proof. eexists. vm_compute. repeat split; reflexivity. Qed.

(** ** C07 *)
Theorem C07_no_escape_identity : forall s, Forall (fun c => c <> 92) s -> sanitize_string s = SOk s 0.
Proof. exact sanitize_identity. Qed.
Print Assumptions C07_no_escape_identity.

Theorem C07_documented_escapes : forall e v s, In (e, v) doc_escapes ->
  sanitize_string (92 :: e :: s) = sapp [v] (sanitize_string s).
Proof. exact sanitize_doc. Qed.
Print Assumptions C07_documented_escapes.

Theorem C07_hex_pairs : forall bs, Forall (fun b => 0 <= b < 256) bs ->
  sanitize_string (enc_bytes bs) = SOk (map sbyte bs) 0.
Proof. exact sanitize_enc. Qed.
Print Assumptions C07_hex_pairs.

Theorem C07_hex_run : forall bs s, Forall (fun b => 0 <= b < 256) bs -> bs <> [] ->
  match s with [] => True | c :: _ => isxdigit c = false end ->
  sanitize_string ([92; 120] ++ concat (map (fun b => [hexdigit (b / 16); hexdigit (b mod 16)]) bs) ++ s) =
  sapp (map sbyte bs) (sanitize_string s).
Proof. exact sanitize_hex_run. Qed.
Print Assumptions C07_hex_run.

Theorem C07_never_longer : forall s out e, sanitize_string s = SOk out e -> (List.length out <= List.length s)%nat.
Proof. exact sanitize_length. Qed.
Print Assumptions C07_never_longer.

Example C07_example : sanitize_string ([65; 92; 110; 66] ++ enc_bytes [10; 255]) = SOk [65; 10; 66; 10; -1] 0.
Proof. vm_compute. reflexivity. Qed.

(** ** C08 *)
Theorem C08_no_overread_partial : forall s, ~ ends_bad s -> exists out n, sanitize_string s = SOk out n.
Proof. exact sanitize_defined. Qed.
Print Assumptions C08_no_overread_partial.

Theorem C08_no_overread_refuted : exists s, valids s /\ sanitize_string s = SUB.
Proof. exact sanitize_overread. Qed.
Print Assumptions C08_no_overread_refuted.

Example C08_example : ~ ends_bad [65; 92; 110] /\ sanitize_string [65; 92; 110] = SOk [65; 10] 0 /\ ends_bad [65; 92; 120].
Proof. exact sanitize_defined_example. Qed.

(** ** C37 *)
Theorem C37_eol_lf : forall ls tail, Forall line_ok ls -> line_ok tail ->
  replace_eol (join [10] ls ++ tail) = join [10] ls ++ tail /\
  replace_eol (join [13] ls ++ tail) = join [10] ls ++ tail /\
  replace_eol (join [13; 10] ls ++ tail) = join [10] ls ++ tail.
Proof. exact eol_all_conventions. Qed.
Print Assumptions C37_eol_lf.

Theorem C37_eol_idempotent : forall s, replace_eol (replace_eol s) = replace_eol s.
Proof. exact eol_idempotent. Qed.
Print Assumptions C37_eol_idempotent.

Theorem C37_eol_preserves_text : forall s,
  filter (fun c => negb ((c =? 13) || (c =? 10))) (replace_eol s) = filter (fun c => negb ((c =? 13) || (c =? 10))) s /\
  ~ In 13 (replace_eol s).
Proof. exact eol_preserves. Qed.
Print Assumptions C37_eol_preserves_text.

(** a CR-terminated line followed by a CRLF-terminated empty line: two lines become three *)
Theorem C37_eol_mixed_refuted : exists s, s = [13] ++ [13; 10] /\ replace_eol s = [10; 10; 10].
Proof. exact eol_mixed_refuted. Qed.
Print Assumptions C37_eol_mixed_refuted.

Example C37_example : Forall line_ok [[65; 66]; []; [67]] /\ line_ok [68] /\
  replace_eol (join [13; 10] [[65; 66]; []; [67]] ++ [68]) = [65; 66; 10; 10; 67; 10; 68].
Proof. vm_compute. repeat split; repeat constructor; discriminate. Qed.

(** ** C38 *)
Theorem C38_memory_total_partial : forall os seen b, client [] [] os = Some (seen, b) ->
  exists m, mem_run mem0 os = Some m /\ m_total m = btotal b /\ m_errors m = 0.
Proof. exact mem_run_total. Qed.
Print Assumptions C38_memory_total_partial.

(** malloc 10, realloc to 20 which moves the block, free the new block: nothing is live *)
Theorem C38_memory_total_refuted : exists p q m, p <> q /\
  mem_run mem0 [MMalloc 10 p; MRealloc p 20 q; MFree q] = Some m /\ m_total m = 20 /\ m_errors m = 1.
Proof. exact mem_moved_refuted. Qed.
Print Assumptions C38_memory_total_refuted.

Example C38_example : client [] [] [MMalloc 10 100; MMalloc 5 200; MRealloc 100 30 100; MFree 200] = Some ([200; 100], [(100, 30)]).
Proof. reflexivity. Qed.

(** ** C39 *)
Theorem C39_error_counting_partial : forall os e, Forall (fun o => 0 < opnum o < 49) os -> Forall short os ->
  exists e', err_run e os = Some e' /\
    err_count e' = err_count e + Z.of_nat (List.length (filter is_err os)) /\
    warn_count e' = warn_count e + Z.of_nat (List.length (filter (fun o => negb (is_err o)) os)) /\
    e_out e' = e_out e ++ map report os.
Proof. exact err_run_count. Qed.
Print Assumptions C39_error_counting_partial.

Theorem C39_error2_refuted : exists n p e, 0 < n < 49 /\ err_count e = 0 /\
  exists e', error2 n p e = Some e' /\ err_count e' = 2 /\ e_out e' = [msg n; e_buf e].
Proof. exact error2_long. Qed.
Print Assumptions C39_error2_refuted.

Theorem C39_messages : List.length errors = Z.to_nat error_max /\ NoDup errors /\
  (forall n, 0 < n < error_max -> msg n <> []).
Proof. exact errors_table. Qed.
Print Assumptions C39_messages.

Example C39_example : exists e', err_run (mkErr 0 0 [] []) [EError error_divide_by_zero; EWarn error_branch_out_of_range;
    EError2 error_cant_open_include_file (cs "x.a")] = Some e' /\ err_count e' = 2 /\ warn_count e' = 1 /\
    nth 2 (e_out e') [] = cs "Can't open include file x.a".
Proof. eexists. vm_compute. repeat split; reflexivity. Qed.

(** ** C50 *)
Theorem C50_hash_pointer_refuted : forall k, hash_pointer_function k = None.
Proof. exact hash_pointer_undefined. Qed.
Print Assumptions C50_hash_pointer_refuted.

(** ** C51 *)
Theorem C51_handle_stable_partial : forall (V : Type) (s : @dict * heap (V:=V)) k a o,
  WF (fst s) (snd s) -> valids k -> dict_search (fst s) k = Some a -> valids (dop_key o) ->
  map tolower (dop_key o) <> map tolower k -> grows s o = false ->
  dict_search (fst (dstep s o)) k = Some a /\ nth_error (snd (dstep s o)) a = nth_error (snd s) a.
Proof. exact @handle_stable. Qed.
Print Assumptions C51_handle_stable_partial.

Theorem C51_handle_stable_refuted : exists (ops : list (dop (V:=Z))) o k a b,
  dict_search (fst (drun ops)) k = Some a /\ stricmp (dop_key o) k <> 0 /\
  dict_search (fst (drun (ops ++ [o]))) k = Some b /\ a <> b.
Proof. exact handle_refuted. Qed.
Print Assumptions C51_handle_stable_refuted.

Example C51_example : dict_search (fst (drun [DInsert (cs "a") 1; DInsert (cs "b") 2])) (cs "A") = Some 0%nat /\
  grows (drun [DInsert (cs "a") 1]) (DInsert (cs "b") 2) = false.
Proof. vm_compute. split; reflexivity. Qed.
