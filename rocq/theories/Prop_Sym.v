(** Properties of the symbol table (sym.cc), see properties.jsonl. *)
From Coq Require Import String Lia Permutation Sorting.Sorted.
From Verif Require Import Base BaseProofs Hash Dict DictProofs DictMore Str Opcodes Err State Sym Machine Build Pass Prog
  SymProofs SymMore SymEx ExprProofs PmDef LocalAdd.
Open Scope string_scope.
Open Scope list_scope.
Open Scope Z_scope.

(** ** C18 *)
(** one call: nothing happens, or the value is refused with an error, or it is stored; a stored value of a symbol
    that is not a variable has 16 bits *)
Theorem C18_set_value : forall a v s y, nth_error (s_syms s) a = Some y ->
  exists s', set_symbol_value a v s = Ok tt s' /\
  (s' = s /\ y_value y = v \/
   s' = set_errs (s_errs s + 1) (set_msgs (error_value_out_of_range :: s_msgs s) s) /\
     y_var y = false /\ ~ 0 <= v <= 65535 \/
   y_value y <> v /\ (0 <= v <= 65535 \/ y_var y = true) /\
     s' = (let t := set_syms (upd a (y_set_value v y) (s_syms s)) s in
           if y_mparam y || y_var y then t else set_changed (s_changed s + 1) t)).
Proof. exact set_symbol_value_spec. Qed.
Print Assumptions C18_set_value.

Theorem C18_values_16_bits : forall l s s',
  Forall (fun y => y_var y = false -> 0 <= y_value y <= 65535) (s_syms s) -> set_values l s = Ok tt s' ->
  Forall (fun y => y_var y = false -> 0 <= y_value y <= 65535) (s_syms s').
Proof. exact set_values_16. Qed.
Print Assumptions C18_values_16_bits.

Example C18_example : exists s', set_values [(0%nat, 65535); (1%nat, -1); (0%nat, 65536); (1%nat, 7)] ex_st = Ok tt s' /\
  map y_value (firstn 2 (s_syms s')) = [65535; 7] /\ s_errs s' = 2 /\ s_changed s' = s_changed ex_st + 2.
Proof. vm_compute. eexists. repeat split; reflexivity. Qed.

(** ** C19 *)
Theorem C19_counter : forall a v s s', set_symbol_value a v s = Ok tt s' ->
  s_changed s' = s_changed s +
    match nth_error (s_syms s) a with
    | Some y => if negb (y_var y) && negb (y_mparam y) && negb (y_value y =? v) && (0 <=? v) && (v <=? 65535) then 1 else 0
    | None => 0
    end.
Proof. exact set_value_changed. Qed.
Print Assumptions C19_counter.

Theorem C19_unchanged : forall l s s', set_values l s = Ok tt s' -> s_changed s' = s_changed s ->
  forall b y, nth_error (s_syms s) b = Some y -> y_var y = false -> y_mparam y = false ->
  nth_error (s_syms s') b = Some y.
Proof. exact set_values_unchanged. Qed.
Print Assumptions C19_unchanged.

Example C19_example : exists s', set_values [(0%nat, 5); (1%nat, 1); (1%nat, 2)] ex_st = Ok tt s' /\ s_changed s' = s_changed ex_st + 1.
Proof. vm_compute. eexists. repeat split; reflexivity. Qed.

(** ** C20 *)
Theorem C20_lookup : forall sc n s, table_ok s -> valids n -> (forall c, sc = Some c -> valids c) ->
  exists r s', look_up_in sc n s = Ok r s' /\
  match r with
  | None => resolve s sc n = None /\ s' = s
  | Some a => exists y, nth_error (s_syms s) a = Some y /\ resolve s sc n = Some y /\
                        s' = set_syms (upd a (y_times_inc y) (s_syms s)) s
  end.
Proof. exact (fun sc n s H => look_up_in_spec sc n s (proj1 H)). Qed.
Print Assumptions C20_lookup.

Theorem C20_add : forall n s a s', table_ok s -> (forall k, valids k -> single s k) -> plain n ->
  (forall c, s_scope s = Some c -> valids c) -> add_symbol n s = Ok a s' ->
  table_ok s' /\ (forall k, valids k -> single s' k) /\
  resolve s' (s_scope s) n <> None /\
  (forall sc' n', valids n' -> ~ In 46 n' -> (forall c', sc' = Some c' -> valids c') ->
     (fk n' <> fk n \/ s_scope s <> None /\ option_map fk sc' <> option_map fk (s_scope s)) ->
     untimed (resolve s' sc' n') = untimed (resolve s sc' n')).
Proof. exact add_symbol_scopes. Qed.
Print Assumptions C20_add.

Example C20_example : table_ok in_one /\ (forall k, single in_one k) /\ plain (cs "new") /\ s_scope in_one = Some (cs "one") /\
  option_map y_value (resolve in_one (Some (cs "one")) (cs "X1")) = Some 1 /\
  option_map y_value (resolve in_one (Some (cs "two")) (cs "x1")) = Some 2 /\
  option_map y_value (resolve in_one (Some (cs "two")) (cs "x0")) = Some 5 /\
  resolve in_one None (cs "x1") = None.
Proof.
  split; [exact in_one_ok|]. split; [exact in_one_single|]. split; [exact plain_new|]. vm_compute. repeat split; reflexivity.
Qed.

(** ** C21 *)
Theorem C21_minus : forall t depth file line, pm_sorted t -> valids file ->
  let c := filter (fun e => (stricmp file (pm_file e) =? 0) && (pm_line e <=? line)) t in
  1 <= depth <= Z.of_nat (length c) ->
  0 <= find_minus t depth file line /\
  nth_error t (Z.to_nat (find_minus t depth file line)) = nth_error (rev c) (Z.to_nat (depth - 1)) /\
  nth_error (rev c) (Z.to_nat (depth - 1)) <> None.
Proof. exact find_minus_nth. Qed.
Print Assumptions C21_minus.

Theorem C21_plus : forall t depth file line, pm_sorted t -> valids file ->
  let c := filter (fun e => (stricmp file (pm_file e) =? 0) && (line <? pm_line e)) t in
  1 <= depth <= Z.of_nat (length c) ->
  0 <= find_plus t depth file line /\
  nth_error t (Z.to_nat (find_plus t depth file line)) = nth_error c (Z.to_nat (depth - 1)) /\
  nth_error c (Z.to_nat (depth - 1)) <> None.
Proof. exact find_plus_nth. Qed.
Print Assumptions C21_plus.

(** no label at all in that direction: nothing is found *)
Theorem C21_none : forall t depth file line, pm_sorted t -> valids file ->
  (filter (fun e => (stricmp file (pm_file e) =? 0) && (pm_line e <=? line)) t = [] -> find_minus t depth file line = -1) /\
  (filter (fun e => (stricmp file (pm_file e) =? 0) && (line <? pm_line e)) t = [] -> find_plus t depth file line = -1).
Proof. exact (fun t d f l S V => conj (proj1 (find_minus_spec t d f l S V)) (proj1 (find_plus_spec t d f l S V))). Qed.
Print Assumptions C21_none.

(** the tables the searches run on are sorted *)
Theorem C21_table_sorted : forall t e, pm_sorted t -> valids (pm_file e) -> find_def t (pm_file e) (pm_line e) 0 = None ->
  pm_sorted (pm_insert e t) /\ forall x, In x (pm_insert e t) <-> x = e \/ In x t.
Proof. exact (fun t e S V N => conj (pm_insert_sorted t e S V N) (pm_insert_in e t)). Qed.
Print Assumptions C21_table_sorted.

(** too few labels: the search leaves the file, or the table *)
Theorem C21_crosses_files_refuted : exists t file line depth e, pm_sorted t /\ valids file /\
  minus_cands t file line = [e] /\ depth = 2 /\
  exists e', nth_error t (Z.to_nat (find_minus t depth file line)) = Some e' /\ in_file file e' = false.
Proof. exact w21_crosses_files. Qed.
Print Assumptions C21_crosses_files_refuted.

Theorem C21_past_table_refuted : exists t file line depth e, pm_sorted t /\ valids file /\
  plus_cands t file line = [e] /\ depth = 2 /\
  0 <= find_plus t depth file line /\ nth_error t (Z.to_nat (find_plus t depth file line)) = None.
Proof. exact w21_past_table. Qed.
Print Assumptions C21_past_table_refuted.

Theorem C21_program_refuted : exists l, l = ["  .org $1000"; "+ nop"; "  jmp ++"; "+ rts"] /\ assemble 1000 (boot l) = Ub UbIndex.
Proof. exact w21_program. Qed.
Print Assumptions C21_program_refuted.

(** Executing the definition of a + or - label on a line, outside macros: the table of these labels then has one label of this
    file and line, with the value given; all others stay, and so does the other table.  Another pass is asked for if the
    label was there with another value, and only then. *)
Theorem C21_defined : forall F p n0 n1 i k (minus lab : bool) op s0 s,
  let name := [if minus then 45 else 43] in
  let here e := stricmp (s_file s) (pm_file e) = 0 /\ pm_line e = s_line s in
  s_stop s0 = false -> nth_error (s_nodes s0) p = Some (mkNode (KOpr OEqu) [n0; n1]) ->
  expand F n1 s0 = Ok op s -> nth_error (s_nodes s) n0 = Some (mkNode (if lab then KLabel name i else KId name i) k) ->
  pm_sorted (pm_table minus s) -> valids (s_file s) -> s_mstack s = [] ->
  exists s', expand (S F) p s0 = Ok op s' /\ pm_sorted (pm_table minus s') /\
    (exists e, In e (pm_table minus s') /\ here e) /\ (forall e, In e (pm_table minus s') -> here e -> pm_value e = op) /\
    (forall e, ~ here e -> In e (pm_table minus s') <-> In e (pm_table minus s)) /\ pm_table (negb minus) s' = pm_table (negb minus) s /\
    ((forall e, In e (pm_table minus s) -> here e -> pm_value e = op) -> s_changed s' = s_changed s) /\
    (forall e, In e (pm_table minus s) -> here e -> pm_value e <> op -> s_changed s' = s_changed s + 1).
Proof.
  intros F p n0 n1 i k minus lab op s0 s name here St N E N0 S V M.
  destruct (equ_pm_ok minus (if minus then 45 else 43) op s S V M) as (s' & E1 & (A & B & C & D) & O & Ch). exists s'.
  split; [rewrite (expand_eq _ _ _ _ St N); rewrite <- E1; exact (equ_ok (expand F) minus lab n0 n1 i k op s0 s E N0)|]. tauto.
Qed.
Print Assumptions C21_defined.

(** Using one in an expression: the value, if the evaluation ends with one, is that of the label meant. *)
Theorem C21_used : forall F p i k (minus : bool) depth s v s',
  let name := repeat (if minus then 45 else 43) depth in
  s_stop s = false -> nth_error (s_nodes s) p = Some (mkNode (KId name i) k) -> pm_sorted (pm_table minus s) -> valids (s_file s) ->
  let same e := stricmp (s_file s) (pm_file e) =? 0 in
  let c := if minus then rev (filter (fun e => same e && (pm_line e <=? s_line s)) (s_minus s))
           else filter (fun e => same e && (s_line s <? pm_line e)) (s_plus s) in
  (1 <= depth <= length c)%nat -> expand (S F) p s = Ok v s' -> option_map pm_value (nth_error c (depth - 1)) = Some v.
Proof.
  intros F p i k minus depth s v s' name St N S V same c D E. rewrite (expand_eq _ _ _ _ St N) in E. unfold x_node in E. cbn [n_kind] in E. unfold x_id in E.
  assert (Hn : name = (if minus then 45 else 43) :: repeat (if minus then 45 else 43) (depth - 1)) by (destruct depth as [|d]; [lia|cbn; rewrite Nat.sub_0_r; reflexivity]).
  assert (L : Z.of_nat (length name) = Z.of_nat depth) by (unfold name; rewrite repeat_length; reflexivity).
  assert (Hv : pm_valid name = true).
  { unfold pm_valid. rewrite Hn at 1 2. apply andb_true_iff. split; [destruct minus; reflexivity|]. apply forallb_forall. intros x Hx. apply repeat_spec in Hx. rewrite Hn. subst x. destruct minus; reflexivity. }
  assert (Hp : is_pm_name name = true) by (rewrite Hn; destruct minus; reflexivity). rewrite Hp in E.
  assert (Hm : (hd0 name =? 45) = minus) by (rewrite Hn; destruct minus; reflexivity).
  assert (G : exists e, nth_error c (depth - 1) = Some e /\ let index := if minus then find_minus (pm_table minus s) (Z.of_nat (length name)) (s_file s) (s_line s) else find_plus (pm_table minus s) (Z.of_nat (length name)) (s_file s) (s_line s) in
    0 <= index /\ nth_error (pm_table minus s) (Z.to_nat index) = Some e).
  { rewrite L. destruct minus.
    - destruct (find_minus_nth (s_minus s) (Z.of_nat depth) (s_file s) (s_line s) S V) as (A & B & _); [unfold c in D; rewrite rev_length in D; change (1 <= Z.of_nat depth <= Z.of_nat (length (filter (fun e => same e && (pm_line e <=? s_line s)) (s_minus s)))); lia|].
      replace (Z.to_nat (Z.of_nat depth - 1)) with (depth - 1)%nat in B by lia. change (rev (minus_cands (s_minus s) (s_file s) (s_line s))) with c in B.
      destruct (nth_error c (depth - 1)) as [e|] eqn:X; [|apply nth_error_None in X; lia]. exists e. split; [reflexivity|]. split; [exact A|exact B].
    - destruct (find_plus_nth (s_plus s) (Z.of_nat depth) (s_file s) (s_line s) S V) as (A & B & _); [change (1 <= Z.of_nat depth <= Z.of_nat (length c)); lia|].
      replace (Z.to_nat (Z.of_nat depth - 1)) with (depth - 1)%nat in B by lia. change (plus_cands (s_plus s) (s_file s) (s_line s)) with c in B.
      destruct (nth_error c (depth - 1)) as [e|] eqn:X; [|apply nth_error_None in X; lia]. exists e. split; [reflexivity|]. split; [exact A|exact B]. }
  destruct G as (e & X & A & B). rewrite X. cbn [option_map]. f_equal. symmetry.
  eapply (used_ok p _ _ name i s v s' e Hv); cbv zeta; rewrite ?Hm; [exact A|exact B|exact E].
Qed.
Print Assumptions C21_used.
(** the label of line 9 moves from 120 to 130: another pass.  Seen from line 9, -- is the label of line 3. *)
Definition moving : state := set_nodes [mkNode (KLabel [45] None) []; mkNode (KCon 130 false) []; mkNode (KOpr OEqu) [0%nat; 1%nat]; mkNode (KId [45; 45] None) []]
  (set_file (cs "a.a") (set_line 9 (set_minus two_files (boot [])))).
Example C21_moving : pm_sorted (pm_table true moving) /\ expand 1 1 moving = Ok 130 moving /\
  (match expand 2 2 moving with Ok v s => (v, s_minus s, s_changed s - s_changed moving) | _ => (0, [], 0) end) =
    (130, [mkPm (cs "a.a") 3 100; mkPm (cs "a.a") 9 130; mkPm (cs "b.a") 4 200], 1) /\
  (match expand 2 3 moving with Ok v _ => Some v | _ => None end) = Some 100.
Proof. split; [exact two_files_sorted|]. split; [reflexivity|]. split; vm_compute; reflexivity. Qed.

Example C21_example : pm_sorted two_files /\ find_minus two_files 2 (cs "A.A") 9 = 0 /\ find_minus two_files 1 (cs "a.a") 8 = 0 /\
  find_plus two_files 2 (cs "a.a") 2 = 1 /\ find_plus two_files 1 (cs "b.a") 3 = 2 /\ find_minus two_files 1 (cs "b.a") 3 = -1.
Proof. split; [exact two_files_sorted|]. vm_compute. repeat split; reflexivity. Qed.
Example C21_example_program : run ["  .org $1000"; "- nop"; "  bne -"; "- bne --"; "  bne +"; "+ rts"] =
  Some (mkSum false 0 [234; 208; 253; 208; 251; 208; 0; 96] 0 1).
Proof. vm_compute. reflexivity. Qed.

(** ** C22 *)
Theorem C22_push_pop : forall s, table_ok s -> 0 <= s_maxmp s ->
  (forall n, 1 <= n <= s_maxmp s -> exists v, pval s n = Some v /\ 0 <= v <= 65535) ->
  exists s1, push_macro_params s = Ok tt s1 /\ length (s_mstack s1) = S (length (s_mstack s)) /\
  (forall k, dl s1 k = dl s k) /\
  forall s2, table_ok s2 -> s_mstack s2 = s_mstack s1 -> (forall n, 1 <= n <= s_maxmp s -> param_ok s2 n) ->
  exists s3, pop_macro_params s2 = Ok tt s3 /\ table_ok s3 /\ s_mstack s3 = s_mstack s /\
    (forall n, 1 <= n <= s_maxmp s -> pval s3 n = pval s n) /\
    (forall k, valids k -> (forall n, 1 <= n <= s_maxmp s -> fk k <> fk (param_name n)) -> dl s3 k = dl s2 k) /\
    s_errs s3 = s_errs s2 /\ s_changed s3 = s_changed s2.
Proof. exact push_pop. Qed.
Print Assumptions C22_push_pop.

Example C22_example : table_ok ex_st /\ s_maxmp ex_st = 2 /\ pval ex_st 1 = Some 3 /\ pval ex_st 2 = Some 4.
Proof. split; [exact ex_st_ok|]. vm_compute. repeat split; reflexivity. Qed.

(** ** C40 *)
(** label names cannot contain '@' (the rules for SYMB in pasm.l); local names start with it *)
Theorem C40_local_names : forall l n l' n', ~ In 64 l -> ~ In 64 l' -> hd0 n = 64 -> hd0 n' = 64 ->
  fk (local_name l n) = fk (local_name l' n') -> fk l = fk l' /\ fk n = fk n'.
Proof. exact local_name_inj. Qed.
Print Assumptions C40_local_names.

(** Outside sections, below the label l, @n is looked up or added under that label: the name then has a record, the one it had if it had one,
    and a local of another label, or another local, means what it meant. *)
Theorem C40_resolves : forall l n l' n' s, table_ok s -> (forall k, valids k -> single s k) -> s_label s = Some l -> s_scope s = None ->
  (forall x, In x [l; l'] -> valids x /\ ~ In 46 x /\ ~ In 64 x) -> (forall x, In x [n; n'] -> valids x /\ hd0 x = 64 /\ ~ In 46 x /\ ~ In 58 x) ->
  fk l <> fk l' \/ fk n <> fk n' ->
  exists a s' y, add_symbol n s = Ok (Some a) s' /\ table_ok s' /\
    nth_error (s_syms s') a = Some y /\ dl s' (l ++ 95 :: 95 :: n) = Some y /\
    (forall y0, dl s (l ++ 95 :: 95 :: n) = Some y0 -> untimed (Some y) = untimed (Some y0)) /\
    untimed (dl s' (l' ++ 95 :: 95 :: n')) = untimed (dl s (l' ++ 95 :: 95 :: n')).
Proof.
  intros l n l' n' s T Sg Hl Sc Ho Hn Ne. destruct (add_local_apart l n l' n' s T Sg Hl Sc) as (a & s' & E & T' & D & N & K & O).
  - apply Ho. left. reflexivity.
  - apply Hn. left. reflexivity.
  - apply Ho. right. left. reflexivity.
  - apply Hn. right. left. reflexivity.
  - exact Ne.
  - destruct (dl s' (l ++ 95 :: 95 :: n)) as [y|] eqn:Y; [|congruence]. exists a, s', y. split; [exact E|]. split; [exact T'|]. split; [exact N|]. split; [exact Y|].
    split; [|exact O]. intros y0 H0. rewrite <- H0. apply K. congruence.
Qed.
Print Assumptions C40_resolves.
Definition below_one : state := match add_symbol (cs "@l") (set_label (Some (cs "two")) ex_st) with Ok _ s => set_label (Some (cs "one")) s | _ => ex_st end.
Example C40_resolves_example : table_ok below_one /\ (forall k, single below_one k) /\ s_label below_one = Some (cs "one") /\ s_scope below_one = None /\
  (match dl below_one (cs "two__@l") with Some _ => true | None => false end) = true /\ dl below_one (cs "one__@l") = None /\
  (match add_symbol (cs "@l") below_one with Ok _ s => match dl s (cs "ONE__@l") with Some y => Some (y_name y) | None => None end | _ => None end) = Some (cs "one__@l").
Proof. split; [apply table_okb_ok; vm_compute; reflexivity|]. split; [apply singleb_ok; vm_compute; reflexivity|]. vm_compute. repeat split; reflexivity. Qed.

Example C40_example : fk (local_name (cs "a__") (cs "@b")) <> fk (local_name (cs "a") (cs "@__b")) /\
  fk (local_name (cs "Loop") (cs "@X")) = fk (local_name (cs "lOOP") (cs "@x")).
Proof. split; [vm_compute; congruence|vm_compute; reflexivity]. Qed.
Example C40_example_program : run ["  .org $1000"; "one nop"; "@l bne @l"; "two nop"; "@l bne @l"] =
  Some (mkSum false 0 [234; 208; 254; 234; 208; 254] 0 2).
Proof. vm_compute. reflexivity. Qed.

(** ** C46 *)
Theorem C46_section_restores : forall name i n s x, ~ In 46 name ->
  nth_error (s_nodes s) n = Some (mkNode (KId name i) []) -> n_ops x = [n] ->
  exists s1, x_section x s = Ok 0 s1 /\ s_scope s1 = Some (under (s_scope s) name) /\ x_end_section s1 = Ok 0 s.
Proof. exact (fun name i n s x D H O => ex_intro _ _ (conj (x_section_eq name i n s x H O) (conj eq_refl (section_restored name s D)))). Qed.
Print Assumptions C46_section_restores.

Theorem C46_nesting : forall f l s s', nest_ok l -> run_nest f l s = Some s' ->
  s_scope s' = s_scope s /\ s_errs s' = s_errs s.
Proof. exact run_nest_scope. Qed.
Print Assumptions C46_nesting.

Theorem C46_unmatched : forall s, s_scope s = None ->
  x_end_section s = Ok 0 (set_errs (s_errs s + 1) (set_msgs (error_end_section_without_section :: s_msgs s) s)).
Proof. exact unmatched_ends. Qed.
Print Assumptions C46_unmatched.

(** a section name with a dot is not undone by .ENDS *)
Theorem C46_dotted_refuted : exists s name s1, s_scope s = None /\ name = cs "a.b" /\
  x_end_section (enter name s) = Ok 0 s1 /\ s_scope s1 = Some (cs "a").
Proof. exact w46_dotted. Qed.
Print Assumptions C46_dotted_refuted.

Example C46_example : nest_ok [NSection (cs "a") [NSection (cs "b") []; NStep (set_pc 7)]; NSection (cs "c") []] /\
  option_map s_pc (run_nest 20 [NSection (cs "a") [NSection (cs "b") []; NStep (set_pc 7)]; NSection (cs "c") []] ex_st) = Some 7.
Proof.
  split; [|vm_compute; reflexivity].
  repeat (apply nest_sec || apply nest_step || apply nest_nil); try (vm_compute; intuition congruence); intros; split; reflexivity.
Qed.
Example C46_example_program : run ["  .org $1000"; "  .ends"] = Some (mkSum false (-1) [] 1 1).
Proof. vm_compute. reflexivity. Qed.

(** ** C47 *)
Theorem C47_sorted : forall s, StronglySorted (fun a b => snd a <= snd b) (dump_symbols s).
Proof. exact (fun s => proj1 (dump_sorted s)). Qed.
Print Assumptions C47_sorted.

Theorem C47_complete : forall s k v, In (k, v) (dump_symbols s) <->
  exists a y, In (k, a) (concat (dtable (s_dict s))) /\ nth_error (s_syms s) a = Some y /\ v = y_value y /\
    y_var y = false /\ y_mparam y = false /\ y_mname y = false /\ y_pm y = false /\ y_local y = false /\
    s_pass s * 2 <= y_times y /\ ~ In 64 (y_name y).
Proof. exact dump_complete. Qed.
Print Assumptions C47_complete.

(** each record once *)
Theorem C47_each_once : forall s, Permutation (dump_symbols s) (dump_entries s).
Proof. exact (fun s => proj2 (dump_sorted s)). Qed.
Print Assumptions C47_each_once.

Example C47_example : map snd (dump_symbols (set_pass 0 ex_st)) = [1; 2; 5; 4096; 4101].
Proof. vm_compute. reflexivity. Qed.
