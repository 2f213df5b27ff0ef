(** Model of CMakePasm/source/sym.cc. *)
From Coq Require Import String.
From Verif Require Import Base Hash Dict Opcodes Err State.
Open Scope string_scope.
Open Scope list_scope.
Open Scope Z_scope.
Open Scope m_scope.

(** ** Strings *)
(** decimal digits of printf %d; [digits_fuel] is enough for the numbers printed *)
Fixpoint digits (fuel : nat) (n : Z) (acc : cstr) : cstr :=
  match fuel with
  | O => acc
  | S f => let acc' := (48 + n mod 10) :: acc in if n / 10 =? 0 then acc' else digits f (n / 10) acc'
  end.
Definition dec_str (n : Z) : cstr :=
  if n <? 0 then 45 :: digits (S (Z.to_nat (Z.log2 (- n)))) (- n) [] else digits (S (Z.to_nat (Z.log2 n))) n [].

Definition has_char (c : Z) (s : cstr) : bool := existsb (fun x => x =? c) s.
Definition hd0 (s : cstr) : Z := match s with c :: _ => c | [] => 0 end.     (* name[0] *)

(** "%s.%s" *)
Definition dotted (scope name : cstr) : cstr := scope ++ 46 :: name.
Definition under (scope : option cstr) (name : cstr) : cstr :=
  match scope with Some sc => dotted sc name | None => name end.

(** sym.cc:601-613 format_local_sym: "%s__%s" *)
Definition local_name (label name : cstr) : cstr := label ++ 95 :: 95 :: name.
(** sym.cc:579-599 format_local_plus_minus_sym: "%s__%d__%s" *)
Definition pm_name (label : cstr) (line : Z) (name : cstr) : cstr :=
  label ++ 95 :: 95 :: dec_str line ++ 95 :: 95 :: name.

(** sym.cc:160-162: name[len-1] == ':' is cut off (on a private copy here; the code edits the caller's string,
    which a second call would only edit to the same effect) *)
Definition strip_colon (s : cstr) : cstr :=
  match rev s with 58 :: r => rev r | _ => s end.

(** ** Records *)
Definition y_times_inc (y : symbol) : symbol :=
  mkSym (y_value y) (y_times y + 1) (y_init y) (y_mname y) (y_mparam y) (y_label y) (y_local y) (y_pm y) (y_var y)
        (y_scope y) (y_name y) (y_full y) (y_macro y).
Definition y_set_value (v : Z) (y : symbol) : symbol :=
  mkSym v (y_times y) (y_init y) (y_mname y) (y_mparam y) (y_label y) (y_local y) (y_pm y) (y_var y)
        (y_scope y) (y_name y) (y_full y) (y_macro y).
Definition y_set_init (b : bool) (y : symbol) : symbol :=
  mkSym (y_value y) (y_times y) b (y_mname y) (y_mparam y) (y_label y) (y_local y) (y_pm y) (y_var y)
        (y_scope y) (y_name y) (y_full y) (y_macro y).
Definition y_set_label (b : bool) (y : symbol) : symbol :=
  mkSym (y_value y) (y_times y) (y_init y) (y_mname y) (y_mparam y) b (y_local y) (y_pm y) (y_var y)
        (y_scope y) (y_name y) (y_full y) (y_macro y).
Definition y_set_pm (b : bool) (y : symbol) : symbol :=
  mkSym (y_value y) (y_times y) (y_init y) (y_mname y) (y_mparam y) (y_label y) (y_local y) b (y_var y)
        (y_scope y) (y_name y) (y_full y) (y_macro y).
Definition y_set_var (b : bool) (y : symbol) : symbol :=
  mkSym (y_value y) (y_times y) (y_init y) (y_mname y) (y_mparam y) (y_label y) (y_local y) (y_pm y) b
        (y_scope y) (y_name y) (y_full y) (y_macro y).
Definition y_set_names (sc : option cstr) (nm : cstr) (y : symbol) : symbol :=
  mkSym (y_value y) (y_times y) (y_init y) (y_mname y) (y_mparam y) (y_label y) (y_local y) (y_pm y) (y_var y)
        sc nm (y_full y) (y_macro y).
Definition y_set_macro (m : nat * nat) (y : symbol) : symbol :=
  mkSym (y_value y) (y_times y) (y_init y) true (y_mparam y) (y_label y) (y_local y) (y_pm y) (y_var y)
        (y_scope y) (y_name y) (y_full y) (Some m).

(** sym.cc:519-577 sanitize_symbol: split the name at its last '.' *)
Fixpoint split_last (s : cstr) : option (cstr * cstr) :=
  match s with
  | [] => None
  | c :: s' => match split_last s' with
               | Some (a, b) => Some (c :: a, b)
               | None => if c =? 46 then Some ([], s') else None
               end
  end.
Definition sanitize_symbol (y : symbol) : symbol :=
  match y_mparam y, y_scope y with
  | true, Some _ => y_set_names None (y_name y) y
  | _, _ => match split_last (y_name y) with
            | None => y
            | Some (sec, nm) =>
                y_set_names (Some (match y_scope y with Some sc => dotted sc sec | None => sec end)) nm y
            end
  end.

(** ** Dictionary actions *)
(** dict_search (dictionary.cc:220-247) on symbol_dictionary.  A missing dictionary (NULL) is modelled by an
    empty one. *)
Definition sym_search (k : cstr) : M (option nat) := gets (fun s => dict_search (s_dict s) k).

(** dict_insert followed by sanitize_symbol on the record returned (sym.cc:110-113, 218-221) *)
Definition sym_insert (k : cstr) (y : symbol) : M nat :=
  r <- gets (fun s => dict_insert (s_dict s) (s_syms s) k y) ;;
  let '(d, h, a) := r in
  modify (fun s => set_dict d (set_syms h s)) ;;;
  match a with
  | None => ub UbNull
  | Some a => y' <- sym_get a ;; sym_set a (sanitize_symbol y') ;;; ret a
  end.

(** sym.cc:237-275 look_up_symbol, with the value of current_scope as a parameter *)
Definition look_up_in (sc : option cstr) (name : cstr) : M (option nat) :=
  let bump a := y <- sym_get a ;; sym_set a (y_times_inc y) ;;; ret (Some a) in
  let global := r <- sym_search name ;; match r with Some a => bump a | None => ret None end in
  match sc with
  | None => global
  | Some c => r <- sym_search (dotted c name) ;; match r with Some a => bump a | None => global end
  end.
Definition look_up_symbol (name : cstr) : M (option nat) := sc <- gets s_scope ;; look_up_in sc name.

Definition new_symbol (mparam local pm init : bool) (sc : option cstr) (nm full : cstr) : symbol :=
  mkSym 0 0 init false mparam false local pm false sc nm full None.

(** sym.cc:76-114 add_plus_minus_sym *)
Definition add_plus_minus_sym (name : cstr) : M nat :=
  l <- gets s_label ;;
  let lab := match l with Some x => x | None => [] end in
  modify (set_label (Some lab)) ;;;
  line <- gets s_line ;; sc <- gets s_scope ;;
  let nm := pm_name lab line name in
  sym_insert (under sc nm) (new_symbol false false true false sc nm (under sc nm)).

(** sym.cc:127-222 add_symbol ([None] is NULL).  The empty name, which the lexer cannot produce, would read
    name[-1]. *)
Definition add_symbol (name : cstr) : M (option nat) :=
  if stricmp name (cs "A") =? 0 then ret None
  else if (hd0 name =? 43) || (hd0 name =? 45) then a <- add_plus_minus_sym name ;; ret (Some a)
  else
    cur <- gets s_scope ;;
    let sc := if has_char 46 name then None else cur in
    let name1 := match name with 46 :: r => r | _ => name end in
    let mparam := hd0 name1 =? 92 in
    let local := hd0 name1 =? 64 in
    l <- gets s_label ;;
    let name2 := match local, l with true, Some lab => local_name lab name1 | _, _ => name1 end in
    match name2 with
    | [] => ub UbString
    | _ =>
        let nm := strip_colon name2 in
        r <- look_up_in sc nm ;;
        match r with
        | Some a => ret (Some a)
        | None =>
            let at_ := hd0 nm =? 64 in
            a <- sym_insert (under sc nm) (new_symbol mparam (local || at_) false at_ sc nm (under sc nm)) ;;
            ret (Some a)
        end
    end.

(** sym.cc:277-298 set_symbol_value (result NULL: the value was refused).  changed_sym_stack, which is only
    printed, is left out. *)
Definition set_symbol_value (a : nat) (v : Z) : M unit :=
  y <- sym_get a ;;
  if y_value y =? v then ret tt
  else if over v 65535 && negb (y_var y) then err error_value_out_of_range
  else
    sym_set a (y_set_value v y) ;;;
    when (negb (y_mparam y) && negb (y_var y)) (modify (fun s => set_changed (s_changed s + 1) s)).

(** ** Plus and minus labels *)
(** sym.cc:58-74 *)
Definition pm_cmp (a b : pmsym) : Z :=
  let r := stricmp (pm_file a) (pm_file b) in if r =? 0 then pm_line a - pm_line b else r.

(** sym.cc:300-326 find_plus/minus_symbol_definition; -1 is [None] *)
Fixpoint find_def (t : list pmsym) (file : cstr) (line : Z) (i : Z) : option Z :=
  match t with
  | [] => None
  | e :: t' => if pm_cmp e (mkPm file line 0) =? 0 then Some i else find_def t' file line (i + 1)
  end.

(** sym.cc:328-352 find_minus_symbol.  The guard of line 348 is always true. *)
Fixpoint last_before (t : list pmsym) (file : cstr) (line : Z) (i found : Z) : Z :=
  match t with
  | [] => found
  | e :: t' => last_before t' file line (i + 1)
                 (if (stricmp file (pm_file e) =? 0) && (pm_line e <=? line) then i else found)
  end.
Definition find_minus (t : list pmsym) (depth : Z) (file : cstr) (line : Z) : Z :=
  let f := last_before t file line 0 (-1) in if 0 <=? f then f + 1 - depth else -1.

(** sym.cc:354-376 find_plus_symbol *)
Fixpoint first_after (t : list pmsym) (file : cstr) (line : Z) (i : Z) : Z :=
  match t with
  | [] => -1
  | e :: t' => if (stricmp file (pm_file e) =? 0) && (line <? pm_line e) then i else first_after t' file line (i + 1)
  end.
Definition find_plus (t : list pmsym) (depth : Z) (file : cstr) (line : Z) : Z :=
  let f := first_after t file line 0 in if 0 <=? f then f - 1 + depth else -1.

(** sym.cc:378-437: append and sort.  The table is always sorted and a (file, line) is added only once
    (find_def is asked first), so qsort's result is the sorted insertion. *)
Fixpoint pm_insert (e : pmsym) (t : list pmsym) : list pmsym :=
  match t with
  | [] => [e]
  | x :: t' => if pm_cmp e x <? 0 then e :: t else x :: pm_insert e t'
  end.

Definition pm_table (minus : bool) (s : state) : list pmsym := if minus then s_minus s else s_plus s.
Definition set_pm_table (minus : bool) (t : list pmsym) (s : state) : state :=
  if minus then set_minus t s else set_plus t s.

(** add_minus_symbol, add_plus_symbol *)
Definition add_pm (minus : bool) (file : cstr) (line value : Z) : M unit :=
  ms <- gets s_mstack ;;
  match ms with
  | _ :: _ => err error_plus_sym_not_allowed_in_macro
  | [] => modify (fun s => set_pm_table minus (pm_insert (mkPm file line value) (pm_table minus s)) s)
  end.

(** ** Macro parameters *)
(** sym.cc:224-230 look_up_macro_param.  Simplification: parameter numbers have at most 7 digits (the buffer
    holds 9 bytes). *)
Definition param_name (n : Z) : cstr := 92 :: dec_str n.

(** sym.cc:448-485 push_macro_params: \1 .. \max; a missing one is an error and nothing is pushed *)
Fixpoint param_values (k : nat) (n : Z) : M (option (list Z)) :=
  match k with
  | O => ret (Some [])
  | S k =>
      r <- sym_search (param_name n) ;;
      match r with
      | None => err error_macro_parameter_not_found ;;; ret None
      | Some a => y <- sym_get a ;; vs <- param_values k (n + 1) ;;
                  ret (match vs with Some l => Some (y_value y :: l) | None => None end)
      end
  end.
Definition push_macro_params : M unit :=
  mx <- gets s_maxmp ;;
  vs <- param_values (Z.to_nat mx) 1 ;;
  match vs with
  | None => ret tt
  | Some l => modify (fun s => set_mstack (l :: s_mstack s) s)
  end.

(** sym.cc:487-517 pop_macro_params *)
Fixpoint restore_params (l : list Z) (n : Z) : M unit :=
  match l with
  | [] => ret tt
  | v :: l =>
      r <- sym_search (param_name n) ;;
      match r with
      | None => err error_macro_parameter_not_found
      | Some a => set_symbol_value a v ;;; restore_params l (n + 1)
      end
  end.
Definition pop_macro_params : M unit :=
  ms <- gets s_mstack ;;
  match ms with
  | [] => err error_macro_parameter_under_flow ;;; exit_ (-1)
  | l :: ms' => modify (set_mstack ms') ;;; restore_params l 1
  end.

(** ** Counting and dumping *)
(** records in table order (sym.cc:661-664, 795-797) *)
Definition all_records (s : state) : list (cstr * symbol) :=
  flat_map (fun e : cstr * nat => match nth_error (s_syms s) (snd e) with Some y => [(fst e, y)] | None => [] end)
           (concat (dtable (s_dict s))).

(** sym.cc:799-804 *)
Definition unresolved (y : symbol) : bool :=
  negb (y_init y) && negb (y_mname y) && negb (y_var y) && negb (y_pm y) && negb (y_mparam y).
Definition unresolved_symbol_count (s : state) : Z :=
  Z.of_nat (length (filter (fun e => unresolved (snd e)) (all_records s))).

(** sym.cc:667-674 the entries dump_symbols prints, before sorting: key and value *)
Definition dumped (pass : Z) (y : symbol) : bool :=
  negb (y_var y) && negb (y_mparam y) && negb (y_mname y) && negb (y_pm y) && negb (y_local y) &&
  (pass * 2 <=? y_times y) && negb (has_char 64 (y_name y)).
Definition dump_entries (s : state) : list (cstr * Z) :=
  map (fun e => (fst e, y_value (snd e))) (filter (fun e => dumped (s_pass s) (snd e)) (all_records s)).
(** qsort by value (sym.cc:643-649, 681).  qsort may order equal values in any way; insertion sort is one
    such way. *)
Fixpoint val_insert (e : cstr * Z) (l : list (cstr * Z)) : list (cstr * Z) :=
  match l with
  | [] => [e]
  | x :: l' => if snd e <? snd x then e :: l else x :: val_insert e l'
  end.
Definition dump_symbols (s : state) : list (cstr * Z) := fold_right val_insert [] (dump_entries s).
