(** Model of CMakePasm/source/dictionary.cc, string keys (key_type 0).

    Records ([element]) carry a pointer [value] to a malloc'ed copy of the
    caller's value.  The value memory is modelled by a heap: a list of values
    whose index is the address.  Nothing is ever removed from the heap: [grow]
    leaks the old copies (dictionary.cc:134-135 frees only the table and the
    dict), so a stale pointer still reads the old copy.  [dict_delete] does free
    the value; a use of a freed value is not tracked by this model.
    Simplifications: malloc never fails; [long]/[int] sizes do not overflow. *)
From Verif Require Import Base Hash.

Section Dict.
Context {V : Type}.

Notation elem := (cstr * nat)%type.        (* key, address of value *)

Record dict := mkDict {
  dsize : Z;                 (* size of the pointer table *)
  dcount : Z;                (* number_elements *)
  dcoll : Z;                 (* collisions *)
  dtable : list (list elem)  (* chains, head first *)
}.

Definition heap := list V.

(** dictionary.cc:25-32 initial_size, growth_factor; 45-78 dict_create *)
Definition initial_size : Z := 1024.
Definition growth_factor : Z := 2.
Definition dict_create_sz (size : Z) : dict :=
  mkDict size 0 0 (repeat [] (Z.to_nat size)).
Definition dict_create : dict := dict_create_sz initial_size.

(** bucket index: hash_function(key) % d->size (dictionary.cc:185, 224, 259) *)
Definition slot (d : dict) (k : cstr) : nat := Z.to_nat (hash_function k mod dsize d).

Definition chain (d : dict) (n : nat) : list elem := nth n (dtable d) [].

(** dictionary.cc:153-192: the insertion proper, without the growth test.
    Returns the new dictionary, heap and the address of the copy. *)
Definition dict_insert_raw (d : dict) (h : heap) (k : cstr) (v : V) : dict * heap * nat :=
  let a := length h in
  let n := slot d k in
  let c := chain d n in
  (mkDict (dsize d) (dcount d + 1)
          (match c with [] => dcoll d | _ => dcoll d + 1 end)
          (upd n ((k, a) :: c) (dtable d)),
   h ++ [v], a).

(** dictionary.cc:123-132: re-insert every record, bucket by bucket, each chain
    from its head.  The value copied is the one stored at the old address.
    dict_insert's own growth test cannot fire here (Lemma grow_no_nested), so
    the raw insertion is used. *)
Fixpoint reinsert (es : list elem) (d : dict) (h : heap) : dict * heap :=
  match es with
  | [] => (d, h)
  | (k, a) :: es' =>
      match nth_error h a with
      | None => reinsert es' d h          (* unreachable: addresses are valid *)
      | Some v => let '(d', h', _) := dict_insert_raw d h k v in reinsert es' d' h'
      end
  end.

(** dictionary.cc:113-138 grow *)
Definition dict_grow (d : dict) (h : heap) : dict * heap :=
  reinsert (concat (dtable d)) (dict_create_sz (dsize d * growth_factor)) h.

(** dictionary.cc:220-247 dict_search: first record of the chain whose key is
    stricmp-equal *)
Fixpoint find_chain (c : list elem) (k : cstr) : option nat :=
  match c with
  | [] => None
  | (k', a) :: c' => if stricmp k' k =? 0 then Some a else find_chain c' k
  end.
Definition dict_search (d : dict) (k : cstr) : option nat :=
  find_chain (chain d (slot d k)) k.

(** dictionary.cc:204: number_elements >= (long)((double)size * 0.90).
    For size = 1024*2^k the product is never an integer, so truncation gives
    9*size/10. *)
Definition over_load (d : dict) : bool := dsize d * 9 / 10 <=? dcount d.

(** dictionary.cc:147-211 dict_insert: returns the address of the value, found
    again by a search when the table grew ([None] is NULL). *)
Definition dict_insert (d : dict) (h : heap) (k : cstr) (v : V) : dict * heap * option nat :=
  let '(d1, h1, a) := dict_insert_raw d h k v in
  if over_load d1 then
    let '(d2, h2) := dict_grow d1 h1 in (d2, h2, dict_search d2 k)
  else (d1, h1, Some a).

(** dictionary.cc:255-294 dict_delete: unlink the first stricmp-equal record *)
Fixpoint del_chain (c : list elem) (k : cstr) : option (list elem) :=
  match c with
  | [] => None
  | (k', a) :: c' =>
      if stricmp k' k =? 0 then Some c'
      else match del_chain c' k with None => None | Some r => Some ((k', a) :: r) end
  end.
Definition dict_delete (d : dict) (k : cstr) : dict :=
  let n := slot d k in
  match del_chain (chain d n) k with
  | None => d
  | Some c => mkDict (dsize d) (dcount d - 1) (dcoll d) (upd n c (dtable d))
  end.

End Dict.
