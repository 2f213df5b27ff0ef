(** Model of CMakePasm/source/hash.cc *)
From Verif Require Import Base.

(** hash.cc:13-20, body of the loop over the key: [idx] even -> toupper, odd ->
    tolower; hash += c; hash += hash << 10; hash ^= hash >> 6 (uint32_t). *)
Definition hash_step (h : Z) (odd : bool) (c : Z) : Z :=
  let ch := if odd then tolower c else toupper c in
  let h1 := u32 (h + ch) in
  let h2 := u32 (h1 + Z.shiftl h1 10) in
  Z.lxor h2 (Z.shiftr h2 6).

Fixpoint hash_loop (h : Z) (odd : bool) (s : cstr) : Z :=
  match s with
  | [] => h
  | c :: s' => hash_loop (hash_step h odd c) (negb odd) s'
  end.

(** hash.cc:21-24 final mixing *)
Definition hash_final (h : Z) : Z :=
  let h1 := u32 (h + Z.shiftl h 3) in
  let h2 := Z.lxor h1 (Z.shiftr h1 11) in
  u32 (h2 + Z.shiftl h2 15).

(** hash.cc:11-25 hash_function *)
Definition hash_function (s : cstr) : Z := hash_final (hash_loop 0 false s).

(** hash.cc:27-43 hash_pointer_function: for index 0..7,
    b = (key & (0xFF << (8*index))) >> (8*index), an unsigned char.  [0xFF] is an int, so the
    shift is undefined for counts >= 32 (index >= 4) and, at index 3, shifts
    into the sign bit (0xFF000000, sign extended by the conversion to the
    pointer-sized type).  [None] is undefined behaviour. *)
Definition c_shl_int (x n : Z) : option Z :=
  if (0 <=? n) && (n <? 32) then Some (i32 (Z.shiftl x n)) else None.

Fixpoint hash_ptr_loop (h key idx : Z) (n : nat) : option Z :=
  match n with
  | O => Some h
  | S n' =>
      match c_shl_int 255 (8 * idx) with
      | None => None
      | Some m =>
          let ch := (Z.shiftr (Z.land key (m mod 2 ^ 64)) (8 * idx)) mod 256 in
          let h1 := u32 (h + ch) in
          let h2 := u32 (h1 + Z.shiftl h1 10) in
          hash_ptr_loop (Z.lxor h2 (Z.shiftr h2 6)) key (idx + 1) n'
      end
  end.
Definition hash_pointer_function (key : Z) : option Z :=
  match hash_ptr_loop 0 key 0 8 with
  | None => None
  | Some h => Some (hash_final h)
  end.
