(** Model of the C library function strtol, used by parseargs.cc:304-328,
    pasm.l:37-41 (INT macro) and str.cc:85.  [long] is 64 bits. *)
From Verif Require Import Base.

Definition isspace (c : Z) : bool := (c =? 32) || ((9 <=? c) && (c <=? 13)).

(** value of a digit or letter, [None] for other characters *)
Definition digit_val (c : Z) : option Z :=
  if isdigit c then Some (c - 48)
  else if (97 <=? c) && (c <=? 122) then Some (c - 87)
  else if (65 <=? c) && (c <=? 90) then Some (c - 55)
  else None.

Fixpoint skip_space (s : cstr) : cstr :=
  match s with
  | c :: s' => if isspace c then skip_space s' else s
  | [] => []
  end.

(** accumulate the longest prefix of digits valid in the base *)
Fixpoint acc_digits (base acc : Z) (s : cstr) : Z :=
  match s with
  | c :: s' =>
      match digit_val c with
      | Some v => if v <? base then acc_digits base (acc * base + v) s' else acc
      | None => acc
      end
  | [] => acc
  end.

(** optional "0x" prefix in base 16 (only if a hex digit follows) *)
Definition skip_0x (base : Z) (s : cstr) : cstr :=
  match s with
  | z :: x :: d :: s' =>
      if (base =? 16) && (z =? 48) && (tolower x =? 120) && isxdigit d then d :: s' else s
  | _ => s
  end.

Definition clamp64 (v : Z) : Z := Z.max (- 2 ^ 63) (Z.min (2 ^ 63 - 1) v).

Definition take_sign (s : cstr) : bool * cstr :=
  match s with
  | c :: s' => if c =? 45 then (true, s') else if c =? 43 then (false, s') else (false, s)
  | [] => (false, [])
  end.

Definition strtol (base : Z) (s : cstr) : Z :=
  let '(neg, s2) := take_sign (skip_space s) in
  let v := acc_digits base 0 (skip_0x base s2) in
  clamp64 (if neg then - v else v).

(** (int) strtol(...) *)
Definition strtoi (base : Z) (s : cstr) : Z := i32 (strtol base s).
