(** Model of CMakePasm/source/str.cc sanitize_string.
    The result is the sequence of bytes stored in [out_str] (as signed chars, a
    stored NUL from "\x00" included), and the number of error() calls.
    [SUB]: the pointer [str] is advanced past the terminating NUL, so the next
    test [*str] reads outside the string (undefined behaviour). *)
From Verif Require Import Base.

Inductive sres := SOk (out : list Z) (errs : nat) | SUB | SFuel.

Definition BSL : Z := 92.   (* backslash *)

(** strtol of one hex digit *)
Definition hexval (c : Z) : Z :=
  if isdigit c then c - 48 else tolower c - 97 + 10.

(** conversion int -> char *)
Definition to_char (v : Z) : Z := if v <? 128 then v else v - 256.

(** str.cc:80-87: all complete hex pairs, then the unread rest *)
Fixpoint hex_pairs (s : cstr) : list Z * cstr :=
  match s with
  | a :: (b :: s') =>
      if isxdigit a && isxdigit b
      then let '(o, r) := hex_pairs s' in (to_char (16 * hexval a + hexval b) :: o, r)
      else ([], s)
  | _ => ([], s)
  end.

(** str.cc:45-71, 90-94: the single-character escapes; [None] = 'x' handled
    apart, [Some (c, err)] otherwise (96-99: default gives '?' and an error) *)
Definition esc_char (c : Z) : Z * nat :=
  let l := tolower c in
  if l =? 97 then (7, 0%nat) else if l =? 98 then (8, 0%nat) else if l =? 102 then (12, 0%nat)
  else if l =? 118 then (11, 0%nat) else if l =? 114 then (13, 0%nat) else if l =? 110 then (10, 0%nat)
  else if l =? 116 then (9, 0%nat)
  else if (l =? 39) || (l =? 34) || (l =? 92) then (c, 0%nat)
  else (63, 1%nat).

Definition scons (c : Z) (e : nat) (r : sres) : sres :=
  match r with SOk o n => SOk (c :: o) (e + n) | x => x end.
Definition sapp (p : list Z) (r : sres) : sres :=
  match r with SOk o n => SOk (p ++ o) n | x => x end.

(** str.cc:39-108 main loop.  A backslash as last character: [*(++str)] is the
    NUL, default case, then str++ steps over the NUL.  "\x" at the end: error,
    break, then str++ steps over the NUL. *)
Fixpoint san (n : nat) (s : cstr) : sres :=
  match n with
  | O => SFuel
  | S n' =>
      match s with
      | [] => SOk [] 0
      | c :: s1 =>
          if c =? BSL then
            match s1 with
            | [] => SUB
            | e :: s2 =>
                if tolower e =? 120 then
                  match s2 with
                  | [] => SUB
                  | _ => let '(o, r) := hex_pairs s2 in sapp o (san n' r)
                  end
                else let '(v, er) := esc_char e in scons v er (san n' s2)
            end
          else scons c 0 (san n' s1)
      end
  end.

Definition sanitize_string (s : cstr) : sres := san (S (length s)) s.
