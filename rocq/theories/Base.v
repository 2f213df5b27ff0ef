(** Basic C-level notions shared by all models. *)
From Coq Require Export List ZArith Lia Bool.
From Coq Require Import Ascii String.
From Coq Require Export ZifyBool ZifyNat.
Export ListNotations.
Open Scope Z_scope.

(** A C string is the list of its characters without the final NUL.
    Characters are the values of a signed [char] (x86 ABI), i.e. -128..127.
    Simplification: lists carry no capacity, buffer limits are modelled only
    where a property is about them. *)
Definition cstr := list Z.

(** [tolower]/[toupper] of <cctype> in the "C" locale, as called from
    hash.cc:11-25, memory.cc:173-185, str.cc:30, pasm.l.  For negative chars
    glibc's table returns the argument unchanged. *)
Definition tolower (c : Z) : Z := if (65 <=? c) && (c <=? 90) then c + 32 else c.
Definition toupper (c : Z) : Z := if (97 <=? c) && (c <=? 122) then c - 32 else c.

(** [isxdigit], [isdigit] of <cctype>. *)
Definition isdigit (c : Z) : bool := (48 <=? c) && (c <=? 57).
Definition isxdigit (c : Z) : bool :=
  isdigit c || ((65 <=? c) && (c <=? 70)) || ((97 <=? c) && (c <=? 102)).

(** unsigned 32-bit wrap (uint32_t arithmetic). *)
Definition u32 (x : Z) : Z := x mod 2 ^ 32.

(** two's complement reading of the low 32 bits (int arithmetic on the
    targets the makefile builds for). *)
Definition i32 (x : Z) : Z := (x + 2 ^ 31) mod 2 ^ 32 - 2 ^ 31.

(** Conversion of Coq string literals to C strings (for examples only). *)
Definition chr (a : ascii) : Z :=
  let n := Z.of_N (N_of_ascii a) in if n <? 128 then n else n - 256.
Fixpoint cs (s : string) : cstr :=
  match s with
  | EmptyString => []
  | String a s' => chr a :: cs s'
  end.

(** memory.cc:173-185 [stricmp]:
    while( *b ) { d = tolower( *a) - tolower( *b); if (d) return d; a++; b++; }
    return tolower( *a);
    Reading [*a] at the end of [a] gives NUL (0). *)
Fixpoint stricmp (a b : cstr) : Z :=
  match b with
  | [] => match a with [] => 0 | x :: _ => tolower x end
  | y :: b' =>
      match a with
      | [] => tolower 0 - tolower y
      | x :: a' =>
          let d := tolower x - tolower y in
          if d =? 0 then stricmp a' b' else d
      end
  end.

(** [strcmp(a,b) == 0] and general list-of-char equality. *)
Fixpoint streq (a b : cstr) : bool :=
  match a, b with
  | [], [] => true
  | x :: a', y :: b' => (x =? y) && streq a' b'
  | _, _ => false
  end.

Definition validc (c : Z) : Prop := -128 <= c <= 127 /\ c <> 0.
Definition valids (s : cstr) : Prop := Forall validc s.

(** list update, used for C arrays *)
Fixpoint upd {A} (n : nat) (x : A) (l : list A) : list A :=
  match l, n with
  | [], _ => []
  | _ :: t, O => x :: t
  | h :: t, S n' => h :: upd n' x t
  end.
