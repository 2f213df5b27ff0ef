(** Model of CMakePasm/eolconvert/eolconvert.cc replace_eol.
    Bytes are 0..255.  File input/output is the byte list read and written; the
    C++ stream is assumed not to translate (it is opened in text mode, which is
    the identity on POSIX). *)
From Verif Require Import Base.

Definition LF : Z := 10.
Definition CR : Z := 13.

(** eolconvert.cc:280-283 is_eol *)
Definition is_eol (ch : Z) : bool := (ch =? CR) || (ch =? LF).

(** eolconvert.cc:236-261 loop; [last] is last_eol (0 initially, never reset by
    other characters), [count] the number of alternating end-of-line characters
    (always 0 or 1 at the loop head). *)
Fixpoint eol_loop (last : Z) (count : Z) (s : list Z) : list Z :=
  match s with
  | [] => []
  | ch :: s' =>
      if negb (is_eol ch) then ch :: eol_loop last 0 s'
      else if negb (ch =? last) then
        let c := count + 1 in
        if c =? 1 then LF :: eol_loop ch c s'
        else if c =? 2 then eol_loop ch 0 s'
        else eol_loop ch c s'
      else LF :: eol_loop last 0 s'
  end.

(** eolconvert.cc:223-277 replace_eol *)
Definition replace_eol (s : list Z) : list Z := eol_loop 0 0 s.

(** eolconvert.cc:326-340 is_text_file: isprint or end of line *)
Definition isprint (c : Z) : bool := (32 <=? c) && (c <=? 126).
Definition is_text (s : list Z) : bool := forallb (fun c => isprint c || is_eol c) s.
