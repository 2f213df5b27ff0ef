(** Model of CMakePasm/source/stacks.cc.
    The element array is a list of length [stack_size]; an uninitialised cell is
    [None].  Failed asserts are [None] results.  malloc never fails. *)
From Verif Require Import Base.

Section Stack.
Context {A : Type}.

Record stack := mkStack { sarr : list (option A); sidx : Z }.

Definition ssize (s : stack) : Z := Z.of_nat (length (sarr s)).

(** stacks.cc:9 clump_size *)
Definition clump_size : nat := 25.

(** stacks.cc:134-147 create_stack: index -1, size 0, no array *)
Definition create_stack : stack := mkStack [] (-1).

(** stacks.cc:19-29 item_at: the assert checks the index only against the
    capacity; it also requires item_array != NULL (i.e. capacity > 0 here).
    Result: [None] failed assert, [Some c] the cell (maybe uninitialised). *)
Definition item_at (s : stack) (i : Z) : option (option A) :=
  if (0 <=? i) && (i <? ssize s) then nth_error (sarr s) (Z.to_nat i) else None.

(** stacks.cc:37-80 push: grow by clump_size when index+1 >= stack_size, store
    at index+1, increment *)
Definition push (s : stack) (x : A) : option stack :=
  if sidx s + 1 <? 0 then None                                   (* assert line 41 *)
  else
    let arr := if ssize s <=? sidx s + 1 then sarr s ++ repeat None clump_size else sarr s in
    Some (mkStack (upd (Z.to_nat (sidx s + 1)) (Some x) arr) (sidx s + 1)).

(** stacks.cc:87-101 pop *)
Definition pop (s : stack) : option (option A * stack) :=
  if (0 <=? sidx s) && (sidx s <? ssize s) then
    match item_at s (sidx s) with
    | None => None
    | Some c => Some (c, mkStack (sarr s) (sidx s - 1))
    end
  else None.

(** stacks.cc:108-114 top *)
Definition top (s : stack) : option (option A) := item_at s (sidx s).

(** stacks.cc:120-127 clear_stack: pop until index < 0 *)
Fixpoint clear_loop (n : nat) (s : stack) : option stack :=
  if sidx s <? 0 then Some s
  else match n with
       | O => None
       | S n' => match pop s with None => None | Some (_, s') => clear_loop n' s' end
       end.
Definition clear_stack (s : stack) : option stack := clear_loop (Z.to_nat (sidx s + 1)) s.

End Stack.
Arguments stack : clear implicits.
