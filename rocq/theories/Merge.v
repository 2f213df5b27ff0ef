(** The relocation tool of the supermon sample and the stub that reads its output.
    CMakePasm/samples/Commodore/supermon64-master/mergerelocate.cpp, relocate.asm. *)
From Coq Require Export List ZArith.
Export ListNotations.
Open Scope Z_scope.

(** mergerelocate.cpp:47 *)
Definition marker : Z := 54.

(** mergerelocate.cpp:29-34 GetInt at the head of a buffer; reading past the end is undefined *)
Definition get_int (l : list Z) : option Z := match l with a :: b :: _ => Some (a + b * 256) | _ => None end.

(** mergerelocate.cpp:79-101 the while loop; the lists are mon1 and mon2 from index i on.  [mon1Sz > i + 1] is
    "a second byte exists"; both vectors have the same size.  [end1] is taken back to int. *)
Fixpoint merge_loop (fuel : nat) (end1 : Z) (m1 m2 : list Z) : list Z :=
  match fuel with
  | O => []
  | S f =>
      match m1, m2 with
      | [], _ | _, [] => []
      | a1 :: r1, _ :: r2 =>
          match r1, r2 with
          | b1 :: t1, b2 :: t2 =>
              if negb (b1 =? b2)
              then let offset := a1 + b1 * 256 - end1 in
                   offset mod 256 :: offset / 256 mod 256 :: marker :: merge_loop f end1 t1 t2
              else a1 :: merge_loop f end1 r1 r2
          | _, _ => a1 :: merge_loop f end1 r1 r2
          end
      end
  end.

Inductive merge_result := MergeOk (out : list Z) | MergeBadLength | MergeUb.
(** mergerelocate.cpp:36-104 main with readable inputs and a writable output (the file errors exit with 1).
    Files shorter than two bytes make GetInt and erase undefined.  Sizes are below 2^31. *)
Definition merge (stub mon1 mon2 : list Z) : merge_result :=
  if negb (Nat.eqb (length mon1) (length mon2)) then MergeBadLength
  else match get_int mon1 with
       | None => MergeUb
       | Some org1 =>
           let end1 := org1 + Z.of_nat (length mon1) - 2 in
           MergeOk (stub ++ [marker; marker] ++ merge_loop (S (length mon1)) end1 (skipn 2 mon1) (skipn 2 mon2))
       end.

(** relocate.asm:47-99: the stub reads downwards from the end of the file and writes downwards from TOPMEM.
    The first argument is the file, last byte first; [acc] is the memory from TARGET to TOPMEM.  [None]: the stub
    runs out of the file.  The low byte addition sets the carry the high byte addition uses (ADC after CLC).
    Pointer arithmetic (address wrap) is left out. *)
Fixpoint reloc (top : Z) (l : list Z) (acc : list Z) : option (list Z) :=
  match l with
  | [] => None
  | c :: r =>
      if c =? marker
      then match r with
           | [] => None
           | hi :: r =>
               if hi =? marker then Some acc
               else match r with
                    | [] => None
                    | lo :: r =>
                        let sum := lo + top mod 256 in
                        reloc top r (sum mod 256 :: (hi + top / 256 mod 256 + sum / 256) mod 256 :: acc)
                    end
           end
      else reloc top r (c :: acc)
  end.
Definition relocate (top : Z) (file : list Z) : option (list Z) := reloc top (rev file) [].

(** ** Specification *)
(** A program: bytes that do not depend on where it is placed, and addresses.  Assembled at [org], the addresses are
    [w + org], stored low byte first. *)
Inductive part := Lit (b : Z) | Adr (w : Z).
Definition part_bytes (org : Z) (p : part) : list Z :=
  match p with Lit b => [b] | Adr w => [(w + org) mod 256; (w + org) / 256 mod 256] end.
Definition image (org : Z) (l : list part) : list Z := flat_map (part_bytes org) l.
(** a C64 file: load address and bytes *)
Definition prg (org : Z) (l : list part) : list Z := org mod 256 :: org / 256 mod 256 :: image org l.
Definition size (l : list part) : Z := Z.of_nat (length (image 0 l)).
(** the tool has no escape for its marker: no plain byte $36, and no address whose distance from the end of the
    program has the high byte $36 *)
Definition markable (sz : Z) (p : part) : Prop :=
  match p with Lit b => 0 <= b < 256 /\ b <> marker | Adr w => (w - sz) / 256 mod 256 <> marker end.
