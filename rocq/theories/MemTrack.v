(** Model of the debug allocator CMakePasm/source/memory.cc:47-145 with
    track_malloc = true.  Simplification: the pointer-keyed dictionary
    (dict_create(sizeof(memory_entry), -1)) is an association list searched from
    the most recent insertion; the address the C allocator hands back is an
    input of the operation, and the C allocator never fails. *)
From Verif Require Import Base.

Record mentry := mkEntry { e_size : Z; e_mem : Z; e_deleted : Z }.

Record mstate := mkMem { m_tab : option (list (Z * mentry)); m_total : Z; m_errors : Z }.

Definition mem0 : mstate := mkMem None 0 0.

Definition tab (m : mstate) : list (Z * mentry) := match m_tab m with Some t => t | None => [] end.

Fixpoint mfind (t : list (Z * mentry)) (p : Z) : option mentry :=
  match t with
  | [] => None
  | (k, e) :: t' => if k =? p then Some e else mfind t' p
  end.

(** update in place of the record dict_search returned *)
Fixpoint mset (t : list (Z * mentry)) (p : Z) (e : mentry) : list (Z * mentry) :=
  match t with
  | [] => []
  | (k, e0) :: t' => if k =? p then (k, e) :: t' else (k, e0) :: mset t' p e
  end.

(** memory.cc:47-67 *)
Definition pasm_malloc (size addr : Z) (m : mstate) : mstate :=
  mkMem (Some ((addr, mkEntry size addr 0) :: tab m)) (m_total m + size) (m_errors m).

(** memory.cc:69-108; [addr] is what realloc (or malloc) returns *)
Definition pasm_realloc (p size addr : Z) (m : mstate) : mstate :=
  match mfind (tab m) p with
  | Some e => mkMem (Some (mset (tab m) p (mkEntry size addr (e_deleted e)))) (m_total m - e_size e + size) (m_errors m)
  | None => mkMem (Some ((addr, mkEntry size addr 0) :: tab m)) (m_total m + size) (m_errors m)
  end.

(** memory.cc:111-145; dict_delete(alloc_dict, entry) passes the record instead of
    the key, which no key equals, so nothing is removed.  None = exit(-1). *)
Definition pasm_free (p : Z) (m : mstate) : option mstate :=
  match m_tab m with
  | None => None
  | Some t =>
      match mfind t p with
      | Some e =>
          if e_deleted e =? 0
          then Some (mkMem (Some (mset t p (mkEntry (e_size e) (e_mem e) (e_deleted e + 1)))) (m_total m - e_size e) (m_errors m))
          else Some (mkMem (Some t) (m_total m) (m_errors m + 1))
      | None => Some (mkMem (Some t) (m_total m) (m_errors m + 1))
      end
  end.

Inductive mop := MMalloc (size addr : Z) | MRealloc (p size addr : Z) | MFree (p : Z).

Definition mem_step (m : mstate) (o : mop) : option mstate :=
  match o with
  | MMalloc s a => Some (pasm_malloc s a m)
  | MRealloc p s a => Some (pasm_realloc p s a m)
  | MFree p => pasm_free p m
  end.

Fixpoint mem_run (m : mstate) (os : list mop) : option mstate :=
  match os with
  | [] => Some m
  | o :: os' => match mem_step m o with Some m' => mem_run m' os' | None => None end
  end.
