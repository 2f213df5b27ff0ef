(** Model of CMakePasm/source/file.cc: open_file (73-112) and the line splitting of
    read_file_lines (119-162).  The file system is the set of names fopen succeeds on. *)
From Verif Require Import Base.

Definition path_max : Z := 4096.        (* file.cc:25 *)
Definition max_line_len : Z := 2048.    (* pasm.h:7 *)

Inductive ores := OFound (p : cstr) | ONone | OExitTooLong | OFuel.

(** file.cc:87-94: copy one component; returns it with the remaining text *)
Fixpoint take_comp (dir : cstr) (len : Z) : cstr * cstr :=
  match dir with
  | c :: dir' =>
      if (c =? 59) || negb (len <? path_max - 1) then ([], dir)
      else let '(p, r) := take_comp dir' (len + 1) in (c :: p, r)
  | [] => ([], [])
  end.

Fixpoint skip_blank (dir : cstr) : cstr :=
  match dir with
  | c :: dir' => if (c =? 32) || (c =? 9) then skip_blank dir' else dir
  | [] => []
  end.

Fixpoint search_dirs (fuel : nat) (fs : cstr -> bool) (file dir : cstr) : ores :=
  match fuel with
  | O => OFuel
  | S fuel =>
      match dir with
      | [] => ONone
      | _ =>
          let '(comp, rest) := take_comp dir 0 in
          if path_max <=? Z.of_nat (length comp) + Z.of_nat (length file) + 2 then OExitTooLong
          else if fs (comp ++ file) then OFound (comp ++ file)
          else
            let rest := match rest with 59 :: r => r | _ => rest end in
            search_dirs fuel fs file (skip_blank rest)
      end
  end.

(** file.cc:73-112 ([dirs] = None models directories == NULL) *)
Definition open_file (fs : cstr -> bool) (dirs : option cstr) (file : cstr) : ores :=
  if fs file then OFound file
  else match dirs with
       | None => ONone
       | Some d => search_dirs (S (length d)) fs file d
       end.

(** fgets(internal_buffer, max_line_len, file): at most max_line_len-1 characters,
    stopping after a newline.  Simplification: the file holds no NUL byte. *)
Fixpoint fgets (n : Z) (s : cstr) : cstr * cstr :=
  match s with
  | c :: s' =>
      if n <=? 0 then ([], s)
      else if c =? 10 then ([c], s')
      else let '(l, r) := fgets (n - 1) s' in (c :: l, r)
  | [] => ([], [])
  end.

(** file.cc:133-159: (line_number, line_content) list *)
Fixpoint read_lines (fuel : nat) (line : Z) (s : cstr) : list (Z * cstr) :=
  match fuel with
  | O => []
  | S fuel =>
      match s with
      | [] => []
      | _ => let '(l, r) := fgets (max_line_len - 1) s in (line, l) :: read_lines fuel (line + 1) r
      end
  end.

Definition read_file_lines (s : cstr) : list (Z * cstr) := read_lines (length s) 1 s.
