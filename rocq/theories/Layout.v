(** What a program of labels, assignments, instructions and data stands for: the bytes of its statements one after
    the other, where labels denote the addresses of the statements they are written at.  Nothing here refers to the
    assembler's state. *)
From Coq Require Import String Lia.
From Verif Require Import Base Opcodes Cpu Err State Sym Machine Build Pass Sem ExprProofs OpProofs OpMore InstrProofs DataProofs DataWalk BadProofs Colon.
Open Scope string_scope.
Open Scope list_scope.
Open Scope Z_scope.

(** implied or accumulator mode, or a mode of the source text with an operand *)
Definition form (f : opform) : Z + (Z * expr) :=
  match f with
  | FImp => inl m_i
  | FAbs (ESym n) => if is_A n then inl m_A else inr (m_a, ESym n)
  | FImm e => inr (m_I, e) | FAbs e => inr (m_a, e) | FAbsX e => inr (m_ax, e) | FAbsY e => inr (m_ay, e)
  | FInd e => inr (m_ind, e) | FIndX e => inr (m_aix, e) | FIndY e => inr (m_izy, e)
  end.

(** statements that never have bytes *)
Definition silent (st : stmt) : bool := match st with SEmpty | SAssign _ _ => true | _ => false end.
(** the new program counter of a line .ORG e or * = e *)
Definition move_of (l : tline) : option expr :=
  match t_label l, t_stmt l with None, SOrg e => Some e | None, SPcAssign e => Some e | _, _ => None end.

Section Bytes.
(** the processor: 65C02, undocumented opcodes *)
Variables c02 ill : bool.
Definition opc (instr m : Z) : Z := get_op_code c02 ill instr m.
Definition has (instr m : Z) : bool := negb (opc instr m =? -1).
(** names denote [env]; * is [pc] *)
Variable env : cstr -> Z.
Definition value (pc : Z) (e : expr) : option Z := match sem env pc e with Some (v, 0) => Some v | _ => None end.

Definition op_bytes (pc instr : Z) (f : opform) : option (list Z) :=
  match form f with
  | inl k => if has instr k then Some [opc instr k] else None
  | inr (m, e) =>
      if usable (has instr) m then
        match value pc e with
        | Some v =>
            let '(k, refused) := select (has instr) m v in
            if refused then None
            else if far k pc v then
              match value (pc + 2) e with
              | Some w => Some (map byte [opc (invert instr) m_r; 3; 76; w; w / 256])
              | None => None
              end
            else Some (map byte (opc instr k :: operand k pc v))
        | None => None
        end
      else None
  end.
Definition stmt_bytes (pc : Z) (st : stmt) : option (list Z) :=
  match st with
  | SEmpty | SAssign _ _ => Some []
  | SOp instr f => op_bytes pc instr f
  | SData size l => option_map (map byte) (items_bytes env size pc l)
  | _ => None
  end.

(** the number of bytes, which does not need the values of data *)
Definition op_size (pc instr : Z) (f : opform) : option Z :=
  match form f with
  | inl k => Some 1
  | inr (m, e) =>
      match value pc e with
      | Some v => let k := fst (select (has instr) m v) in Some (if far k pc v then 5 else 1 + nbytes k)
      | None => None
      end
  end.
Definition stmt_size (pc : Z) (st : stmt) : option Z :=
  match st with
  | SOp instr f => op_size pc instr f
  | SData size l => Some (isizes size l)
  | _ => Some 0
  end.

(** the definitions of a line at [pc] hold in [env]; a label may be written with a colon *)
Definition defs_hold (pc : Z) (l : tline) : Prop :=
  match t_label l with Some t => env (uncolon t) = pc | None => True end /\
  match t_stmt l with SAssign n e => value pc e = Some (env n) | _ => True end.

(** the bytes of the lines from [pc] on *)
Inductive layout : Z -> list tline -> list Z -> Prop :=
| LayNil pc : layout pc [] []
| LayCons pc l ls b r : defs_hold pc l -> stmt_bytes pc (t_stmt l) = Some b -> layout (pc + Z.of_nat (length b)) ls r ->
    layout pc (l :: ls) (b ++ r).
(** the bytes of each line, with its number *)
Inductive lined : Z -> list tline -> list (Z * list Z) -> Prop :=
| LinNil pc : lined pc [] []
| LinCons pc l ls b r : stmt_bytes pc (t_stmt l) = Some b -> lined (pc + Z.of_nat (length b)) ls r -> lined pc (l :: ls) ((t_line l, b) :: r).
(** the lines from [pc] on, some of which set the program counter: the number, the address and the bytes of each instruction and data line *)
Inductive arranged : Z -> list tline -> list (Z * Z * list Z) -> Prop :=
| ArNil pc : arranged pc [] []
| ArMove pc l ls e v r : move_of l = Some e -> value pc e = Some v -> arranged v ls r -> arranged pc (l :: ls) r
| ArSilent pc l ls r : move_of l = None -> silent (t_stmt l) = true -> defs_hold pc l -> arranged pc ls r -> arranged pc (l :: ls) r
| ArCons pc l ls b r : move_of l = None -> silent (t_stmt l) = false -> defs_hold pc l -> stmt_bytes pc (t_stmt l) = Some b ->
    arranged (pc + Z.of_nat (length b)) ls r -> arranged pc (l :: ls) ((t_line l, pc, b) :: r).
End Bytes.
(** the bytes one after the other *)
Definition packed (ch : list (Z * Z * list Z)) : list Z := concat (map snd ch).
(** the load address of a C64 file: the address of the first instruction or data line *)
Definition load_address (ch : list (Z * Z * list Z)) : list Z := match ch with (_, a, _) :: _ => [a mod 256; a / 256 mod 256] | [] => [] end.
