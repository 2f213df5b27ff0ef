(** Architecture specification: execution of the few 6502 instructions the assembler itself generates code with
    (far branches, register loops).  Written from the processor's description, not from the program; the instruction
    is decoded with [Cpu.decode6502].  Registers other than X and Y, and memory, do not matter to these instructions:
    memory is read only. *)
From Verif Require Import Base Opcodes Cpu.
Open Scope Z_scope.

(** the decoder the instruction set selects *)
Definition decode (c02 : bool) : Z -> option (Z * Z) := if c02 then decode65c02 else decode6502.
Definition signed (b : Z) : Z := if b <? 128 then b else b - 256.

Record cpu := mkCpu { g_pc : Z; g_x : Z; g_y : Z; g_n : bool; g_v : bool; g_z : bool; g_c : bool }.

(** is the branch taken *)
Definition taken (i : Z) (c : cpu) : option bool :=
  if i =? i_bpl then Some (negb (g_n c)) else if i =? i_bmi then Some (g_n c)
  else if i =? i_bvc then Some (negb (g_v c)) else if i =? i_bvs then Some (g_v c)
  else if i =? i_bcc then Some (negb (g_c c)) else if i =? i_bcs then Some (g_c c)
  else if i =? i_bne then Some (negb (g_z c)) else if i =? i_beq then Some (g_z c)
  else if i =? i_bra then Some true else None.

Definition goto (pc : Z) (c : cpu) : cpu := mkCpu (pc mod 65536) (g_x c) (g_y c) (g_n c) (g_v c) (g_z c) (g_c c).
(** negative and zero flag of a result byte *)
Definition nz (r : Z) (c : cpu) : cpu := mkCpu (g_pc c) (g_x c) (g_y c) (127 <? r) (g_v c) (r =? 0) (g_c c).
Definition put_x (r : Z) (c : cpu) : cpu := nz r (mkCpu (g_pc c) r (g_y c) (g_n c) (g_v c) (g_z c) (g_c c)).
Definition put_y (r : Z) (c : cpu) : cpu := nz r (mkCpu (g_pc c) (g_x c) r (g_n c) (g_v c) (g_z c) (g_c c)).
Definition compare (r b : Z) (c : cpu) : cpu :=
  nz ((r - b) mod 256) (mkCpu (g_pc c) (g_x c) (g_y c) (g_n c) (g_v c) (g_z c) (b <=? r)).

Definition step (c02 : bool) (mem : Z -> Z) (c : cpu) : option cpu :=
  let pc := g_pc c in
  let b := mem (pc + 1) in
  match decode c02 (mem pc) with
  | None => None
  | Some (i, m) =>
      if m =? m_r then
        match taken i c with
        | Some true => Some (goto (pc + 2 + signed b) c)
        | Some false => Some (goto (pc + 2) c)
        | None => None
        end
      else if (i =? i_jmp) && (m =? m_a) then Some (goto (b + 256 * mem (pc + 2)) c)
      else if (i =? i_ldx) && (m =? m_I) then Some (goto (pc + 2) (put_x b c))
      else if (i =? i_ldy) && (m =? m_I) then Some (goto (pc + 2) (put_y b c))
      else if (i =? i_cpx) && (m =? m_I) then Some (goto (pc + 2) (compare (g_x c) b c))
      else if (i =? i_cpy) && (m =? m_I) then Some (goto (pc + 2) (compare (g_y c) b c))
      else if i =? i_inx then Some (goto (pc + 1) (put_x ((g_x c + 1) mod 256) c))
      else if i =? i_dex then Some (goto (pc + 1) (put_x ((g_x c - 1) mod 256) c))
      else if i =? i_iny then Some (goto (pc + 1) (put_y ((g_y c + 1) mod 256) c))
      else if i =? i_dey then Some (goto (pc + 1) (put_y ((g_y c - 1) mod 256) c))
      else None
  end.

(** the bytes [l] lie in memory at [pc] *)
Definition holds (mem : Z -> Z) (pc : Z) (l : list Z) : Prop :=
  forall i, (i < length l)%nat -> mem (pc + Z.of_nat i) = nth i l 0.
Fixpoint steps (n : nat) (c02 : bool) (mem : Z -> Z) (c : cpu) : option cpu :=
  match n with O => Some c | S k => match step c02 mem c with Some c' => steps k c02 mem c' | None => None end end.
