(** Properties of the opcode tables (C09, C10, C11).  [decode6502] and [decode65c02] (Cpu.v) are written
    from the bit fields of the instruction set, not from the tables. *)
From Verif Require Import Base Opcodes Cpu OpcodesProofs OpcodesMore.
Open Scope Z_scope.

(** ** C09 *)
Theorem C09_table_sound : forall ill i m c, 0 <= i < 98 -> get_op_code false ill i m = c -> c <> -1 ->
  0 <= c < 256 /\ decode6502 c = Some (i, canon false i m).
Proof. exact ops6502_sound. Qed.
Print Assumptions C09_table_sound.

Theorem C09_table_complete : forall ill b i m, 0 <= b < 256 -> decode6502 b = Some (i, m) ->
  get_op_code false ill i m = b.
Proof. exact ops6502_complete. Qed.
Print Assumptions C09_table_complete.

Theorem C09_undocumented_needs_flag : forall i m, 98 <= i -> get_op_code false false i m = -1.
Proof. exact illegal_needs_flag. Qed.
Print Assumptions C09_undocumented_needs_flag.

Theorem C09_65C02_sound : forall ill i m c, 0 <= i < 98 -> get_op_code true ill i m = c -> c <> -1 ->
  zpi_slot i m = false -> 0 <= c < 256 /\ decode65c02 c = Some (i, canon true i m).
Proof. exact ops65c02_sound. Qed.
Print Assumptions C09_65C02_sound.

Theorem C09_65C02_complete : forall ill b i m, 0 <= b < 256 -> decode65c02 b = Some (i, m) ->
  zpi_slot i m = false -> get_op_code true ill i m = b.
Proof. exact ops65c02_complete. Qed.
Print Assumptions C09_65C02_complete.

(** the flag adds codes and takes none away *)
Theorem C09_flag_only_adds : forall c02 i m, get_op_code c02 false i m <> -1 ->
  get_op_code c02 true i m = get_op_code c02 false i m.
Proof. exact illegal_flag_adds. Qed.
Print Assumptions C09_flag_only_adds.

Example C09_example : get_op_code false false i_lda m_I = 169 /\ decode6502 169 = Some (i_lda, m_I) /\
  get_op_code false false i_jmp m_ind = 108 /\ get_op_code false false i_slo m_zp = -1 /\
  get_op_code false true i_slo m_zp = 7 /\ get_op_code true false i_bra m_r = 128.
Proof. exact opcode_example. Qed.

(** ** C10 *)
Theorem C10_opcode_injective : forall ill i m i' m',
  get_op_code false ill i m = get_op_code false ill i' m' -> get_op_code false ill i m <> -1 ->
  i = i' /\ canon false i m = canon false i' m'.
Proof. exact opcode_injective_6502. Qed.
Print Assumptions C10_opcode_injective.

Theorem C10_opcode_injective_65C02_partial : forall ill i m i' m', i < 98 -> i' < 98 ->
  get_op_code true ill i m = get_op_code true ill i' m' -> get_op_code true ill i m <> -1 ->
  i = i' /\ canon true i m = canon true i' m'.
Proof. exact opcode_injective_65c02. Qed.
Print Assumptions C10_opcode_injective_65C02_partial.

Theorem C10_opcode_injective_65C02_refuted : exists i m i' m',
  get_op_code true false i m = get_op_code true false i' m' /\ get_op_code true false i m <> -1 /\ i <> i'.
Proof. exact opcode_collision_65c02. Qed.
Print Assumptions C10_opcode_injective_65C02_refuted.

(** ** C11 (table part; the encoding part is in the output model) *)
Theorem C11_zpi_column_empty : forall ill b i, 0 <= b < 256 -> decode65c02 b = Some (i, m_zpi) ->
  get_op_code true ill i m_zpi = -1 /\ get_op_code true ill i m_ind = b.
Proof. exact ops65c02_zpi. Qed.
Print Assumptions C11_zpi_column_empty.

Example C11_example : decode65c02 178 = Some (i_lda, m_zpi).
Proof. exact zpi_example. Qed.
