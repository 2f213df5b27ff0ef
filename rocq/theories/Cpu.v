(** Architecture specification, written from the regular structure of the 6502 opcode
    map (opcode = aaabbbcc), not from the program's tables: the documented NMOS 6502
    instruction set and the additions of the WDC 65C02.  Only the vocabulary (names of
    instructions and addressing modes) is shared with the model. *)
From Verif Require Import Base Opcodes.

Definition pick {A} (n : Z) (l : list A) : option A := nth_error l (Z.to_nat n).

(** cc = 01 : the accumulator group *)
Definition dec01 (aaa bbb : Z) : option (Z * Z) :=
  match pick aaa [i_ora; i_and; i_eor; i_adc; i_sta; i_lda; i_cmp; i_sbc],
        pick bbb [m_izx; m_zp; m_I; m_a; m_izy; m_zpx; m_ay; m_ax] with
  | Some i, Some m => if (i =? i_sta) && (m =? m_I) then None else Some (i, m)
  | _, _ => None
  end.

(** cc = 10 : shifts, X transfers, increments *)
Definition dec10 (aaa bbb : Z) : option (Z * Z) :=
  match pick aaa [i_asl; i_rol; i_lsr; i_ror; i_stx; i_ldx; i_dec; i_inc] with
  | None => None
  | Some i =>
      let xidx := (i =? i_stx) || (i =? i_ldx) in
      match bbb with
      | 0 => if i =? i_ldx then Some (i, m_I) else None
      | 1 => Some (i, m_zp)
      | 2 => pick aaa [(i_asl, m_A); (i_rol, m_A); (i_lsr, m_A); (i_ror, m_A);
                       (i_txa, m_i); (i_tax, m_i); (i_dex, m_i); (i_nop, m_i)]
      | 3 => Some (i, m_a)
      | 5 => Some (i, if xidx then m_zpy else m_zpx)
      | 6 => if i =? i_stx then Some (i_txs, m_i) else if i =? i_ldx then Some (i_tsx, m_i) else None
      | 7 => if i =? i_stx then None else Some (i, if xidx then m_ay else m_ax)
      | _ => None
      end
  end.

(** cc = 00 : control group *)
Definition dec00 (aaa bbb : Z) : option (Z * Z) :=
  match bbb with
  | 0 => pick aaa [(i_brk, m_i); (i_jsr, m_a); (i_rti, m_i); (i_rts, m_i); (-1, -1); (i_ldy, m_I); (i_cpy, m_I); (i_cpx, m_I)]
  | 1 => pick aaa [(-1, -1); (i_bit, m_zp); (-1, -1); (-1, -1); (i_sty, m_zp); (i_ldy, m_zp); (i_cpy, m_zp); (i_cpx, m_zp)]
  | 2 => pick aaa [(i_php, m_i); (i_plp, m_i); (i_pha, m_i); (i_pla, m_i); (i_dey, m_i); (i_tay, m_i); (i_iny, m_i); (i_inx, m_i)]
  | 3 => pick aaa [(-1, -1); (i_bit, m_a); (i_jmp, m_a); (i_jmp, m_ind); (i_sty, m_a); (i_ldy, m_a); (i_cpy, m_a); (i_cpx, m_a)]
  | 4 => pick aaa [(i_bpl, m_r); (i_bmi, m_r); (i_bvc, m_r); (i_bvs, m_r); (i_bcc, m_r); (i_bcs, m_r); (i_bne, m_r); (i_beq, m_r)]
  | 5 => pick aaa [(-1, -1); (-1, -1); (-1, -1); (-1, -1); (i_sty, m_zpx); (i_ldy, m_zpx); (-1, -1); (-1, -1)]
  | 6 => pick aaa [(i_clc, m_i); (i_sec, m_i); (i_cli, m_i); (i_sei, m_i); (i_tya, m_i); (i_clv, m_i); (i_cld, m_i); (i_sed, m_i)]
  | 7 => pick aaa [(-1, -1); (-1, -1); (-1, -1); (-1, -1); (-1, -1); (i_ldy, m_ax); (-1, -1); (-1, -1)]
  | _ => None
  end.

(** documented NMOS 6502 opcodes *)
Definition decode6502 (b : Z) : option (Z * Z) :=
  if (b <? 0) || (255 <? b) then None else
  let aaa := b / 32 in let bbb := (b / 4) mod 8 in
  match b mod 4 with
  | 0 => match dec00 aaa bbb with Some (-1, _) => None | d => d end
  | 1 => dec01 aaa bbb
  | 2 => dec10 aaa bbb
  | _ => None
  end.

(** the opcodes the 65C02 adds *)
Definition decode_new65c02 (b : Z) : option (Z * Z) :=
  let hi := b / 16 in
  if b mod 16 =? 7 then                                  (* RMBn zp, SMBn zp *)
    if hi <? 8 then Some (i_rmb0 + hi, m_zp) else Some (i_smb0 + (hi - 8), m_zp)
  else if b mod 16 =? 15 then                            (* BBRn zp,rel  BBSn zp,rel *)
    if hi <? 8 then Some (i_bbr0 + hi, m_r) else Some (i_bbs0 + (hi - 8), m_r)
  else if b mod 32 =? 18 then                            (* (zp) *)
    match pick (b / 32) [i_ora; i_and; i_eor; i_adc; i_sta; i_lda; i_cmp; i_sbc] with
    | Some i => Some (i, m_zpi) | None => None end
  else match b with
  | 0x04 => Some (i_tsb, m_zp) | 0x0C => Some (i_tsb, m_a)
  | 0x14 => Some (i_trb, m_zp) | 0x1C => Some (i_trb, m_a)
  | 0x34 => Some (i_bit, m_zpx) | 0x3C => Some (i_bit, m_ax) | 0x89 => Some (i_bit, m_I)
  | 0x64 => Some (i_stz, m_zp) | 0x74 => Some (i_stz, m_zpx) | 0x9C => Some (i_stz, m_a) | 0x9E => Some (i_stz, m_ax)
  | 0x1A => Some (i_inc, m_A) | 0x3A => Some (i_dec, m_A)
  | 0x5A => Some (i_phy, m_i) | 0x7A => Some (i_ply, m_i) | 0xDA => Some (i_phx, m_i) | 0xFA => Some (i_plx, m_i)
  | 0x7C => Some (i_jmp, m_aix) | 0x80 => Some (i_bra, m_r)
  | 0xCB => Some (i_wai, m_i) | 0xDB => Some (i_stp, m_i)
  | _ => None
  end.

Definition decode65c02 (b : Z) : option (Z * Z) :=
  if (b <? 0) || (255 <? b) then None else
  match decode6502 b with Some d => Some d | None => decode_new65c02 b end.

(** operand bytes of an addressing mode in machine code *)
Definition operand_bytes (i m : Z) : Z :=
  if (m =? m_i) || (m =? m_A) then 0
  else if (m =? m_a) || (m =? m_aix) || (m =? m_ax) || (m =? m_ay) || (m =? m_ind) then 2
  else if (m =? m_r) && (i_bbr0 <=? i) && (i <=? i_bbs7) then 2
  else 1.
