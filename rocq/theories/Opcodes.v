(** The opcode tables of CMakePasm/source/opcodes.cc (ops6502, lines 167-299; ops65c02, lines
    305-438), transcribed by script, and get_op_code (opcodes.cc:447-466).  Instructions and
    addressing modes are the enumerations of opcodes.h:18-164, kept as integers. *)
From Verif Require Import Base.

(** opcodes.h:18-142 *)
Definition i_ora : Z := 0.
Definition i_and : Z := 1.
Definition i_eor : Z := 2.
Definition i_adc : Z := 3.
Definition i_sbc : Z := 4.
Definition i_cmp : Z := 5.
Definition i_cpx : Z := 6.
Definition i_cpy : Z := 7.
Definition i_dec : Z := 8.
Definition i_dex : Z := 9.
Definition i_dey : Z := 10.
Definition i_inc : Z := 11.
Definition i_inx : Z := 12.
Definition i_iny : Z := 13.
Definition i_asl : Z := 14.
Definition i_rol : Z := 15.
Definition i_lsr : Z := 16.
Definition i_ror : Z := 17.
Definition i_lda : Z := 18.
Definition i_sta : Z := 19.
Definition i_ldx : Z := 20.
Definition i_stx : Z := 21.
Definition i_ldy : Z := 22.
Definition i_sty : Z := 23.
Definition i_rmb0 : Z := 24.
Definition i_rmb1 : Z := 25.
Definition i_rmb2 : Z := 26.
Definition i_rmb3 : Z := 27.
Definition i_rmb4 : Z := 28.
Definition i_rmb5 : Z := 29.
Definition i_rmb6 : Z := 30.
Definition i_rmb7 : Z := 31.
Definition i_smb0 : Z := 32.
Definition i_smb1 : Z := 33.
Definition i_smb2 : Z := 34.
Definition i_smb3 : Z := 35.
Definition i_smb4 : Z := 36.
Definition i_smb5 : Z := 37.
Definition i_smb6 : Z := 38.
Definition i_smb7 : Z := 39.
Definition i_stz : Z := 40.
Definition i_tax : Z := 41.
Definition i_txa : Z := 42.
Definition i_tay : Z := 43.
Definition i_tya : Z := 44.
Definition i_tsx : Z := 45.
Definition i_txs : Z := 46.
Definition i_pla : Z := 47.
Definition i_pha : Z := 48.
Definition i_plp : Z := 49.
Definition i_php : Z := 50.
Definition i_phx : Z := 51.
Definition i_phy : Z := 52.
Definition i_plx : Z := 53.
Definition i_ply : Z := 54.
Definition i_bra : Z := 55.
Definition i_bpl : Z := 56.
Definition i_bmi : Z := 57.
Definition i_bvc : Z := 58.
Definition i_bvs : Z := 59.
Definition i_bcc : Z := 60.
Definition i_bcs : Z := 61.
Definition i_bne : Z := 62.
Definition i_beq : Z := 63.
Definition i_bbr0 : Z := 64.
Definition i_bbr1 : Z := 65.
Definition i_bbr2 : Z := 66.
Definition i_bbr3 : Z := 67.
Definition i_bbr4 : Z := 68.
Definition i_bbr5 : Z := 69.
Definition i_bbr6 : Z := 70.
Definition i_bbr7 : Z := 71.
Definition i_bbs0 : Z := 72.
Definition i_bbs1 : Z := 73.
Definition i_bbs2 : Z := 74.
Definition i_bbs3 : Z := 75.
Definition i_bbs4 : Z := 76.
Definition i_bbs5 : Z := 77.
Definition i_bbs6 : Z := 78.
Definition i_bbs7 : Z := 79.
Definition i_stp : Z := 80.
Definition i_wai : Z := 81.
Definition i_brk : Z := 82.
Definition i_rti : Z := 83.
Definition i_jsr : Z := 84.
Definition i_rts : Z := 85.
Definition i_jmp : Z := 86.
Definition i_bit : Z := 87.
Definition i_trb : Z := 88.
Definition i_tsb : Z := 89.
Definition i_clc : Z := 90.
Definition i_sec : Z := 91.
Definition i_cld : Z := 92.
Definition i_sed : Z := 93.
Definition i_cli : Z := 94.
Definition i_sei : Z := 95.
Definition i_clv : Z := 96.
Definition i_nop : Z := 97.
Definition i_slo : Z := 98.
Definition i_rla : Z := 99.
Definition i_sre : Z := 100.
Definition i_rra : Z := 101.
Definition i_sax : Z := 102.
Definition i_lax : Z := 103.
Definition i_dcp : Z := 104.
Definition i_isc : Z := 105.
Definition i_anc : Z := 106.
Definition i_anc2 : Z := 107.
Definition i_alr : Z := 108.
Definition i_arr : Z := 109.
Definition i_xaa : Z := 110.
Definition i_axs : Z := 111.
Definition i_usbc : Z := 112.
Definition i_ahx : Z := 113.
Definition i_shy : Z := 114.
Definition i_shx : Z := 115.
Definition i_tas : Z := 116.
Definition i_las : Z := 117.
Definition illegal_start : Z := 98.
Definition max_opcode : Z := 118.

(** opcodes.h:144-164 *)
Definition m_i : Z := 0.
Definition m_I : Z := 1.
Definition m_zp : Z := 2.
Definition m_zpi : Z := 3.
Definition m_zpx : Z := 4.
Definition m_zpy : Z := 5.
Definition m_izx : Z := 6.
Definition m_izy : Z := 7.
Definition m_a : Z := 8.
Definition m_aix : Z := 9.
Definition m_ax : Z := 10.
Definition m_ay : Z := 11.
Definition m_ind : Z := 12.
Definition m_r : Z := 13.
Definition m_A : Z := 14.
Definition max_addressing_mode : Z := 15.

(** columns: i I zp zpi zpx zpy izx izy a aix ax ay ind r A *)
Definition ops6502 : list (list Z) :=
  [ [-1; 0x09; 0x05; -1; 0x15; -1; 0x01; 0x11; 0x0D; -1; 0x1D; 0x19; -1; -1; -1] (* ora *);
    [-1; 0x29; 0x25; -1; 0x35; -1; 0x21; 0x31; 0x2D; -1; 0x3D; 0x39; -1; -1; -1] (* and *);
    [-1; 0x49; 0x45; -1; 0x55; -1; 0x41; 0x51; 0x4D; -1; 0x5D; 0x59; -1; -1; -1] (* eor *);
    [-1; 0x69; 0x65; -1; 0x75; -1; 0x61; 0x71; 0x6D; -1; 0x7D; 0x79; -1; -1; -1] (* adc *);
    [-1; 0xE9; 0xE5; -1; 0xF5; -1; 0xE1; 0xF1; 0xED; -1; 0xFD; 0xF9; -1; -1; -1] (* sbc *);
    [-1; 0xC9; 0xC5; -1; 0xD5; -1; 0xC1; 0xD1; 0xCD; -1; 0xDD; 0xD9; -1; -1; -1] (* cmp *);
    [-1; 0xE0; 0xE4; -1; -1; -1; -1; -1; 0xEC; -1; -1; -1; -1; -1; -1] (* cpx *);
    [-1; 0xC0; 0xC4; -1; -1; -1; -1; -1; 0xCC; -1; -1; -1; -1; -1; -1] (* cpy *);
    [-1; -1; 0xC6; -1; 0xD6; -1; -1; -1; 0xCE; -1; 0xDE; -1; -1; -1; -1] (* dec *);
    [0xCA; -1; -1; -1; -1; -1; -1; -1; -1; -1; -1; -1; -1; -1; -1] (* dex *);
    [0x88; -1; -1; -1; -1; -1; -1; -1; -1; -1; -1; -1; -1; -1; -1] (* dey *);
    [-1; -1; 0xE6; -1; 0xF6; -1; -1; -1; 0xEE; -1; 0xFE; -1; -1; -1; -1] (* inc *);
    [0xE8; -1; -1; -1; -1; -1; -1; -1; -1; -1; -1; -1; -1; -1; -1] (* inx *);
    [0xC8; -1; -1; -1; -1; -1; -1; -1; -1; -1; -1; -1; -1; -1; -1] (* iny *);
    [0x0A; -1; 0x06; -1; 0x16; -1; -1; -1; 0x0E; -1; 0x1E; -1; -1; -1; 0x0A] (* asl *);
    [0x2A; -1; 0x26; -1; 0x36; -1; -1; -1; 0x2E; -1; 0x3E; -1; -1; -1; 0x2A] (* rol *);
    [0x4A; -1; 0x46; -1; 0x56; -1; -1; -1; 0x4E; -1; 0x5E; -1; -1; -1; 0x4A] (* lsr *);
    [0x6A; -1; 0x66; -1; 0x76; -1; -1; -1; 0x6E; -1; 0x7E; -1; -1; -1; 0x6A] (* ror *);
    [-1; 0xA9; 0xA5; -1; 0xB5; -1; 0xA1; 0xB1; 0xAD; -1; 0xBD; 0xB9; -1; -1; -1] (* lda *);
    [-1; -1; 0x85; -1; 0x95; -1; 0x81; 0x91; 0x8D; -1; 0x9D; 0x99; -1; -1; -1] (* sta *);
    [-1; 0xA2; 0xA6; -1; -1; 0xB6; -1; -1; 0xAE; -1; -1; 0xBE; -1; -1; -1] (* ldx *);
    [-1; -1; 0x86; -1; -1; 0x96; -1; -1; 0x8E; -1; -1; -1; -1; -1; -1] (* stx *);
    [-1; 0xA0; 0xA4; -1; 0xB4; -1; -1; -1; 0xAC; -1; 0xBC; -1; -1; -1; -1] (* ldy *);
    [-1; -1; 0x84; -1; 0x94; -1; -1; -1; 0x8C; -1; -1; -1; -1; -1; -1] (* sty *);
    [-1; -1; -1; -1; -1; -1; -1; -1; -1; -1; -1; -1; -1; -1; -1] (* rmb0 *);
    [-1; -1; -1; -1; -1; -1; -1; -1; -1; -1; -1; -1; -1; -1; -1] (* rmb1 *);
    [-1; -1; -1; -1; -1; -1; -1; -1; -1; -1; -1; -1; -1; -1; -1] (* rmb2 *);
    [-1; -1; -1; -1; -1; -1; -1; -1; -1; -1; -1; -1; -1; -1; -1] (* rmb3 *);
    [-1; -1; -1; -1; -1; -1; -1; -1; -1; -1; -1; -1; -1; -1; -1] (* rmb4 *);
    [-1; -1; -1; -1; -1; -1; -1; -1; -1; -1; -1; -1; -1; -1; -1] (* rmb5 *);
    [-1; -1; -1; -1; -1; -1; -1; -1; -1; -1; -1; -1; -1; -1; -1] (* rmb6 *);
    [-1; -1; -1; -1; -1; -1; -1; -1; -1; -1; -1; -1; -1; -1; -1] (* rmb7 *);
    [-1; -1; -1; -1; -1; -1; -1; -1; -1; -1; -1; -1; -1; -1; -1] (* smb0 *);
    [-1; -1; -1; -1; -1; -1; -1; -1; -1; -1; -1; -1; -1; -1; -1] (* smb1 *);
    [-1; -1; -1; -1; -1; -1; -1; -1; -1; -1; -1; -1; -1; -1; -1] (* smb2 *);
    [-1; -1; -1; -1; -1; -1; -1; -1; -1; -1; -1; -1; -1; -1; -1] (* smb3 *);
    [-1; -1; -1; -1; -1; -1; -1; -1; -1; -1; -1; -1; -1; -1; -1] (* smb4 *);
    [-1; -1; -1; -1; -1; -1; -1; -1; -1; -1; -1; -1; -1; -1; -1] (* smb5 *);
    [-1; -1; -1; -1; -1; -1; -1; -1; -1; -1; -1; -1; -1; -1; -1] (* smb6 *);
    [-1; -1; -1; -1; -1; -1; -1; -1; -1; -1; -1; -1; -1; -1; -1] (* smb7 *);
    [-1; -1; -1; -1; -1; -1; -1; -1; -1; -1; -1; -1; -1; -1; -1] (* stz *);
    [0xAA; -1; -1; -1; -1; -1; -1; -1; -1; -1; -1; -1; -1; -1; -1] (* tax *);
    [0x8A; -1; -1; -1; -1; -1; -1; -1; -1; -1; -1; -1; -1; -1; -1] (* txa *);
    [0xA8; -1; -1; -1; -1; -1; -1; -1; -1; -1; -1; -1; -1; -1; -1] (* tay *);
    [0x98; -1; -1; -1; -1; -1; -1; -1; -1; -1; -1; -1; -1; -1; -1] (* tya *);
    [0xBA; -1; -1; -1; -1; -1; -1; -1; -1; -1; -1; -1; -1; -1; -1] (* tsx *);
    [0x9A; -1; -1; -1; -1; -1; -1; -1; -1; -1; -1; -1; -1; -1; -1] (* txs *);
    [0x68; -1; -1; -1; -1; -1; -1; -1; -1; -1; -1; -1; -1; -1; -1] (* pla *);
    [0x48; -1; -1; -1; -1; -1; -1; -1; -1; -1; -1; -1; -1; -1; -1] (* pha *);
    [0x28; -1; -1; -1; -1; -1; -1; -1; -1; -1; -1; -1; -1; -1; -1] (* plp *);
    [0x08; -1; -1; -1; -1; -1; -1; -1; -1; -1; -1; -1; -1; -1; -1] (* php *);
    [-1; -1; -1; -1; -1; -1; -1; -1; -1; -1; -1; -1; -1; -1; -1] (* phx *);
    [-1; -1; -1; -1; -1; -1; -1; -1; -1; -1; -1; -1; -1; -1; -1] (* phy *);
    [-1; -1; -1; -1; -1; -1; -1; -1; -1; -1; -1; -1; -1; -1; -1] (* plx *);
    [-1; -1; -1; -1; -1; -1; -1; -1; -1; -1; -1; -1; -1; -1; -1] (* ply *);
    [-1; -1; -1; -1; -1; -1; -1; -1; -1; -1; -1; -1; -1; -1; -1] (* bra *);
    [-1; -1; -1; -1; -1; -1; -1; -1; -1; -1; -1; -1; -1; 0x10; -1] (* bpl *);
    [-1; -1; -1; -1; -1; -1; -1; -1; -1; -1; -1; -1; -1; 0x30; -1] (* bmi *);
    [-1; -1; -1; -1; -1; -1; -1; -1; -1; -1; -1; -1; -1; 0x50; -1] (* bvc *);
    [-1; -1; -1; -1; -1; -1; -1; -1; -1; -1; -1; -1; -1; 0x70; -1] (* bvs *);
    [-1; -1; -1; -1; -1; -1; -1; -1; -1; -1; -1; -1; -1; 0x90; -1] (* bcc *);
    [-1; -1; -1; -1; -1; -1; -1; -1; -1; -1; -1; -1; -1; 0xB0; -1] (* bcs *);
    [-1; -1; -1; -1; -1; -1; -1; -1; -1; -1; -1; -1; -1; 0xD0; -1] (* bne *);
    [-1; -1; -1; -1; -1; -1; -1; -1; -1; -1; -1; -1; -1; 0xF0; -1] (* beq *);
    [-1; -1; -1; -1; -1; -1; -1; -1; -1; -1; -1; -1; -1; -1; -1] (* bbr0 *);
    [-1; -1; -1; -1; -1; -1; -1; -1; -1; -1; -1; -1; -1; -1; -1] (* bbr1 *);
    [-1; -1; -1; -1; -1; -1; -1; -1; -1; -1; -1; -1; -1; -1; -1] (* bbr2 *);
    [-1; -1; -1; -1; -1; -1; -1; -1; -1; -1; -1; -1; -1; -1; -1] (* bbr3 *);
    [-1; -1; -1; -1; -1; -1; -1; -1; -1; -1; -1; -1; -1; -1; -1] (* bbr4 *);
    [-1; -1; -1; -1; -1; -1; -1; -1; -1; -1; -1; -1; -1; -1; -1] (* bbr5 *);
    [-1; -1; -1; -1; -1; -1; -1; -1; -1; -1; -1; -1; -1; -1; -1] (* bbr6 *);
    [-1; -1; -1; -1; -1; -1; -1; -1; -1; -1; -1; -1; -1; -1; -1] (* bbr7 *);
    [-1; -1; -1; -1; -1; -1; -1; -1; -1; -1; -1; -1; -1; -1; -1] (* bbs0 *);
    [-1; -1; -1; -1; -1; -1; -1; -1; -1; -1; -1; -1; -1; -1; -1] (* bbs1 *);
    [-1; -1; -1; -1; -1; -1; -1; -1; -1; -1; -1; -1; -1; -1; -1] (* bbs2 *);
    [-1; -1; -1; -1; -1; -1; -1; -1; -1; -1; -1; -1; -1; -1; -1] (* bbs3 *);
    [-1; -1; -1; -1; -1; -1; -1; -1; -1; -1; -1; -1; -1; -1; -1] (* bbs4 *);
    [-1; -1; -1; -1; -1; -1; -1; -1; -1; -1; -1; -1; -1; -1; -1] (* bbs5 *);
    [-1; -1; -1; -1; -1; -1; -1; -1; -1; -1; -1; -1; -1; -1; -1] (* bbs6 *);
    [-1; -1; -1; -1; -1; -1; -1; -1; -1; -1; -1; -1; -1; -1; -1] (* bbs7 *);
    [-1; -1; -1; -1; -1; -1; -1; -1; -1; -1; -1; -1; -1; -1; -1] (* stp *);
    [-1; -1; -1; -1; -1; -1; -1; -1; -1; -1; -1; -1; -1; -1; -1] (* wai *);
    [0x00; -1; -1; -1; -1; -1; -1; -1; -1; -1; -1; -1; -1; -1; -1] (* brk *);
    [0x40; -1; -1; -1; -1; -1; -1; -1; -1; -1; -1; -1; -1; -1; -1] (* rti *);
    [-1; -1; -1; -1; -1; -1; -1; -1; 0x20; -1; -1; -1; -1; -1; -1] (* jsr *);
    [0x60; -1; -1; -1; -1; -1; -1; -1; -1; -1; -1; -1; -1; -1; -1] (* rts *);
    [-1; -1; -1; -1; -1; -1; -1; -1; 0x4C; -1; -1; -1; 0x6C; -1; -1] (* jmp *);
    [-1; -1; 0x24; -1; -1; -1; -1; -1; 0x2C; -1; -1; -1; -1; -1; -1] (* bit *);
    [-1; -1; -1; -1; -1; -1; -1; -1; -1; -1; -1; -1; -1; -1; -1] (* trb *);
    [-1; -1; -1; -1; -1; -1; -1; -1; -1; -1; -1; -1; -1; -1; -1] (* tsb *);
    [0x18; -1; -1; -1; -1; -1; -1; -1; -1; -1; -1; -1; -1; -1; -1] (* clc *);
    [0x38; -1; -1; -1; -1; -1; -1; -1; -1; -1; -1; -1; -1; -1; -1] (* sec *);
    [0xD8; -1; -1; -1; -1; -1; -1; -1; -1; -1; -1; -1; -1; -1; -1] (* cld *);
    [0xF8; -1; -1; -1; -1; -1; -1; -1; -1; -1; -1; -1; -1; -1; -1] (* sed *);
    [0x58; -1; -1; -1; -1; -1; -1; -1; -1; -1; -1; -1; -1; -1; -1] (* cli *);
    [0x78; -1; -1; -1; -1; -1; -1; -1; -1; -1; -1; -1; -1; -1; -1] (* sei *);
    [0xB8; -1; -1; -1; -1; -1; -1; -1; -1; -1; -1; -1; -1; -1; -1] (* clv *);
    [0xEA; -1; -1; -1; -1; -1; -1; -1; -1; -1; -1; -1; -1; -1; -1] (* nop *);
    [-1; -1; 0x07; -1; 0x17; -1; 0x03; 0x13; 0x0F; -1; 0x1F; 0x1B; -1; -1; -1] (* slo *);
    [-1; -1; 0x27; -1; 0x37; -1; 0x23; 0x33; 0x2F; -1; 0x3F; 0x3B; -1; -1; -1] (* rla *);
    [-1; -1; 0x47; -1; 0x57; -1; 0x43; 0x53; 0x4F; -1; 0x5F; 0x5B; -1; -1; -1] (* sre *);
    [-1; -1; 0x67; -1; 0x77; -1; 0x63; 0x73; 0x6F; -1; 0x7F; 0x7B; -1; -1; -1] (* rra *);
    [-1; -1; 0x87; -1; -1; 0x97; 0x83; -1; 0x8F; -1; -1; -1; -1; -1; -1] (* sax *);
    [-1; 0xAB; 0xA7; -1; -1; 0xB7; 0xA3; 0xB3; 0xAF; -1; -1; 0xBF; -1; -1; -1] (* lax *);
    [-1; -1; 0xC7; -1; 0xD7; -1; 0xC3; 0xD3; 0xCF; -1; 0xDF; 0xDB; -1; -1; -1] (* dcp *);
    [-1; -1; 0xE7; -1; 0xF7; -1; 0xE3; 0xF3; 0xEF; -1; 0xFF; 0xFB; -1; -1; -1] (* isc *);
    [-1; 0x0B; -1; -1; -1; -1; -1; -1; -1; -1; -1; -1; -1; -1; -1] (* anc *);
    [-1; 0x2B; -1; -1; -1; -1; -1; -1; -1; -1; -1; -1; -1; -1; -1] (* anc2 *);
    [-1; 0x4B; -1; -1; -1; -1; -1; -1; -1; -1; -1; -1; -1; -1; -1] (* alr *);
    [-1; 0x6B; -1; -1; -1; -1; -1; -1; -1; -1; -1; -1; -1; -1; -1] (* arr *);
    [-1; 0x8B; -1; -1; -1; -1; -1; -1; -1; -1; -1; -1; -1; -1; -1] (* xaa *);
    [-1; 0xCB; -1; -1; -1; -1; -1; -1; -1; -1; -1; -1; -1; -1; -1] (* axs *);
    [-1; 0xEB; -1; -1; -1; -1; -1; -1; -1; -1; -1; -1; -1; -1; -1] (* usbc *);
    [-1; -1; -1; -1; -1; -1; -1; 0x93; -1; -1; -1; 0x9F; -1; -1; -1] (* ahx *);
    [-1; -1; -1; -1; -1; -1; -1; -1; -1; -1; 0x9C; -1; -1; -1; -1] (* shy *);
    [-1; -1; -1; -1; -1; -1; -1; -1; -1; -1; -1; 0x9E; -1; -1; -1] (* shx *);
    [-1; -1; -1; -1; -1; -1; -1; -1; -1; -1; -1; 0x9B; -1; -1; -1] (* tas *);
    [-1; -1; -1; -1; -1; -1; -1; -1; -1; -1; -1; 0xBB; -1; -1; -1] (* las *) ].

Definition ops65c02 : list (list Z) :=
  [ [-1; 0x09; 0x05; -1; 0x15; -1; 0x01; 0x11; 0x0D; -1; 0x1D; 0x19; 0x12; -1; -1] (* ora *);
    [-1; 0x29; 0x25; -1; 0x35; -1; 0x21; 0x31; 0x2D; -1; 0x3D; 0x39; 0x32; -1; -1] (* and *);
    [-1; 0x49; 0x45; -1; 0x55; -1; 0x41; 0x51; 0x4D; -1; 0x5D; 0x59; 0x52; -1; -1] (* eor *);
    [-1; 0x69; 0x65; -1; 0x75; -1; 0x61; 0x71; 0x6D; -1; 0x7D; 0x79; 0x72; -1; -1] (* adc *);
    [-1; 0xE9; 0xE5; -1; 0xF5; -1; 0xE1; 0xF1; 0xED; -1; 0xFD; 0xF9; 0xF2; -1; -1] (* sbc *);
    [-1; 0xC9; 0xC5; -1; 0xD5; -1; 0xC1; 0xD1; 0xCD; -1; 0xDD; 0xD9; 0xD2; -1; -1] (* cmp *);
    [-1; 0xE0; 0xE4; -1; -1; -1; -1; -1; 0xEC; -1; -1; -1; -1; -1; -1] (* cpx *);
    [-1; 0xC0; 0xC4; -1; -1; -1; -1; -1; 0xCC; -1; -1; -1; -1; -1; -1] (* cpy *);
    [0x3A; -1; 0xC6; -1; 0xD6; -1; -1; -1; 0xCE; -1; 0xDE; -1; -1; -1; 0x3A] (* dec *);
    [0xCA; -1; -1; -1; -1; -1; -1; -1; -1; -1; -1; -1; -1; -1; -1] (* dex *);
    [0x88; -1; -1; -1; -1; -1; -1; -1; -1; -1; -1; -1; -1; -1; -1] (* dey *);
    [0x1A; -1; 0xE6; -1; 0xF6; -1; -1; -1; 0xEE; -1; 0xFE; -1; -1; -1; 0x1A] (* inc *);
    [0xE8; -1; -1; -1; -1; -1; -1; -1; -1; -1; -1; -1; -1; -1; -1] (* inx *);
    [0xC8; -1; -1; -1; -1; -1; -1; -1; -1; -1; -1; -1; -1; -1; -1] (* iny *);
    [0x0A; -1; 0x06; -1; 0x16; -1; -1; -1; 0x0E; -1; 0x1E; -1; -1; -1; 0x0A] (* asl *);
    [0x2A; -1; 0x26; -1; 0x36; -1; -1; -1; 0x2E; -1; 0x3E; -1; -1; -1; 0x2A] (* rol *);
    [0x4A; -1; 0x46; -1; 0x56; -1; -1; -1; 0x4E; -1; 0x5E; -1; -1; -1; 0x4A] (* lsr *);
    [0x6A; -1; 0x66; -1; 0x76; -1; -1; -1; 0x6E; -1; 0x7E; -1; -1; -1; 0x6A] (* ror *);
    [-1; 0xA9; 0xA5; -1; 0xB5; -1; 0xA1; 0xB1; 0xAD; -1; 0xBD; 0xB9; 0xB2; -1; -1] (* lda *);
    [-1; -1; 0x85; -1; 0x95; -1; 0x81; 0x91; 0x8D; -1; 0x9D; 0x99; 0x92; -1; -1] (* sta *);
    [-1; 0xA2; 0xA6; -1; -1; 0xB6; -1; -1; 0xAE; -1; -1; 0xBE; -1; -1; -1] (* ldx *);
    [-1; -1; 0x86; -1; -1; 0x96; -1; -1; 0x8E; -1; -1; -1; -1; -1; -1] (* stx *);
    [-1; 0xA0; 0xA4; -1; 0xB4; -1; -1; -1; 0xAC; -1; 0xBC; -1; -1; -1; -1] (* ldy *);
    [-1; -1; 0x84; -1; 0x94; -1; -1; -1; 0x8C; -1; -1; -1; -1; -1; -1] (* sty *);
    [-1; -1; 0x07; -1; -1; -1; -1; -1; -1; -1; -1; -1; -1; -1; -1] (* rmb0 *);
    [-1; -1; 0x17; -1; -1; -1; -1; -1; -1; -1; -1; -1; -1; -1; -1] (* rmb1 *);
    [-1; -1; 0x27; -1; -1; -1; -1; -1; -1; -1; -1; -1; -1; -1; -1] (* rmb2 *);
    [-1; -1; 0x37; -1; -1; -1; -1; -1; -1; -1; -1; -1; -1; -1; -1] (* rmb3 *);
    [-1; -1; 0x47; -1; -1; -1; -1; -1; -1; -1; -1; -1; -1; -1; -1] (* rmb4 *);
    [-1; -1; 0x57; -1; -1; -1; -1; -1; -1; -1; -1; -1; -1; -1; -1] (* rmb5 *);
    [-1; -1; 0x67; -1; -1; -1; -1; -1; -1; -1; -1; -1; -1; -1; -1] (* rmb6 *);
    [-1; -1; 0x77; -1; -1; -1; -1; -1; -1; -1; -1; -1; -1; -1; -1] (* rmb7 *);
    [-1; -1; 0x87; -1; -1; -1; -1; -1; -1; -1; -1; -1; -1; -1; -1] (* smb0 *);
    [-1; -1; 0x97; -1; -1; -1; -1; -1; -1; -1; -1; -1; -1; -1; -1] (* smb1 *);
    [-1; -1; 0xA7; -1; -1; -1; -1; -1; -1; -1; -1; -1; -1; -1; -1] (* smb2 *);
    [-1; -1; 0xB7; -1; -1; -1; -1; -1; -1; -1; -1; -1; -1; -1; -1] (* smb3 *);
    [-1; -1; 0xC7; -1; -1; -1; -1; -1; -1; -1; -1; -1; -1; -1; -1] (* smb4 *);
    [-1; -1; 0xD7; -1; -1; -1; -1; -1; -1; -1; -1; -1; -1; -1; -1] (* smb5 *);
    [-1; -1; 0xE7; -1; -1; -1; -1; -1; -1; -1; -1; -1; -1; -1; -1] (* smb6 *);
    [-1; -1; 0xF7; -1; -1; -1; -1; -1; -1; -1; -1; -1; -1; -1; -1] (* smb7 *);
    [-1; -1; 0x64; -1; 0x74; -1; -1; -1; 0x9C; -1; 0x9E; -1; -1; -1; -1] (* stz *);
    [0xAA; -1; -1; -1; -1; -1; -1; -1; -1; -1; -1; -1; -1; -1; -1] (* tax *);
    [0x8A; -1; -1; -1; -1; -1; -1; -1; -1; -1; -1; -1; -1; -1; -1] (* txa *);
    [0xA8; -1; -1; -1; -1; -1; -1; -1; -1; -1; -1; -1; -1; -1; -1] (* tay *);
    [0x98; -1; -1; -1; -1; -1; -1; -1; -1; -1; -1; -1; -1; -1; -1] (* tya *);
    [0xBA; -1; -1; -1; -1; -1; -1; -1; -1; -1; -1; -1; -1; -1; -1] (* tsx *);
    [0x9A; -1; -1; -1; -1; -1; -1; -1; -1; -1; -1; -1; -1; -1; -1] (* txs *);
    [0x68; -1; -1; -1; -1; -1; -1; -1; -1; -1; -1; -1; -1; -1; -1] (* pla *);
    [0x48; -1; -1; -1; -1; -1; -1; -1; -1; -1; -1; -1; -1; -1; -1] (* pha *);
    [0x28; -1; -1; -1; -1; -1; -1; -1; -1; -1; -1; -1; -1; -1; -1] (* plp *);
    [0x08; -1; -1; -1; -1; -1; -1; -1; -1; -1; -1; -1; -1; -1; -1] (* php *);
    [0xDA; -1; -1; -1; -1; -1; -1; -1; -1; -1; -1; -1; -1; -1; -1] (* phx *);
    [0x5A; -1; -1; -1; -1; -1; -1; -1; -1; -1; -1; -1; -1; -1; -1] (* phy *);
    [0xFA; -1; -1; -1; -1; -1; -1; -1; -1; -1; -1; -1; -1; -1; -1] (* plx *);
    [0x7A; -1; -1; -1; -1; -1; -1; -1; -1; -1; -1; -1; -1; -1; -1] (* ply *);
    [-1; -1; -1; -1; -1; -1; -1; -1; -1; -1; -1; -1; -1; 0x80; -1] (* bra *);
    [-1; -1; -1; -1; -1; -1; -1; -1; -1; -1; -1; -1; -1; 0x10; -1] (* bpl *);
    [-1; -1; -1; -1; -1; -1; -1; -1; -1; -1; -1; -1; -1; 0x30; -1] (* bmi *);
    [-1; -1; -1; -1; -1; -1; -1; -1; -1; -1; -1; -1; -1; 0x50; -1] (* bvc *);
    [-1; -1; -1; -1; -1; -1; -1; -1; -1; -1; -1; -1; -1; 0x70; -1] (* bvs *);
    [-1; -1; -1; -1; -1; -1; -1; -1; -1; -1; -1; -1; -1; 0x90; -1] (* bcc *);
    [-1; -1; -1; -1; -1; -1; -1; -1; -1; -1; -1; -1; -1; 0xB0; -1] (* bcs *);
    [-1; -1; -1; -1; -1; -1; -1; -1; -1; -1; -1; -1; -1; 0xD0; -1] (* bne *);
    [-1; -1; -1; -1; -1; -1; -1; -1; -1; -1; -1; -1; -1; 0xF0; -1] (* beq *);
    [-1; -1; -1; -1; -1; -1; -1; -1; -1; -1; -1; -1; -1; 0x0F; -1] (* bbr0 *);
    [-1; -1; -1; -1; -1; -1; -1; -1; -1; -1; -1; -1; -1; 0x1F; -1] (* bbr1 *);
    [-1; -1; -1; -1; -1; -1; -1; -1; -1; -1; -1; -1; -1; 0x2F; -1] (* bbr2 *);
    [-1; -1; -1; -1; -1; -1; -1; -1; -1; -1; -1; -1; -1; 0x3F; -1] (* bbr3 *);
    [-1; -1; -1; -1; -1; -1; -1; -1; -1; -1; -1; -1; -1; 0x4F; -1] (* bbr4 *);
    [-1; -1; -1; -1; -1; -1; -1; -1; -1; -1; -1; -1; -1; 0x5F; -1] (* bbr5 *);
    [-1; -1; -1; -1; -1; -1; -1; -1; -1; -1; -1; -1; -1; 0x6F; -1] (* bbr6 *);
    [-1; -1; -1; -1; -1; -1; -1; -1; -1; -1; -1; -1; -1; 0x7F; -1] (* bbr7 *);
    [-1; -1; -1; -1; -1; -1; -1; -1; -1; -1; -1; -1; -1; 0x8F; -1] (* bbs0 *);
    [-1; -1; -1; -1; -1; -1; -1; -1; -1; -1; -1; -1; -1; 0x9F; -1] (* bbs1 *);
    [-1; -1; -1; -1; -1; -1; -1; -1; -1; -1; -1; -1; -1; 0xAF; -1] (* bbs2 *);
    [-1; -1; -1; -1; -1; -1; -1; -1; -1; -1; -1; -1; -1; 0xBF; -1] (* bbs3 *);
    [-1; -1; -1; -1; -1; -1; -1; -1; -1; -1; -1; -1; -1; 0xCF; -1] (* bbs4 *);
    [-1; -1; -1; -1; -1; -1; -1; -1; -1; -1; -1; -1; -1; 0xDF; -1] (* bbs5 *);
    [-1; -1; -1; -1; -1; -1; -1; -1; -1; -1; -1; -1; -1; 0xEF; -1] (* bbs6 *);
    [-1; -1; -1; -1; -1; -1; -1; -1; -1; -1; -1; -1; -1; 0xFF; -1] (* bbs7 *);
    [0xDB; -1; -1; -1; -1; -1; -1; -1; -1; -1; -1; -1; -1; -1; -1] (* stp *);
    [0xCB; -1; -1; -1; -1; -1; -1; -1; -1; -1; -1; -1; -1; -1; -1] (* wai *);
    [0x00; -1; -1; -1; -1; -1; -1; -1; -1; -1; -1; -1; -1; -1; -1] (* brk *);
    [0x40; -1; -1; -1; -1; -1; -1; -1; -1; -1; -1; -1; -1; -1; -1] (* rti *);
    [-1; -1; -1; -1; -1; -1; -1; -1; 0x20; -1; -1; -1; -1; -1; -1] (* jsr *);
    [0x60; -1; -1; -1; -1; -1; -1; -1; -1; -1; -1; -1; -1; -1; -1] (* rts *);
    [-1; -1; -1; -1; -1; -1; -1; -1; 0x4C; 0x7C; -1; -1; 0x6C; -1; -1] (* jmp *);
    [-1; 0x89; 0x24; -1; 0x34; -1; -1; -1; 0x2C; -1; 0x3C; -1; -1; -1; -1] (* bit *);
    [-1; -1; 0x14; -1; -1; -1; -1; -1; 0x1C; -1; -1; -1; -1; -1; -1] (* trb *);
    [-1; -1; 0x04; -1; -1; -1; -1; -1; 0x0C; -1; -1; -1; -1; -1; -1] (* tsb *);
    [0x18; -1; -1; -1; -1; -1; -1; -1; -1; -1; -1; -1; -1; -1; -1] (* clc *);
    [0x38; -1; -1; -1; -1; -1; -1; -1; -1; -1; -1; -1; -1; -1; -1] (* sec *);
    [0xD8; -1; -1; -1; -1; -1; -1; -1; -1; -1; -1; -1; -1; -1; -1] (* cld *);
    [0xF8; -1; -1; -1; -1; -1; -1; -1; -1; -1; -1; -1; -1; -1; -1] (* sed *);
    [0x58; -1; -1; -1; -1; -1; -1; -1; -1; -1; -1; -1; -1; -1; -1] (* cli *);
    [0x78; -1; -1; -1; -1; -1; -1; -1; -1; -1; -1; -1; -1; -1; -1] (* sei *);
    [0xB8; -1; -1; -1; -1; -1; -1; -1; -1; -1; -1; -1; -1; -1; -1] (* clv *);
    [0xEA; -1; -1; -1; -1; -1; -1; -1; -1; -1; -1; -1; -1; -1; -1] (* nop *);
    [-1; -1; 0x07; -1; 0x17; -1; 0x03; 0x13; 0x0F; -1; 0x1F; 0x1B; -1; -1; -1] (* slo *);
    [-1; -1; 0x27; -1; 0x37; -1; 0x23; 0x33; 0x2F; -1; 0x3F; 0x3B; -1; -1; -1] (* rla *);
    [-1; -1; 0x47; -1; 0x57; -1; 0x43; 0x53; 0x4F; -1; 0x5F; 0x5B; -1; -1; -1] (* sre *);
    [-1; -1; 0x67; -1; 0x77; -1; 0x63; 0x73; 0x6F; -1; 0x7F; 0x7B; -1; -1; -1] (* rra *);
    [-1; -1; 0x87; -1; -1; 0x97; 0x83; -1; 0x8F; -1; -1; -1; -1; -1; -1] (* sax *);
    [-1; -1; 0xA7; -1; -1; 0xB7; 0xA3; 0xB3; 0xAF; -1; -1; 0xBF; -1; -1; -1] (* lax *);
    [-1; -1; 0xC7; -1; 0xD7; -1; 0xC3; 0xD3; 0xCF; -1; 0xDF; 0xDB; -1; -1; -1] (* dcp *);
    [-1; -1; 0xE7; -1; 0xF7; -1; 0xE3; 0xF3; 0xEF; -1; 0xFF; 0xFB; -1; -1; -1] (* isc *);
    [-1; 0x0B; -1; -1; -1; -1; -1; -1; -1; -1; -1; -1; -1; -1; -1] (* anc *);
    [-1; 0x2B; -1; -1; -1; -1; -1; -1; -1; -1; -1; -1; -1; -1; -1] (* anc2 *);
    [-1; 0x4B; -1; -1; -1; -1; -1; -1; -1; -1; -1; -1; -1; -1; -1] (* alr *);
    [-1; 0x6B; -1; -1; -1; -1; -1; -1; -1; -1; -1; -1; -1; -1; -1] (* arr *);
    [-1; 0x8B; -1; -1; -1; -1; -1; -1; -1; -1; -1; -1; -1; -1; -1] (* xaa *);
    [-1; 0xCB; -1; -1; -1; -1; -1; -1; -1; -1; -1; -1; -1; -1; -1] (* axs *);
    [-1; 0xEB; -1; -1; -1; -1; -1; -1; -1; -1; -1; -1; -1; -1; -1] (* usbc *);
    [-1; -1; -1; -1; -1; -1; -1; 0x93; -1; -1; -1; 0x9F; -1; -1; -1] (* ahx *);
    [-1; -1; -1; -1; -1; -1; -1; -1; -1; -1; 0x9C; -1; -1; -1; -1] (* shy *);
    [-1; -1; -1; -1; -1; -1; -1; -1; -1; -1; -1; 0x9E; -1; -1; -1] (* shx *);
    [-1; -1; -1; -1; -1; -1; -1; -1; -1; -1; -1; 0x9B; -1; -1; -1] (* tas *);
    [-1; -1; -1; -1; -1; -1; -1; -1; -1; -1; -1; 0xBB; -1; -1; -1] (* las *) ].

Definition row (t : list (list Z)) (instr mode : Z) : Z :=
  nth (Z.to_nat mode) (nth (Z.to_nat instr) t []) (-1).

(** opcodes.cc:447-466; [c02]: cpu_mode == cpu_65C02 *)
Definition get_op_code (c02 allow_illegal : bool) (instr mode : Z) : Z :=
  if (0 <=? instr) && (instr <? max_opcode) && (0 <=? mode) && (mode <? max_addressing_mode) then
    if negb allow_illegal && (illegal_start <=? instr) && negb c02 then -1
    else row (if c02 then ops65c02 else ops6502) instr mode
  else -1.
