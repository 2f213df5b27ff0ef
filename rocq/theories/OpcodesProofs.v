From Verif Require Import Base BaseProofs Opcodes Cpu.
Ltac Zify.zify_post_hook ::= Z.div_mod_to_equations.

Fixpoint zseq (start : Z) (n : nat) : list Z :=
  match n with O => [] | S n' => start :: zseq (start + 1) n' end.

Lemma zseq_in n : forall start x, start <= x < start + Z.of_nat n -> In x (zseq start n).
Proof.
  induction n as [|n IH]; intros start x H; [lia|]. cbn [zseq].
  destruct (Z.eq_dec x start) as [->|]; [now left|right]. apply IH. lia.
Qed.

Lemma forall_range (P : Z -> bool) n : forallb P (zseq 0 n) = true -> forall x, 0 <= x < Z.of_nat n -> P x = true.
Proof. intros H x Hx. rewrite forallb_forall in H. apply H, zseq_in. lia. Qed.

(** "asl" and "asl a" are two spellings of the same addressing mode *)
Definition shift_acc (c02 : bool) (i : Z) : bool :=
  (i =? i_asl) || (i =? i_rol) || (i =? i_lsr) || (i =? i_ror) || (c02 && ((i =? i_inc) || (i =? i_dec))).
Definition canon (c02 : bool) (i m : Z) : Z := if shift_acc c02 i && (m =? m_i) then m_A else m.

Definition opt_eqb (a b : option (Z * Z)) : bool :=
  match a, b with
  | Some (x, y), Some (u, v) => (x =? u) && (y =? v)
  | None, None => true
  | _, _ => false
  end.
Lemma opt_eqb_eq a b : opt_eqb a b = true -> a = b.
Proof. destruct a as [[x y]|], b as [[u v]|]; cbn; try discriminate; [|reflexivity]. intros H. f_equal. f_equal; lia. Qed.

(** table entry -> decoder *)
Definition chk_table (c02 ill : bool) (dec : Z -> option (Z * Z)) (skip : Z -> Z -> bool) (lim : nat) : bool :=
  forallb (fun i => forallb (fun m =>
    let c := get_op_code c02 ill i m in
    skip i m || (c =? -1) || ((0 <=? c) && (c <? 256) && opt_eqb (dec c) (Some (i, canon c02 i m)))) (zseq 0 15)) (zseq 0 lim).
(** decoder -> table entry *)
Definition chk_dec (c02 ill : bool) (dec : Z -> option (Z * Z)) (skip : Z -> Z -> bool) : bool :=
  forallb (fun b => match dec b with None => true | Some (i, m) => skip i m || (get_op_code c02 ill i m =? b) end) (zseq 0 256).

Lemma table_sound c02 ill dec skip lim : chk_table c02 ill dec skip lim = true ->
  forall i m c, 0 <= i < Z.of_nat lim -> get_op_code c02 ill i m = c -> c <> -1 -> skip i m = false ->
  0 <= c < 256 /\ dec c = Some (i, canon c02 i m).
Proof.
  intros H i m c Hi Hc Hn Hs. pose proof (forall_range _ _ H i Hi) as H1. cbn beta in H1.
  assert (0 <= m < 15) as Hm.
  { subst c. unfold get_op_code, max_addressing_mode in Hn.
    destruct (_ && _ && _ && _) eqn:E in Hn; [lia|congruence]. }
  pose proof (forall_range _ 15 H1 m ltac:(lia)) as H2. cbv beta zeta in H2. rewrite Hc, Hs in H2. cbn [orb] in H2.
  apply orb_true_iff in H2 as [H2|H2]; [lia|].
  apply andb_true_iff in H2 as [H2 H3]. apply opt_eqb_eq in H3. split; [lia|exact H3].
Qed.

Lemma table_complete c02 ill dec skip : chk_dec c02 ill dec skip = true ->
  forall b i m, 0 <= b < 256 -> dec b = Some (i, m) -> skip i m = false -> get_op_code c02 ill i m = b.
Proof.
  intros H b i m Hb Hd Hs. pose proof (forall_range _ 256 H b ltac:(lia)) as H1. cbn beta in H1. rewrite Hd, Hs in H1.
  cbn [orb] in H1. lia.
Qed.

Definition noskip (_ _ : Z) : bool := false.

Lemma ops6502_sound : forall ill i m c, 0 <= i < 98 -> get_op_code false ill i m = c -> c <> -1 ->
  0 <= c < 256 /\ decode6502 c = Some (i, canon false i m).
Proof.
  intros ill i m c Hi Hc Hn. apply (table_sound false ill decode6502 noskip 98) with (4 := Hn); try assumption; try lia; [|reflexivity].
  destruct ill; vm_compute; reflexivity.
Qed.

Lemma ops6502_complete : forall ill b i m, 0 <= b < 256 -> decode6502 b = Some (i, m) -> get_op_code false ill i m = b.
Proof.
  intros ill b i m Hb Hd. apply (table_complete false ill decode6502 noskip) with (2 := Hb) (3 := Hd); [|reflexivity].
  destruct ill; vm_compute; reflexivity.
Qed.

(** the zero-page-indirect rows of the 65C02 table sit in the wrong column *)
Definition zpi_slot (i m : Z) : bool :=
  ((m =? m_ind) || (m =? m_zpi)) && negb (i =? i_jmp).

Lemma ops65c02_sound : forall ill i m c, 0 <= i < 98 -> get_op_code true ill i m = c -> c <> -1 -> zpi_slot i m = false ->
  0 <= c < 256 /\ decode65c02 c = Some (i, canon true i m).
Proof.
  intros ill i m c Hi Hc Hn Hs. apply (table_sound true ill decode65c02 zpi_slot 98) with (4 := Hn); try assumption; try lia.
  destruct ill; vm_compute; reflexivity.
Qed.

Lemma ops65c02_complete : forall ill b i m, 0 <= b < 256 -> decode65c02 b = Some (i, m) -> zpi_slot i m = false ->
  get_op_code true ill i m = b.
Proof.
  intros ill b i m Hb Hd Hs. apply (table_complete true ill decode65c02 zpi_slot) with (2 := Hb) (3 := Hd); [|exact Hs].
  destruct ill; vm_compute; reflexivity.
Qed.

(** what the table has instead: opcode of (zp) under the absolute indirect mode *)
Lemma ops65c02_zpi : forall ill b i, 0 <= b < 256 -> decode65c02 b = Some (i, m_zpi) ->
  get_op_code true ill i m_zpi = -1 /\ get_op_code true ill i m_ind = b.
Proof.
  intros ill b i Hb Hd.
  assert (forallb (fun b => match decode65c02 b with
     | Some (i, m) => negb (m =? m_zpi) || ((get_op_code true ill i m_zpi =? -1) && (get_op_code true ill i m_ind =? b)) | None => true end) (zseq 0 256) = true) as H
    by (destruct ill; vm_compute; reflexivity).
  pose proof (forall_range _ 256 H b ltac:(lia)) as H1. cbn beta in H1. rewrite Hd, Z.eqb_refl in H1. cbn [negb orb] in H1. apply andb_true_iff in H1 as [H1 H2]. apply Z.eqb_eq in H1, H2. now split.
Qed.

Lemma get_op_code_range c02 ill i m : -1 <= get_op_code c02 ill i m < 256.
Proof.
  unfold get_op_code. match goal with |- context [if ?b then _ else _] => destruct b end; [|lia].
  match goal with |- context [if ?b then -1 else _] => destruct b end; [lia|].
  unfold row.
  assert (H : forall t : list (list Z), forallb (forallb (fun c => (-1 <=? c) && (c <? 256))) t = true ->
     -1 <= nth (Z.to_nat m) (nth (Z.to_nat i) t []) (-1) < 256).
  { intros t Ht. rewrite forallb_forall in Ht.
    destruct (nth_in_or_default (Z.to_nat m) (nth (Z.to_nat i) t []) (-1)) as [HI| ->]; [|lia].
    destruct (nth_in_or_default (Z.to_nat i) t []) as [HT|HT]; [|rewrite HT in HI; destruct HI].
    specialize (Ht _ HT). rewrite forallb_forall in Ht. specialize (Ht _ HI). lia. }
  destruct c02; apply H; vm_compute; reflexivity.
Qed.

(** ** opcode bytes determine instruction and mode *)
Definition all_entries (c02 ill : bool) : list (Z * (Z * Z)) :=
  flat_map (fun i => flat_map (fun m => let c := get_op_code c02 ill i m in
     if c =? -1 then [] else [(c, (i, canon c02 i m))]) (zseq 0 15)) (zseq 0 118).
Fixpoint lookup_entry (l : list (Z * (Z * Z))) (c : Z) : option (Z * Z) :=
  match l with [] => None | (k, v) :: l' => if k =? c then Some v else lookup_entry l' c end.

Lemma opcode_injective_gen c02 ill :
  chk_table c02 ill (lookup_entry (all_entries c02 ill)) noskip 118 = true ->
  forall i m i' m', get_op_code c02 ill i m = get_op_code c02 ill i' m' -> get_op_code c02 ill i m <> -1 ->
  i = i' /\ canon c02 i m = canon c02 i' m'.
Proof.
  intros H i m i' m' E Hn.
  assert (R : forall i m, get_op_code c02 ill i m <> -1 -> 0 <= i < 118).
  { intros j n. unfold get_op_code, max_opcode. match goal with |- context [if ?b then _ else _] => destruct b eqn:X end; [lia|congruence]. }
  destruct (table_sound _ _ _ _ _ H i m _ (R _ _ Hn) eq_refl Hn eq_refl) as [_ D1].
  assert (Hn' : get_op_code c02 ill i' m' <> -1) by congruence.
  destruct (table_sound _ _ _ _ _ H i' m' _ (R _ _ Hn') eq_refl Hn' eq_refl) as [_ D2].
  rewrite E in D1. rewrite D1 in D2. injection D2 as -> ->. split; congruence.
Qed.

Lemma opcode_injective_6502 ill i m i' m' :
  get_op_code false ill i m = get_op_code false ill i' m' -> get_op_code false ill i m <> -1 ->
  i = i' /\ canon false i m = canon false i' m'.
Proof. apply opcode_injective_gen. destruct ill; vm_compute; reflexivity. Qed.

Lemma illegal_needs_flag i m : 98 <= i -> get_op_code false false i m = -1.
Proof.
  intros H. unfold get_op_code, illegal_start. match goal with |- context [if ?b then _ else _] => destruct b end; [|reflexivity].
  destruct (Z.leb_spec 98 i); [reflexivity|lia].
Qed.
