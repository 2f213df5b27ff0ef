(** Further lemmas used by Prop_Opcodes. *)
From Verif Require Import Base Opcodes Cpu OpcodesProofs.
Open Scope Z_scope.
Ltac Zify.zify_post_hook ::= Z.div_mod_to_equations.

Lemma illegal_flag_adds c02 i m : get_op_code c02 false i m <> -1 -> get_op_code c02 true i m = get_op_code c02 false i m.
Proof.
  unfold get_op_code. match goal with |- context [if ?b then _ else -1] => destruct b end; [|congruence].
  match goal with |- context [if ?b then -1 else _] => destruct b eqn:E1 end; [congruence|]. intros _.
  match goal with |- context [if ?b then -1 else _] => destruct b eqn:E2 end; [|reflexivity].
  exfalso. rewrite ?andb_false_r, ?andb_true_r in *. cbn in *. congruence.
Qed.

Lemma opcode_example : get_op_code false false i_lda m_I = 169 /\ decode6502 169 = Some (i_lda, m_I) /\
  get_op_code false false i_jmp m_ind = 108 /\ get_op_code false false i_slo m_zp = -1 /\
  get_op_code false true i_slo m_zp = 7 /\ get_op_code true false i_bra m_r = 128.
Proof. vm_compute. repeat split; reflexivity. Qed.

Definition chk98 (ill : bool) : bool :=
  chk_table true ill (lookup_entry (all_entries true ill)) noskip 98.
Lemma opcode_injective_65c02 ill i m i' m' : i < 98 -> i' < 98 ->
  get_op_code true ill i m = get_op_code true ill i' m' -> get_op_code true ill i m <> -1 ->
  i = i' /\ canon true i m = canon true i' m'.
Proof.
  intros Hi Hi' E Hn.
  assert (H : chk98 ill = true) by (destruct ill; vm_compute; reflexivity). unfold chk98 in H.
  assert (R : forall i m, get_op_code true ill i m <> -1 -> 0 <= i).
  { intros j n. unfold get_op_code, max_opcode. match goal with |- context [if ?b then _ else _] => destruct b eqn:X end; [lia|congruence]. }
  pose proof (R _ _ Hn) as R1.
  destruct (table_sound _ _ _ _ _ H i m _ ltac:(lia) eq_refl Hn eq_refl) as [_ D1].
  assert (Hn' : get_op_code true ill i' m' <> -1) by congruence. pose proof (R _ _ Hn') as R2.
  destruct (table_sound _ _ _ _ _ H i' m' _ ltac:(lia) eq_refl Hn' eq_refl) as [_ D2].
  rewrite E in D1. rewrite D1 in D2. injection D2 as -> ->. split; congruence.
Qed.

Lemma opcode_collision_65c02 : exists i m i' m',
  get_op_code true false i m = get_op_code true false i' m' /\ get_op_code true false i m <> -1 /\ i <> i'.
Proof. exists i_slo, m_zp, i_rmb0, m_zp. vm_compute. repeat split; discriminate. Qed.

Lemma zpi_example : decode65c02 178 = Some (i_lda, m_zpi).
Proof. reflexivity. Qed.
