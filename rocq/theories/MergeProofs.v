From Coq Require Import Lia.
From Verif Require Import Merge.
Ltac Zify.zify_post_hook ::= Z.div_mod_to_equations.

Lemma part_len o o' p : length (part_bytes o p) = length (part_bytes o' p).
Proof. destruct p; reflexivity. Qed.
Lemma image_len o o' l : length (image o l) = length (image o' l).
Proof. unfold image. induction l as [|p l IH]; [reflexivity|]. cbn [flat_map]. rewrite !app_length, IH, (part_len o o'). reflexivity. Qed.

(** what the loop writes for each part *)
Definition mark (sz : Z) (p : part) : list Z :=
  match p with Lit b => [b] | Adr w => [(w - sz) mod 256; (w - sz) / 256 mod 256; marker] end.

Lemma lo_same org k w : (w + (org + 256 * k)) mod 256 = (w + org) mod 256.
Proof. replace (w + (org + 256 * k)) with ((w + org) + k * 256) by lia. apply Z.mod_add. lia. Qed.
Lemma hi_diff org k w : 0 < k < 256 -> ((w + org) / 256 mod 256 =? (w + (org + 256 * k)) / 256 mod 256) = false.
Proof. intros K. replace (w + (org + 256 * k)) with ((w + org) + k * 256) by lia. rewrite Z.div_add by lia. lia. Qed.

(** the offset in the file is the distance mod 65536, as [org] is a 16-bit address *)
Definition word16 (v : Z) : Z := v mod 256 + v / 256 mod 256 * 256.
Lemma offset_lo org sz w : (word16 (w + org) - (org + sz)) mod 256 = (w - sz) mod 256.
Proof. unfold word16. lia. Qed.
Lemma offset_hi org sz w : (word16 (w + org) - (org + sz)) / 256 mod 256 = (w - sz) / 256 mod 256.
Proof. unfold word16. lia. Qed.

(** The loop finds the addresses.  It looks at the byte after the present one: at a plain byte in front of an address
    that byte is the low byte of the address, which is the same in both images. *)
Lemma merge_loop_ok org k sz l : 0 < k < 256 -> forall fuel, (length (image org l) < fuel)%nat ->
  merge_loop fuel (org + sz) (image org l) (image (org + 256 * k) l) = flat_map (mark sz) l.
Proof.
  intros K. unfold image. induction l as [|p l IH]; intros fuel HF.
  - destruct fuel; reflexivity.
  - cbn [flat_map] in *. destruct fuel as [|fuel]; [lia|]. destruct p as [b|w]; cbn [part_bytes app] in *.
    + cbn [merge_loop length mark app] in *. specialize (IH fuel ltac:(lia)).
      assert (X : forall r1 r2, r1 = flat_map (part_bytes org) l -> r2 = flat_map (part_bytes (org + 256 * k)) l ->
        match r1, r2 with b1 :: t1, b2 :: t2 => negb (b1 =? b2) = false | _, _ => True end).
      { intros r1 r2 -> ->. destruct l as [|[b'|w'] l]; cbn [flat_map part_bytes app]; [exact I| |].
        - rewrite Z.eqb_refl. reflexivity.
        - rewrite lo_same, Z.eqb_refl. reflexivity. }
      specialize (X _ _ eq_refl eq_refl).
      remember (flat_map (part_bytes org) l) as r1. remember (flat_map (part_bytes (org + 256 * k)) l) as r2.
      destruct r1 as [|b1 t1]; [rewrite IH; reflexivity|]. destruct r2 as [|b2 t2]; [rewrite IH; reflexivity|].
      rewrite X, IH. reflexivity.
    + cbn [merge_loop length mark app] in *. rewrite hi_diff by exact K. cbn [negb].
      change ((w + org) mod 256 + (w + org) / 256 mod 256 * 256) with (word16 (w + org)).
      rewrite offset_lo, offset_hi, IH by lia. reflexivity.
Qed.

Lemma lit_ext {A B} (f g : A -> list B) l : (forall x, In x l -> f x = g x) -> flat_map f l = flat_map g l.
Proof. induction l as [|x l IH]; intros H; [reflexivity|]. cbn [flat_map]. rewrite H, IH; auto with datatypes. Qed.

(** the stub undoes the marking *)
Lemma reloc_ok top sz l : Forall (markable sz) l -> forall rest acc,
  reloc top (rev (flat_map (mark sz) l) ++ rest) acc = reloc top rest (image (top - sz) l ++ acc).
Proof.
  intros H. induction l as [|p l IH]; intros rest acc; [reflexivity|]. inversion H as [|p' l' Hp Hl]; subst.
  cbn [flat_map]. rewrite rev_app_distr, <- app_assoc, (IH Hl). unfold image. cbn [flat_map]. destruct p as [b|w]; cbn [mark rev app markable part_bytes] in *.
  - cbn [reloc]. replace (b =? marker) with false by lia. reflexivity.
  - cbn [reloc]. change (marker =? marker) with true. cbv iota. replace ((w - sz) / 256 mod 256 =? marker) with false by lia.
    replace (((w - sz) mod 256 + top mod 256) mod 256) with ((w + (top - sz)) mod 256) by lia.
    replace (((w - sz) / 256 mod 256 + top / 256 mod 256 + ((w - sz) mod 256 + top mod 256) / 256) mod 256) with ((w + (top - sz)) / 256 mod 256) by lia.
    reflexivity.
Qed.

Theorem merge_relocate stub org k l : 0 < k < 256 -> 0 <= org < 65536 -> Forall (markable (size l)) l ->
  exists out, merge stub (prg org l) (prg (org + 256 * k) l) = MergeOk out /\
    forall top, relocate top out = Some (image (top - size l) l).
Proof.
  intros K O H. unfold merge. unfold prg. cbn [length]. rewrite (image_len (org + 256 * k) org). rewrite Nat.eqb_refl. cbn [negb get_int skipn].
  eexists. split; [reflexivity|]. intros top. unfold relocate.
  replace (org mod 256 + org / 256 mod 256 * 256 + Z.of_nat (S (S (length (image org l)))) - 2) with (org + size l).
  2:{ unfold size. rewrite (image_len 0 org). lia. }
  rewrite (merge_loop_ok org k (size l) l K) by lia. rewrite !rev_app_distr, <- app_assoc, (reloc_ok top (size l) l H).
  cbn. rewrite app_nil_r. reflexivity.
Qed.

(** the second image itself comes back at its own end *)
Theorem merge_second stub org k l : 0 < k < 256 -> 0 <= org < 65536 -> Forall (markable (size l)) l ->
  exists out, merge stub (prg org l) (prg (org + 256 * k) l) = MergeOk out /\
    relocate (org + 256 * k + size l) out = Some (image (org + 256 * k) l) /\ relocate (org + size l) out = Some (image org l).
Proof.
  intros K O H. destruct (merge_relocate stub org k l K O H) as (out & E & R). exists out. split; [exact E|]. rewrite !R.
  split; f_equal; f_equal; lia.
Qed.

Theorem merge_length stub m1 m2 : length m1 <> length m2 -> merge stub m1 m2 = MergeBadLength.
Proof. intros H. unfold merge. apply Nat.eqb_neq in H. rewrite H. reflexivity. Qed.

(** lda #$36 is in no program that can be relocated *)
Definition lda_36 : list part := [Lit 169; Lit 54; Lit 96].
Lemma w48_marker : exists out, merge [] (prg 32768 lda_36) (prg 49152 lda_36) = MergeOk out /\ relocate 40960 out = None.
Proof. eexists. split; vm_compute; reflexivity. Qed.
(** two of them stop the copy in the middle, without a sign of it *)
Definition two_36 : list part := [Lit 76; Adr 0; Lit 54; Lit 54; Lit 96].
Lemma w48_stop : exists out, merge [] (prg 32768 two_36) (prg 49152 two_36) = MergeOk out /\ relocate 40960 out = Some [96].
Proof. eexists. split; vm_compute; reflexivity. Qed.

Definition mon_ex : list part := [Lit 169; Lit 1; Lit 141; Adr 1024; Lit 32; Adr 9; Lit 96; Lit 234; Lit 96].
Lemma mon_ex_ok : Forall (markable (size mon_ex)) mon_ex.
Proof. vm_compute. repeat constructor; intros; discriminate. Qed.
