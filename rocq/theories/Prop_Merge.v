(** The relocation tool: C48. *)
From Verif Require Import Merge MergeProofs.

(** ** C48 *)
(** From the files of a program assembled at [org] and some pages higher, the tool makes a file from which the stub
    of relocate.asm, for any top of memory, builds the program as assembled to end there. *)
Theorem C48_relocates : forall stub org k l, 0 < k < 256 -> 0 <= org < 65536 -> Forall (markable (size l)) l ->
  exists out, merge stub (prg org l) (prg (org + 256 * k) l) = MergeOk out /\
    forall top, relocate top out = Some (image (top - size l) l).
Proof. exact merge_relocate. Qed.
Print Assumptions C48_relocates.

(** in particular the two images come back *)
Theorem C48_both_images : forall stub org k l, 0 < k < 256 -> 0 <= org < 65536 -> Forall (markable (size l)) l ->
  exists out, merge stub (prg org l) (prg (org + 256 * k) l) = MergeOk out /\
    relocate (org + 256 * k + size l) out = Some (image (org + 256 * k) l) /\ relocate (org + size l) out = Some (image org l).
Proof. exact merge_second. Qed.
Print Assumptions C48_both_images.

Theorem C48_length : forall stub m1 m2, length m1 <> length m2 -> merge stub m1 m2 = MergeBadLength.
Proof. exact merge_length. Qed.
Print Assumptions C48_length.

(** the marker byte itself cannot occur in the program: the stub runs off the file, or stops early *)
Theorem C48_marker_refuted : exists out, merge [] (prg 32768 lda_36) (prg 49152 lda_36) = MergeOk out /\ relocate 40960 out = None.
Proof. exact w48_marker. Qed.
Print Assumptions C48_marker_refuted.
Theorem C48_stop_refuted : exists out, merge [] (prg 32768 two_36) (prg 49152 two_36) = MergeOk out /\ relocate 40960 out = Some [96].
Proof. exact w48_stop. Qed.
Print Assumptions C48_stop_refuted.

Example C48_example : Forall (markable (size mon_ex)) mon_ex /\
  mon_ex = [Lit 169; Lit 1; Lit 141; Adr 1024; Lit 32; Adr 9; Lit 96; Lit 234; Lit 96] /\
  image 32768 mon_ex = [169; 1; 141; 0; 132; 32; 9; 128; 96; 234; 96].
Proof. split; [exact mon_ex_ok|]. split; [reflexivity|vm_compute; reflexivity]. Qed.
