(** States and witnesses for the examples of Prop_Sym.v. *)
From Coq Require Import String Lia Permutation Sorting.Sorted.
From Verif Require Import Base BaseProofs Hash Dict DictProofs DictMore Str Opcodes Err State Sym Machine Build Pass Prog SymProofs SymMore.
Open Scope string_scope.
Open Scope list_scope.
Open Scope Z_scope.

Definition after (l : list string) : state :=
  match parse_pass 1000 (boot l) with Ok _ s => s | _ => boot l end.

(** two sections with a symbol of the same name, a global one, and a macro with parameters *)
Definition ex_prog : list string :=
  ["  .org $1000"; "x0=5"; "  .section one"; "x1=1"; "loop nop"; "  .ends"; "  .section two"; "x1=2"; "  .ends";
   "  .macro ma"; "  lda #\1"; "  ldx #\2"; "  .endm"; "  ma 3,4"; "done rts"].
Definition ex_st : state := after ex_prog.
Definition in_one : state := set_scope (Some (cs "one")) ex_st.

Lemma ex_st_ok : table_ok ex_st.
Proof. apply table_okb_ok. vm_compute. reflexivity. Qed.
Lemma in_one_ok : table_ok in_one.
Proof. apply table_okb_ok. vm_compute. reflexivity. Qed.
Lemma in_one_single k : single in_one k.
Proof. apply singleb_ok. vm_compute. reflexivity. Qed.

Ltac plain_tac := split; [apply validsb_ok; vm_compute; reflexivity|];
  split; [vm_compute; intuition congruence|]; split; [vm_compute; intuition congruence|]; split; [discriminate|];
  split; [vm_compute; intuition congruence|vm_compute; congruence].
Lemma plain_new : plain (cs "new").
Proof. plain_tac. Qed.

(** the tables of the counterexamples *)
Definition two_files : list pmsym := [mkPm (cs "a.a") 3 100; mkPm (cs "a.a") 9 120; mkPm (cs "b.a") 4 200].
Lemma two_files_sorted : pm_sorted two_files.
Proof.
  split.
  - repeat constructor; vm_compute; reflexivity.
  - repeat (constructor; [apply validsb_ok; vm_compute; reflexivity|]). constructor.
Qed.

Lemma w21_crosses_files : exists t file line depth e, pm_sorted t /\ valids file /\
  minus_cands t file line = [e] /\ depth = 2 /\
  exists e', nth_error t (Z.to_nat (find_minus t depth file line)) = Some e' /\ in_file file e' = false.
Proof.
  exists two_files, (cs "b.a"), 10, 2, (mkPm (cs "b.a") 4 200).
  split; [exact two_files_sorted|]. split; [apply validsb_ok; vm_compute; reflexivity|].
  split; [vm_compute; reflexivity|]. split; [reflexivity|].
  exists (mkPm (cs "a.a") 9 120). split; vm_compute; reflexivity.
Qed.
Lemma w21_past_table : exists t file line depth e, pm_sorted t /\ valids file /\
  plus_cands t file line = [e] /\ depth = 2 /\
  0 <= find_plus t depth file line /\ nth_error t (Z.to_nat (find_plus t depth file line)) = None.
Proof.
  exists two_files, (cs "b.a"), 1, 2, (mkPm (cs "b.a") 4 200).
  split; [exact two_files_sorted|]. split; [apply validsb_ok; vm_compute; reflexivity|].
  split; [vm_compute; reflexivity|]. split; [reflexivity|]. split; [vm_compute; discriminate|vm_compute; reflexivity].
Qed.
(** the same in a program: '++' with one '+' label after it *)
Lemma w21_program : exists l, l = ["  .org $1000"; "+ nop"; "  jmp ++"; "+ rts"] /\ assemble 1000 (boot l) = Ub UbIndex.
Proof. eexists. split; [reflexivity|vm_compute; reflexivity]. Qed.

Lemma w46_dotted : exists s name s1, s_scope s = None /\ name = cs "a.b" /\
  x_end_section (enter name s) = Ok 0 s1 /\ s_scope s1 = Some (cs "a").
Proof.
  exists (boot []), (cs "a.b"), (set_scope (Some (cs "a")) (boot [])).
  split; [reflexivity|]. split; [reflexivity|]. split; vm_compute; reflexivity.
Qed.
