(** Further lemmas used by Prop_Front. *)
From Coq Require Import String.
From Verif Require Import Base BaseProofs CNum Args ArgsProofs IfDef IfDefProofs File FileProofs.
Open Scope string_scope.
Open Scope list_scope.
Open Scope Z_scope.
Ltac Zify.zify_post_hook ::= Z.div_mod_to_equations.

(** .IFDEF defined / text 1 / .IFDEF undefined / text 2 / .ENDIF / text 3 / .ENDIF : text 3 is lost *)
Lemma ifdef_refuted : exists i, lex_run (mkLst false []) (source i) <> Some (mkLst false [], selected i).
Proof.
  exists (ICond true (ITxt 1 (ICond false (ITxt 2 INil) false INil (ITxt 3 INil))) false INil INil).
  vm_compute. discriminate.
Qed.

Lemma def_hex_both ds : Forall (fun d => 0 <= d < 16) ds -> posval 16 ds < 2 ^ 31 ->
  def_value (36 :: map dig ds) = posval 16 ds /\ (ds <> [] -> def_value (48 :: 120 :: map dig ds) = posval 16 ds).
Proof. intros H1 H2. split; [now apply def_value_hex|]. intros Hn. now apply def_value_0x. Qed.

Lemma def_bin_both ds : Forall (fun d => 0 <= d < 2) ds -> posval 2 ds < 2 ^ 31 ->
  def_value (37 :: map dig ds) = posval 2 ds /\ (ds <> [] -> def_value (48 :: 98 :: map dig ds) = posval 2 ds).
Proof. intros H1 H2. split; [now apply def_value_bin|]. intros Hn. now apply def_value_0b. Qed.

Lemma def_dec_refuted : exists ds, Forall (fun d => 0 <= d < 10) ds /\ posval 10 ds = 100 /\ def_value (map dig ds) <> posval 10 ds.
Proof. exists [1; 0; 0]. split; [repeat constructor; lia|]. split; [reflexivity|]. vm_compute. discriminate. Qed.

Lemma take_comp_app dir : forall len c r, take_comp dir len = (c, r) -> dir = c ++ r.
Proof.
  induction dir as [|x dir IH]; intros len c r; cbn [take_comp]; [intros [= <- <-]; reflexivity|].
  destruct ((x =? 59) || negb (len <? path_max - 1)); [intros [= <- <-]; reflexivity|].
  destruct (take_comp dir (len + 1)) as [p q] eqn:E. intros [= <- <-]. cbn [app]. f_equal. now apply IH with (len + 1).
Qed.

Lemma skip_blank_app d : exists p, d = p ++ skip_blank d.
Proof.
  induction d as [|c d [p IH]]; [now exists []|]. cbn [skip_blank]. destruct ((c =? 32) || (c =? 9)); [|now exists []].
  exists (c :: p). cbn [app]. now f_equal.
Qed.

Lemma drop_semi r : exists p, r = p ++ match r with 59 :: r' => r' | _ => r end.
Proof.
  destruct r as [|z r]; [now exists []|].
  destruct (Z.eq_dec z 59) as [->|Hn]; [now exists [59]|]. exists []. cbn [app].
  destruct z as [|p|p]; try reflexivity. do 6 (destruct p; try reflexivity). congruence.
Qed.

Lemma search_dirs_candidates fuel : forall fs file dir p, search_dirs fuel fs file dir = OFound p ->
  fs p = true /\ exists d, p = d ++ file /\ exists a b, dir = a ++ d ++ b.
Proof.
  induction fuel as [|fuel IH]; intros fs file dir p; cbn [search_dirs]; [discriminate|].
  destruct dir as [|c0 dir0]; [discriminate|]. set (dir := c0 :: dir0).
  destruct (take_comp dir 0) as [comp rest] eqn:E.
  destruct (path_max <=? _); [discriminate|]. destruct (fs (comp ++ file)) eqn:F.
  - intros [= <-]. split; [exact F|]. exists comp. split; [reflexivity|]. exists [], rest. cbn [app]. now apply take_comp_app with 0.
  - intros H. apply IH in H as (H1 & d & H2 & a & b & H3). split; [exact H1|]. exists d. split; [exact H2|].
    apply take_comp_app in E. destruct (drop_semi rest) as [p1 Hp1].
    set (r1 := match rest with 59 :: r' => r' | _ => rest end) in *.
    destruct (skip_blank_app r1) as [p2 Hp2].
    change (skip_blank _) with (skip_blank r1) in H3.
    rewrite H3 in Hp2. exists (comp ++ p1 ++ p2 ++ a), b. rewrite E. change (rest = p1 ++ r1) in Hp1. clearbody r1. subst rest r1. rewrite <- !app_assoc. reflexivity.
Qed.

Lemma open_file_candidates fs dirs file p : open_file fs dirs file = OFound p ->
  fs p = true /\ exists d, p = d ++ file /\ (d = [] \/ exists dd, dirs = Some dd /\ exists a b, dd = a ++ d ++ b).
Proof.
  unfold open_file. destruct (fs file) eqn:F.
  - intros [= <-]. split; [exact F|]. exists []. split; [reflexivity|now left].
  - destruct dirs as [dd|]; [|discriminate]. intros H. apply search_dirs_candidates in H as (H1 & d & H2 & H3).
    split; [exact H1|]. exists d. split; [exact H2|]. right. exists dd. split; [reflexivity|exact H3].
Qed.

Lemma search_dirs_fuel fuel : forall fs file dir, (List.length dir < fuel)%nat -> search_dirs fuel fs file dir <> OFuel.
Proof.
  induction fuel as [|fuel IH]; intros fs file dir Hf; [lia|]. cbn [search_dirs].
  destruct dir as [|c0 dir0]; [discriminate|]. set (dir := c0 :: dir0) in *.
  destruct (take_comp dir 0) as [comp rest] eqn:E.
  destruct (path_max <=? _); [discriminate|]. destruct (fs (comp ++ file)); [discriminate|].
  apply IH. pose proof (take_comp_app _ _ _ _ E) as EA.
  destruct (drop_semi rest) as [p1 Hp1]. set (r1 := match rest with 59 :: r' => r' | _ => rest end) in *.
  change (rest = p1 ++ r1) in Hp1. destruct (skip_blank_app r1) as [p2 Hp2].
  change (skip_blank _) with (skip_blank r1).
  assert (L : (List.length comp + List.length p1 + List.length p2 + List.length (skip_blank r1) = List.length dir)%nat).
  { apply (f_equal (@List.length Z)) in EA, Hp1, Hp2. rewrite !app_length in *. lia. }
  assert (HP : (0 < List.length comp + List.length p1)%nat); [|lia].
  destruct comp as [|y comp]; [|cbn [List.length]; lia]. cbn [List.length].
  unfold dir in E. cbn [take_comp] in E. change (0 <? path_max - 1) with true in E. cbn [negb] in E. rewrite orb_false_r in E.
  destruct (Z.eqb_spec c0 59) as [->|Hne]; [|destruct (take_comp dir0 (0 + 1)); discriminate].
  injection E as <-. destruct p1; [|cbn [List.length]; lia]. cbn [app] in Hp1. unfold r1, dir in Hp1. apply (f_equal (@List.length Z)) in Hp1. cbn in Hp1. lia.
Qed.

Lemma open_file_fuel fs dirs file : open_file fs dirs file <> OFuel.
Proof.
  unfold open_file. destruct (fs file); [discriminate|]. destruct dirs as [d|]; [|discriminate]. apply search_dirs_fuel. lia.
Qed.

Lemma read_file_concat s : concat (map snd (read_file_lines s)) = s.
Proof. apply read_lines_concat. lia. Qed.

Lemma read_lines_long : exists l s, Forall (fun x => x <> 10) l /\ Z.of_nat (List.length l) = 2047 /\
  nth_error (read_file_lines (nl l ++ s)) 1 = Some (2, [10]).
Proof.
  exists (repeat 65 2047), []. split; [|split].
  - apply Forall_forall. intros x Hx. apply repeat_spec in Hx. lia.
  - rewrite repeat_length. reflexivity.
  - vm_compute. reflexivity.
Qed.

Lemma command_line_example :
  let l := [OIn (cs "a.asm"); OOut (cs "a.prg"); OCpu true; ODef (cs "X") (cs "$10"); OIn (cs "b.asm"); OC64] in
  Forall opt_ok l /\ once l /\
  parse_arguments [cs "a.asm"; cs "-o"; cs "a.prg"; cs "-65C02"; cs "-d"; cs "X"; cs "$10"; cs "b.asm"; cs "-c64"] =
    AOk (mkCfg (Some (cs "a.prg")) None None None None true false (Some true) false false [(cs "X", 16)] [cs "a.asm"; cs "b.asm"]).
Proof.
  split; [|split].
  - repeat constructor; vm_compute; try discriminate; tauto.
  - unfold once. cbn. repeat constructor; cbn; intuition discriminate.
  - vm_compute. reflexivity.
Qed.
