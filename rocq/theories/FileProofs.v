From Verif Require Import Base BaseProofs File.
Ltac Zify.zify_post_hook ::= Z.div_mod_to_equations.

(** ** search order *)
(** a -dir argument: a first component, then ";", blanks, component, ... *)
Fixpoint render_tail (l : list (cstr * cstr)) : cstr :=
  match l with
  | [] => []
  | (b, c) :: l' => 59 :: b ++ c ++ render_tail l'
  end.

Definition comp_ok (c : cstr) : Prop := Forall (fun x => x <> 59) c.
Definition blanks (b : cstr) : Prop := Forall (fun x => x = 32 \/ x = 9) b.
Definition starts_ok (c : cstr) : Prop := match c with x :: _ => x <> 32 /\ x <> 9 | [] => True end.
Definition fits (file c : cstr) : Prop := Z.of_nat (length c) + Z.of_nat (length file) + 2 < 4096.

Fixpoint last_ok (c : cstr) (l : list (cstr * cstr)) : Prop :=
  match l with
  | [] => c <> []
  | (_, c') :: l' => last_ok c' l'
  end.

Lemma take_comp_spec c r len : comp_ok c -> len + Z.of_nat (length c) <= 4095 ->
  (r = [] \/ exists r', r = 59 :: r') -> take_comp (c ++ r) len = (c, r).
Proof.
  revert len. induction c as [|x c IH]; intros len Hc Hl Hr.
  - cbn [app]. destruct Hr as [->|[r' ->]]; reflexivity.
  - inversion Hc; subst. cbn [app take_comp length] in *. unfold path_max.
    destruct (Z.eqb_spec x 59); [congruence|]. destruct (Z.ltb_spec len (4096 - 1)); [|lia].
    cbn [orb negb]. rewrite IH; [reflexivity|assumption|lia|exact Hr].
Qed.

Lemma skip_blank_spec b c : blanks b -> starts_ok c -> skip_blank (b ++ c) = c.
Proof.
  induction 1 as [|x b Hx HF IH]; cbn [app skip_blank]; intros Hc.
  - destruct c as [|y c]; [reflexivity|]. cbn in Hc |- *. replace ((y =? 32) || (y =? 9)) with false by lia. reflexivity.
  - replace ((x =? 32) || (x =? 9)) with true by lia. now apply IH.
Qed.

Lemma render_tail_shape l : render_tail l = [] \/ exists r', render_tail l = 59 :: r'.
Proof. destruct l as [|[b c] l]; [now left|]. right. cbn [render_tail]. eauto. Qed.

Lemma starts_app c r : starts_ok c -> (c = [] -> r = [] \/ exists r', r = 59 :: r') -> starts_ok (c ++ r).
Proof.
  destruct c as [|x c]; cbn [app starts_ok]; [|tauto]. intros _ H.
  destruct (H eq_refl) as [->|[r' ->]]; cbn; [exact I|lia].
Qed.

(** first existing candidate, in order *)
Fixpoint first_found (fs : cstr -> bool) (cands : list cstr) : ores :=
  match cands with
  | [] => ONone
  | p :: l => if fs p then OFound p else first_found fs l
  end.

Lemma search_dirs_spec fs file l : forall c fuel,
  comp_ok c -> fits file c -> last_ok c l ->
  Forall (fun bc => blanks (fst bc) /\ comp_ok (snd bc) /\ starts_ok (snd bc) /\ fits file (snd bc)) l ->
  (length (c ++ render_tail l) < fuel)%nat ->
  search_dirs fuel fs file (c ++ render_tail l) = first_found fs (map (fun c => c ++ file) (c :: map snd l)).
Proof.
  induction l as [|[b c'] l IH]; intros c fuel Hc Hf Hlast HF Hfuel.
  - cbn [render_tail last_ok map] in *. rewrite app_nil_r in *. destruct fuel as [|fuel]; [lia|].
    cbn [search_dirs]. destruct c as [|x c]; [congruence|]. set (cc := x :: c) in *.
    rewrite <- (app_nil_r cc) at 1. rewrite take_comp_spec; [|exact Hc|unfold fits in Hf; lia|now left].
    unfold path_max, fits in *. destruct (Z.leb_spec 4096 (Z.of_nat (length cc) + Z.of_nat (length file) + 2)); [lia|].
    cbn [first_found]. destruct (fs (cc ++ file)); [reflexivity|].
    cbn [skip_blank]. destruct fuel as [|fuel]; [cbn in Hfuel; lia|]. reflexivity.
  - destruct fuel as [|fuel]; [lia|]. inversion HF as [|? ? (Hb & Hc' & Hst & Hf') HF']; subst. cbn [fst snd] in *.
    cbn [search_dirs]. destruct (c ++ render_tail ((b, c') :: l)) as [|y z] eqn:E.
    { exfalso. cbn [render_tail] in E. now destruct c. }
    rewrite <- E. rewrite take_comp_spec; [|exact Hc|unfold fits in Hf; lia|right; cbn [render_tail]; eauto].
    unfold path_max, fits in Hf |- *. destruct (Z.leb_spec 4096 (Z.of_nat (length c) + Z.of_nat (length file) + 2)); [lia|].
    cbn [map first_found]. destruct (fs (c ++ file)); [reflexivity|].
    cbn [render_tail]. rewrite skip_blank_spec; [|exact Hb|].
    + apply IH; try assumption. cbn [render_tail] in E.
      assert (HL : length (c ++ 59 :: b ++ c' ++ render_tail l) = length (y :: z)) by now rewrite E.
      rewrite !app_length in *. cbn [length] in *. rewrite !app_length in HL. lia.
    + apply starts_app; [exact Hst|]. intros _. apply render_tail_shape.
Qed.

Lemma open_file_spec fs file c l :
  comp_ok c -> fits file c -> last_ok c l ->
  Forall (fun bc => blanks (fst bc) /\ comp_ok (snd bc) /\ starts_ok (snd bc) /\ fits file (snd bc)) l ->
  open_file fs (Some (c ++ render_tail l)) file = first_found fs (file :: map (fun c => c ++ file) (c :: map snd l)).
Proof.
  intros. unfold open_file. cbn [first_found map]. destruct (fs file); [reflexivity|].
  apply search_dirs_spec; try assumption. lia.
Qed.

(** ** lines *)
Lemma fgets_app n s : forall l r, fgets n s = (l, r) -> l ++ r = s.
Proof.
  revert n. induction s as [|c s IH]; intros n l r; cbn [fgets].
  - intros [= <- <-]. reflexivity.
  - destruct (n <=? 0). { intros [= <- <-]. reflexivity. }
    destruct (c =? 10). { intros [= <- <-]. reflexivity. }
    destruct (fgets (n - 1) s) as [l' r'] eqn:E. intros [= <- <-]. cbn [app]. f_equal. now apply (IH (n - 1)).
Qed.

Lemma fgets_nonempty n c s l r : 0 < n -> fgets n (c :: s) = (l, r) -> l <> [].
Proof.
  intros Hn. cbn [fgets]. destruct (Z.leb_spec n 0); [lia|]. destruct (c =? 10); [intros [= <- <-]; discriminate|].
  destruct (fgets (n - 1) s). intros [= <- <-]. discriminate.
Qed.

Lemma fgets_line n l s : 0 <= n -> Forall (fun x => x <> 10) l -> Z.of_nat (length l) < n ->
  fgets n (l ++ 10 :: s) = (l ++ [10], s).
Proof.
  intros Hn HF. revert n Hn. induction HF as [|x l Hx HF IH]; intros n Hn HL; cbn [app fgets length] in *.
  - destruct (Z.leb_spec n 0); [lia|]. reflexivity.
  - destruct (Z.leb_spec n 0); [lia|]. destruct (Z.eqb_spec x 10); [congruence|]. rewrite IH by lia. reflexivity.
Qed.

Lemma fgets_last n l : 0 <= n -> Forall (fun x => x <> 10) l -> Z.of_nat (length l) <= n -> fgets n l = (l, []).
Proof.
  intros Hn HF. revert n Hn. induction HF as [|x l Hx HF IH]; intros n Hn HL; cbn [fgets length] in *.
  - reflexivity.
  - destruct (Z.leb_spec n 0); [lia|]. destruct (Z.eqb_spec x 10); [congruence|]. rewrite IH by lia. reflexivity.
Qed.

Lemma read_lines_concat fuel : forall line s, (length s <= fuel)%nat ->
  concat (map snd (read_lines fuel line s)) = s.
Proof.
  induction fuel as [|fuel IH]; intros line s Hf.
  - destruct s; [reflexivity|cbn in Hf; lia].
  - cbn [read_lines]. destruct s as [|c s]; [reflexivity|].
    destruct (fgets (max_line_len - 1) (c :: s)) as [l r] eqn:E.
    pose proof (fgets_app _ _ _ _ E) as HA. assert (0 < max_line_len - 1) as HM by (unfold max_line_len; lia).
    pose proof (fgets_nonempty _ _ _ _ _ HM E) as HN.
    cbn [map concat snd]. rewrite IH; [exact HA|].
    assert (length (l ++ r) = length (c :: s)) as HL by now rewrite HA. rewrite app_length in HL. cbn [length] in *.
    destruct l; [congruence|]. cbn [length] in HL. lia.
Qed.

Lemma read_lines_numbers fuel : forall line s i p, nth_error (read_lines fuel line s) i = Some p ->
  fst p = line + Z.of_nat i.
Proof.
  induction fuel as [|fuel IH]; intros line s i p; cbn [read_lines].
  - destruct i; discriminate.
  - destruct s as [|c s]; [destruct i; discriminate|].
    destruct (fgets (max_line_len - 1) (c :: s)) as [l r]. destruct i as [|i]; cbn [nth_error].
    + intros [= <-]. cbn [fst]. lia.
    + intros H. apply IH in H. lia.
Qed.

Fixpoint number (n : Z) (ls : list cstr) : list (Z * cstr) :=
  match ls with [] => [] | l :: ls' => (n, l) :: number (n + 1) ls' end.

(** a text of newline-terminated lines, each shorter than the buffer *)
Definition nl (l : cstr) : cstr := l ++ [10].
Lemma read_lines_text ls : forall fuel line, Forall (fun l => Forall (fun x => x <> 10) l /\ Z.of_nat (length l) < 2047) ls ->
  (length (concat (map nl ls)) <= fuel)%nat ->
  read_lines fuel line (concat (map nl ls)) = number line (map nl ls).
Proof.
  induction ls as [|l ls IH]; intros fuel line HF Hf.
  - destruct fuel; reflexivity.
  - inversion HF as [|? ? [Hl1 Hl2] HF']; subst. cbn [map concat number] in *. unfold nl at 1 in Hf. unfold nl at 1. rewrite <- app_assoc in *. cbn [app] in *.
    destruct fuel as [|fuel]; [rewrite app_length in Hf; cbn [length] in Hf; lia|].
    cbn [read_lines]. destruct (l ++ 10 :: concat (map nl ls)) eqn:E; [now destruct l|].
    rewrite <- E. unfold max_line_len. rewrite fgets_line by (assumption || lia). f_equal. apply IH; [assumption|].
    rewrite <- E in Hf. rewrite app_length in Hf. cbn [length] in Hf. lia.
Qed.

Lemma read_file_text ls : Forall (fun l => Forall (fun x => x <> 10) l /\ Z.of_nat (length l) < 2047) ls ->
  read_file_lines (concat (map nl ls)) = number 1 (map nl ls).
Proof. intros H. apply read_lines_text; [exact H|lia]. Qed.
