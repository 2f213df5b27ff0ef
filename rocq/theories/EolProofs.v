From Verif Require Import Base BaseProofs Eol.

(** specification: a text is a list of lines, each free of CR and LF *)
Definition line_ok (l : list Z) : Prop := Forall (fun c => c <> 10 /\ c <> 13) l.
Definition join (eol : list Z) (ls : list (list Z)) : list Z := concat (map (fun l => l ++ eol) ls).

Lemma is_eol_iff c : is_eol c = true <-> c = 10 \/ c = 13.
Proof. unfold is_eol, CR, LF. lia. Qed.

Lemma eol_loop_line last count l s : line_ok l ->
  eol_loop last count (l ++ s) = l ++ eol_loop last (match l with [] => count | _ => 0 end) s.
Proof.
  intros H. revert count. induction H as [|c l [H1 H2] HF IH]; intros count; [reflexivity|].
  cbn [app eol_loop]. replace (is_eol c) with false by (unfold is_eol, CR, LF; lia). cbn [negb].
  rewrite IH. destruct l; reflexivity.
Qed.

(** after a complete line in each convention the state is one of these *)
Lemma eol_lf ls tail : Forall line_ok ls -> forall last count,
  (last = 10 \/ (last = 0 /\ count = 0)) -> line_ok tail ->
  eol_loop last count (join [10] ls ++ tail) = join [10] ls ++ tail.
Proof.
  induction 1 as [|l ls Hl HF IH]; intros last count Hst Ht.
  - cbn [join map concat app]. pose proof (eol_loop_line last count tail [] Ht) as E.
    rewrite app_nil_r in E. rewrite E. cbn. apply app_nil_r.
  - unfold join. cbn [map concat]. fold (join [10] ls). rewrite <- !app_assoc.
    rewrite eol_loop_line by exact Hl. f_equal. cbn [app eol_loop is_eol]. cbn [negb].
    destruct Hst as [->|[-> ->]].
    + cbn. f_equal. apply IH; auto.
    + destruct l; cbn; f_equal; apply IH; auto.
Qed.

Lemma eol_cr ls tail : Forall line_ok ls -> forall last count,
  (last = 13 \/ (last = 0 /\ count = 0)) -> line_ok tail ->
  eol_loop last count (join [13] ls ++ tail) = join [10] ls ++ tail.
Proof.
  induction 1 as [|l ls Hl HF IH]; intros last count Hst Ht.
  - cbn [join map concat app]. pose proof (eol_loop_line last count tail [] Ht) as E.
    rewrite app_nil_r in E. rewrite E. cbn. apply app_nil_r.
  - unfold join. cbn [map concat]. fold (join [13] ls). fold (join [10] ls). rewrite <- !app_assoc.
    rewrite eol_loop_line by exact Hl. f_equal. cbn [app eol_loop is_eol]. cbn [negb].
    destruct Hst as [->|[-> ->]].
    + cbn. f_equal. apply IH; auto.
    + destruct l; cbn; f_equal; apply IH; auto.
Qed.

Lemma eol_crlf ls tail : Forall line_ok ls -> forall last,
  (last = 10 \/ last = 0) -> line_ok tail ->
  eol_loop last 0 (join [13; 10] ls ++ tail) = join [10] ls ++ tail.
Proof.
  induction 1 as [|l ls Hl HF IH]; intros last Hst Ht.
  - cbn [join map concat app]. pose proof (eol_loop_line last 0 tail [] Ht) as E.
    rewrite app_nil_r in E. rewrite E. cbn. apply app_nil_r.
  - unfold join. cbn [map concat]. fold (join [13; 10] ls). fold (join [10] ls). rewrite <- !app_assoc.
    rewrite eol_loop_line by exact Hl. f_equal.
    replace (match l with [] => 0 | _ => 0 end) with 0 by (destruct l; reflexivity).
    cbn [app]. destruct Hst as [->| ->]; cbn; f_equal; apply IH; auto.
Qed.

(** removing all end-of-line characters commutes with the conversion *)
Lemma eol_strip s : forall last count,
  filter (fun c => negb (is_eol c)) (eol_loop last count s) = filter (fun c => negb (is_eol c)) s.
Proof.
  induction s as [|c s IH]; intros last count; [reflexivity|]. cbn [eol_loop filter].
  destruct (is_eol c) eqn:E; cbn [negb].
  - destruct (negb (c =? last)); cbv zeta.
    + destruct (count + 1 =? 1); [cbn [filter is_eol]; cbn; apply IH|].
      destruct (count + 1 =? 2); apply IH.
    + cbn. apply IH.
  - cbn [filter]. rewrite E. cbn [negb]. f_equal. apply IH.
Qed.

Lemma eol_no_cr s : forall last count, ~ In 13 (eol_loop last count s).
Proof.
  induction s as [|c s IH]; intros last count H; cbn [eol_loop] in H; [exact H|].
  destruct (is_eol c) eqn:E; cbn [negb] in H.
  - destruct (negb (c =? last)); cbv zeta in H.
    + destruct (count + 1 =? 1); [destruct H as [H|H]; [discriminate|now apply IH in H]|].
      destruct (count + 1 =? 2); now apply IH in H.
    + destruct H as [H|H]; [discriminate|now apply IH in H].
  - destruct H as [->|H]; [discriminate|now apply IH in H].
Qed.

(** LF-only text is a fixed point *)
Lemma eol_lf_fix s : ~ In 13 s -> forall last count, (last = 10 \/ (last = 0 /\ count = 0)) ->
  eol_loop last count s = s.
Proof.
  induction s as [|c s IH]; intros Hn last count Hst; [reflexivity|]. cbn [eol_loop].
  assert (~ In 13 s) as Hn' by (intros X; apply Hn; now right).
  assert (c <> 13) as Hc by (intros ->; apply Hn; now left).
  destruct (is_eol c) eqn:E; cbn [negb].
  - apply is_eol_iff in E as [->| ->]; [|congruence].
    destruct Hst as [->|[-> ->]]; cbn; f_equal; apply IH; auto.
  - f_equal. apply IH; [exact Hn'|]. destruct Hst as [->|[-> ->]]; auto.
Qed.
