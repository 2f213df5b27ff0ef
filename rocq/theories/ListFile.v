(** The rows of the list file: every record that stands for bytes has its row, in the order of the records. *)
From Coq Require Import Lia.
From Verif Require Import Base BaseProofs State Machine File FileProofs List ListRel ListProofs.
Open Scope list_scope.
Open Scope Z_scope.

Lemma find_entry_in es file : (find_entry es file < length es)%nat -> exists n l, nth_error es (find_entry es file) = Some (n, l) /\ stricmp n file = 0.
Proof.
  induction es as [|(n, l) es IH]; cbn [find_entry length]; [lia|]. destruct (stricmp n file =? 0) eqn:E; intros H.
  - exists n, l. split; [reflexivity|apply Z.eqb_eq; exact E].
  - apply IH. lia.
Qed.
Lemma find_entry_new es file l : ~ (find_entry es file < length es)%nat -> find_entry (es ++ [(file, l)]) file = length es.
Proof.
  induction es as [|(n, l') es IH]; cbn [find_entry length app]; [rewrite stricmp_refl; reflexivity|].
  destruct (stricmp n file =? 0) eqn:E; [lia|]. intros H. rewrite IH by lia. reflexivity.
Qed.

Section Files.
Variable rd : cstr -> option cstr.
(** names that differ in case only are one file, as find_entry takes them *)
Hypothesis Hrd : forall a b, stricmp a b = 0 -> rd a = rd b.

Definition src (f : fline) : Z * cstr := (f_no f, f_text f).
Definition okes (es : list fentry) : Prop := Forall (fun e => map src (snd e) = map src (load rd (fst e))) es.

Lemma load_same a b : stricmp a b = 0 -> load rd a = load rd b.
Proof. intros E. unfold load. rewrite (Hrd _ _ E). reflexivity. Qed.
Lemma with_entry_lines es file : okes es -> okes (with_entry rd es file) /\
  exists n, nth_error (with_entry rd es file) (find_entry (with_entry rd es file) file) = Some (n, lines_at (with_entry rd es file) (find_entry (with_entry rd es file) file)) /\
    stricmp n file = 0 /\ map src (lines_at (with_entry rd es file) (find_entry (with_entry rd es file) file)) = map src (load rd file).
Proof.
  intros O. unfold with_entry. destruct (find_entry es file <? length es)%nat eqn:L.
  - apply Nat.ltb_lt in L. split; [exact O|]. destruct (find_entry_in _ _ L) as (n & l & E1 & E2). exists n. unfold lines_at. rewrite E1. split; [reflexivity|].
    split; [exact E2|]. apply nth_error_In in E1. unfold okes in O. rewrite Forall_forall in O. specialize (O _ E1). cbn [fst snd] in O. rewrite O. f_equal. apply load_same. exact E2.
  - apply Nat.ltb_ge in L. rewrite find_entry_new by lia. split; [apply Forall_app; split; [exact O|repeat constructor]|].
    exists file. unfold lines_at. rewrite nth_error_app2, Nat.sub_diag by lia. cbn [nth_error]. split; [reflexivity|]. split; [apply stricmp_refl|reflexivity].
Qed.
Lemma okes_set es i l : okes es -> map src l = map src (lines_at es i) -> okes (set_lines es i l).
Proof.
  intros O E. unfold set_lines, lines_at in *. destruct (nth_error es i) as [(n, l0)|] eqn:N; [|exact O].
  assert (X : map src l0 = map src (load rd n)) by (unfold okes in O; rewrite Forall_forall in O; apply nth_error_In in N; exact (O _ N)).
  clear N. revert i. induction O as [|e es He O IH]; intros [|i]; cbn [upd]; try (constructor; fail).
  - constructor; [|exact O]. cbn [fst snd]. congruence.
  - constructor; [exact He|]. exact (IH i).
Qed.
Lemma show_src out i f : src (snd (show out i f)) = src f.
Proof. unfold show. destruct (f_shown f =? 0); reflexivity. Qed.
Lemma show_col out i f : columns [fst (show out i f)] = [out].
Proof. unfold show. destruct (f_shown f =? 0); reflexivity. Qed.
Lemma show_rest_src i last : forall l, map src (snd (show_rest i last l)) = map src l /\ Forall (fun t => t = []) (columns (fst (show_rest i last l))).
Proof.
  induction l as [|f l IH]; cbn [show_rest]; [split; constructor|]. destruct (f_no f <=? last); [|split; constructor].
  pose proof (show_src [] i f) as E. pose proof (show_col [] i f) as C. destruct (show [] i f) as [p f']. destruct (show_rest i last l) as [ps l'].
  cbn [fst snd map] in *. destruct IH as [IH1 IH2]. split; [congruence|].
  destruct p as [| |o x]; cbn [columns] in *; try discriminate. injection C as ->. constructor; auto.
Qed.
Lemma columns_app a b : columns (a ++ b) = columns a ++ columns b.
Proof. induction a as [|p a IH]; [reflexivity|]. destruct p; cbn [app columns]; rewrite IH; reflexivity. Qed.

Definition filled (t : cstr) : bool := match t with [] => false | _ => true end.
Definition bears (r : lrec) : bool := match l_body r with LNone => false | _ => true end.
Lemma text_filled r : filled (body_text (l_body r)) = bears r.
Proof. unfold bears. destruct (l_body r); reflexivity. Qed.
Lemma filter_empty l : Forall (fun t => t = []) l -> filter filled l = [].
Proof. induction 1 as [|t l E _ IH]; [reflexivity|]. subst. exact IH. Qed.
(** the line of the record is a line of its file *)
Definition placed (r : lrec) : Prop := bears r = true -> 1 <= l_line r /\ exists f, In f (load rd (l_file r)) /\ l_line r <= f_no f.
Lemma seek_end l line : skipn (seek l line) l = [] -> Forall (fun f => f_no f < line) l.
Proof.
  induction l as [|f l IH]; cbn [seek]; [constructor|]. destruct (f_no f <? line) eqn:E; cbn [skipn].
  - intros H. constructor; [lia|auto].
  - discriminate.
Qed.
Lemma skip_split (A : Type) j (l : list A) x y : skipn j l = x :: y -> l = firstn j l ++ x :: y.
Proof. intros E. rewrite <- E. symmetry. apply firstn_skipn. Qed.
Lemma end_line_pos r rs : 1 <= l_line r -> 1 <= end_line r rs.
Proof. intros H. unfold end_line. destruct rs as [|n rs]; [exact H|]. destruct (_ && _) eqn:E; [|exact H]. apply andb_prop in E. lia. Qed.

Lemma records_columns : forall rs cur es ps, okes es -> Forall (stated 1) rs -> Forall placed rs -> records rd rs cur 1 es = Some ps ->
  filter filled (columns ps) = map (fun r => body_text (l_body r)) (filter bears rs).
Proof.
  induction rs as [|r rs IH]; intros cur es ps O S P; cbn [records]; [intros E; injection E as <-; reflexivity|].
  inversion S as [|? ? (S1 & S2 & _) S']; subst. inversion P as [|? ? P1 P']; subst. clear S P. rewrite S1, S2. cbn [Z.eqb Pos.eqb negb].
  set (head := if stricmp cur (l_file r) =? 0 then [] else [PHead (l_file r)]).
  assert (Hh : forall x, columns (head ++ x) = columns x) by (intros x; unfold head; destruct (_ =? _); reflexivity).
  assert (skip : bears r = false -> forall es, okes es -> option_map (app head) (records rd rs (l_file r) 1 es) = Some ps ->
    filter filled (columns ps) = map (fun r => body_text (l_body r)) (filter bears (r :: rs))).
  { intros B es' O' E. destruct (records rd rs (l_file r) 1 es') as [q|] eqn:Eq; [|discriminate]. injection E as <-. rewrite Hh. cbn [filter]. rewrite B.
    eapply IH; eauto. }
  destruct (end_line r rs =? 0) eqn:El.
  { apply Z.eqb_eq in El. destruct (bears r) eqn:B; [|intros E; exact (skip eq_refl es O E)]. destruct (P1 B) as [L _]. pose proof (end_line_pos r rs L). lia. }
  destruct (with_entry_lines es (l_file r) O) as (O' & n & N1 & N2 & N3). set (es1 := with_entry rd es (l_file r)) in *. set (i := find_entry es1 (l_file r)) in *.
  set (l := lines_at es1 i) in *. destruct (skipn (seek l (l_line r)) l) as [|f l'] eqn:Sk.
  { destruct (bears r) eqn:B; [|intros E; exact (skip eq_refl es1 O' E)]. exfalso. destruct (P1 B) as [_ (f & Hf & Lf)]. apply seek_end in Sk.
    apply (in_map src) in Hf. rewrite <- N3 in Hf. apply in_map_iff in Hf. destruct Hf as (g & Eg & Hg). rewrite Forall_forall in Sk. specialize (Sk _ Hg). inversion Eg. lia. }
  pose proof (show_src (body_text (l_body r)) i f) as E1. pose proof (show_col (body_text (l_body r)) i f) as E2.
  destruct (show (body_text (l_body r)) i f) as [p f']. cbn [fst snd] in E1, E2. destruct (fits _ p); [|discriminate].
  destruct (show_rest_src i (end_line r rs) l') as [E3 E4]. destruct (show_rest i (end_line r rs) l') as [q l'']. cbn [fst snd] in E3, E4.
  destruct (records rd rs (l_file r) 1 _) as [ps'|] eqn:Er; [|discriminate]. cbn [option_map]. intros E. injection E as <-. rewrite Hh.
  change (columns _) with (columns ([p] ++ q ++ ps')). rewrite !columns_app, E2, !filter_app, (filter_empty _ E4). cbn [app filter]. rewrite text_filled.
  assert (X : filter filled (columns ps') = map (fun r => body_text (l_body r)) (filter bears rs)).
  { eapply IH; [|exact S'|exact P'|exact Er]. apply okes_set; [exact O'|]. fold l.
    transitivity (map src (firstn (seek l (l_line r)) l ++ f :: l')); [rewrite !map_app; cbn [map]; congruence|]. f_equal. symmetry. exact (skip_split _ _ _ _ _ Sk). }
  rewrite X. destruct (bears r); reflexivity.
Qed.
Lemma upd_src j f' : forall l f, nth_error l j = Some f -> src f' = src f -> map src (upd j f' l) = map src l.
Proof.
  induction j as [|j IH]; intros [|x l] f E H; try discriminate; cbn [upd map].
  - injection E as ->. congruence.
  - f_equal. exact (IH l f E H).
Qed.
Lemma before_ok r : forall n line es ps es', okes es -> before rd n line r es = Some (ps, es') -> okes es' /\ Forall (fun t => t = []) (columns ps).
Proof.
  induction n as [|n IH]; intros line es ps es' O; cbn [before]; [intros E; injection E as <- <-; split; [exact O|constructor]|].
  destruct (with_entry_lines es (l_file r) O) as (O' & m & N1 & N2 & N3). set (es1 := with_entry rd es (l_file r)) in *. set (i := find_entry es1 (l_file r)) in *.
  destruct (l_dir r); [apply IH; exact O'|]. destruct (nth_error (lines_at es1 i) (seek (lines_at es1 i) line)) as [f|] eqn:Ef; [|discriminate].
  pose proof (show_src [] i f) as E1. pose proof (show_col [] i f) as E2. destruct (show [] i f) as [p f']. cbn [fst snd] in E1, E2.
  destruct (f_shown f =? 0); [|apply IH; exact O']. destruct (fits [] p); [|discriminate].
  destruct (before rd n _ r _) as [(ps', es2)|] eqn:Eb; [|discriminate]. intros E. injection E as <- <-.
  apply IH in Eb; [|apply okes_set; [exact O'|exact (upd_src _ _ _ _ Ef E1)]]. destruct Eb as [B1 B2]. split; [exact B1|].
  change (p :: ps') with ([p] ++ ps'). rewrite columns_app, E2. constructor; auto.
Qed.
(** the list file *)
Theorem list_columns rs ps : Forall (stated 1) rs -> Forall placed rs -> generate_list_file rd rs = Some ps ->
  filter filled (columns ps) = map (fun r => body_text (l_body r)) (filter bears rs).
Proof.
  intros S P. unfold generate_list_file. destruct rs as [|r rs]; [discriminate|]. destruct (before rd _ 1 r []) as [(q, es)|] eqn:Eb; [|discriminate].
  destruct (before_ok r _ _ _ _ _ (Forall_nil _) Eb) as [O Q]. destruct (records rd (r :: rs) (l_file r) 1 es) as [ps'|] eqn:Er; [|discriminate].
  cbn [option_map]. intros E. injection E as <-. cbn [columns app]. rewrite columns_app, filter_app, (filter_empty _ Q). exact (records_columns _ _ _ _ O S P Er).
Qed.
Lemma read_filled ts : read_rows ts = read_rows (filter filled ts).
Proof.
  induction ts as [|t ts IH]; [reflexivity|]. cbn [filter]. destruct t as [|c t]; cbn [filled].
  - cbn [read_rows read_row]. rewrite <- IH. destruct (read_rows _); reflexivity.
  - cbn [read_rows]. rewrite IH. reflexivity.
Qed.
Lemma read_records rs : forall l, read_rows (map (fun r => body_text (l_body r)) (filter bears rs)) = Some l -> l = concat (map (fun r => body_bytes (l_body r)) rs).
Proof.
  induction rs as [|r rs IH]; intros l; [cbn; intros E; injection E as <-; reflexivity|]. cbn [filter map concat]. destruct (bears r) eqn:B.
  - cbn [map read_rows]. destruct (read_row _) as [a|] eqn:E1; [|discriminate]. destruct (read_rows _) as [b|] eqn:E2; [|discriminate]. intros E. injection E as <-.
    rewrite <- (IH b eq_refl), (read_body_some _ _ E1). reflexivity.
  - intros E. rewrite <- (IH l E). unfold bears in B. destruct (l_body r); try discriminate. reflexivity.
Qed.
Lemma read_records_ok rs : Forall (fun r => row_ok (l_body r)) rs ->
  read_rows (map (fun r => body_text (l_body r)) (filter bears rs)) = Some (concat (map (fun r => body_bytes (l_body r)) rs)).
Proof.
  induction 1 as [|r rs H _ IH]; [reflexivity|]. cbn [filter map concat]. destruct (bears r) eqn:B.
  - cbn [map read_rows]. rewrite (read_body _ H), IH. reflexivity.
  - rewrite IH. unfold bears in B. destruct (l_body r); try discriminate. reflexivity.
Qed.
(** the bytes read from the rows, if all rows can be read, are those the records stand for *)
Theorem list_file_bytes k ps l : Forall (stated 1) k -> Forall placed k -> generate_list_file rd (rev k) = Some ps -> read_rows (columns ps) = Some l -> l = listed k.
Proof.
  intros S P E R. rewrite read_filled, (list_columns (rev k) ps) in R; [|apply Forall_rev; exact S|apply Forall_rev; exact P|exact E]. exact (read_records _ _ R).
Qed.
Theorem list_file_reads k ps : Forall (stated 1) k -> Forall placed k -> Forall (fun r => row_ok (l_body r)) k -> generate_list_file rd (rev k) = Some ps -> read_rows (columns ps) = Some (listed k).
Proof.
  intros S P R E. rewrite read_filled, (list_columns (rev k) ps); [|apply Forall_rev; exact S|apply Forall_rev; exact P|exact E].
  apply read_records_ok. apply Forall_rev. exact R.
Qed.
End Files.
