(** .IFDEF and .IFNDEF in the assembler itself (Pass.v): which lines the parser takes. *)
From Coq Require Import String Lia.
From Verif Require Import Base Hash Dict Str Opcodes Err State Sym Machine Build Pass IfDef.
Open Scope string_scope.
Open Scope list_scope.
Open Scope Z_scope.

(** the symbol without its count of uses *)
Definition unused (y : symbol) : symbol :=
  mkSym (y_value y) 0 (y_init y) (y_mname y) (y_mparam y) (y_label y) (y_local y) (y_pm y) (y_var y)
        (y_scope y) (y_name y) (y_full y) (y_macro y).

(** nothing happened but to the position in the source, the list file and the counts of uses *)
Definition only_read (s s' : state) : Prop :=
  map unused (s_syms s') = map unused (s_syms s) /\
  exists inp sk ifs ln li,
    s' = set_list li (set_line ln (set_ifs ifs (set_skip sk (set_input inp (set_syms (s_syms s') s))))).

(** .IFDEF: the name, or the name in the current section, is in the table; .IFNDEF: it is not *)
Definition found (s : state) (k : cstr) : bool := match dict_search (s_dict s) k with Some _ => true | None => false end.
Definition in_table (s : state) (name : cstr) : bool :=
  match s_scope s with Some c => found s (dotted c name) || found s name | None => found s name end.
Definition test (s : state) (neg : bool) (name : cstr) : bool := xorb neg (in_table s name).

(** the lexeme of IfDef.v *)
Definition lexeme_of (s : state) (l : sline) : lexeme :=
  match l with
  | SrcLine _ => LText 0
  | SrcIf neg name => LIfdef (test s neg name)
  | SrcElse _ => LElse
  | SrcEndif _ => LEndif
  end.

Lemma only_read_refl s : only_read s s.
Proof. split; [reflexivity|]. exists (s_input s), (s_skip s), (s_ifs s), (s_line s), (s_list s). destruct s; reflexivity. Qed.

Lemma only_read_trans s s1 s2 : only_read s s1 -> only_read s1 s2 -> only_read s s2.
Proof.
  intros [A (i & k & f & n & l & E)] [B (i' & k' & f' & n' & l' & E')]. split; [congruence|].
  exists i', k', f', n', l'. rewrite E' at 1. rewrite E. destruct s; reflexivity.
Qed.

Lemma unused_upd a y h : nth_error h a = Some y -> map unused (upd a (y_times_inc y) h) = map unused h.
Proof.
  revert a. induction h as [|z h IH]; intros [|a] E; try discriminate; cbn in *.
  - injection E as ->. destruct y; reflexivity.
  - f_equal. apply IH, E.
Qed.

(** records that are found have their value in memory *)
Definition stored (s : state) : Prop := forall k a, dict_search (s_dict s) k = Some a -> (a < List.length (s_syms s))%nat.

Lemma bump_ok s k a : stored s -> dict_search (s_dict s) k = Some a ->
  exists s', (y <- sym_get a ;; sym_set a (y_times_inc y) ;;; ret (Some a))%m s = Ok (Some a) s' /\ only_read s s' /\ s_ifs s' = s_ifs s.
Proof.
  intros S D. apply S in D. destruct (nth_error (s_syms s) a) as [y|] eqn:Y; [|apply nth_error_None in Y; lia].
  unfold bind, sym_get, gets, bind, gets. rewrite Y. unfold ret, sym_set, modify. eexists. split; [reflexivity|]. split; [|destruct s; reflexivity].
  split; [apply unused_upd, Y|]. exists (s_input s), (s_skip s), (s_ifs s), (s_line s), (s_list s). destruct s; reflexivity.
Qed.

Lemma test_look s neg name : stored s ->
  exists r s', look_up_symbol name s = Ok r s' /\ only_read s s' /\ s_ifs s' = s_ifs s /\
    match r with Some _ => neg | None => negb neg end = negb (test s neg name).
Proof.
  intros S. unfold test, in_table, found.
  assert (Gl : exists r s', (r <- sym_search name ;; match r with Some a => y <- sym_get a ;; sym_set a (y_times_inc y) ;;; ret (Some a) | None => ret None end)%m s = Ok r s' /\
    only_read s s' /\ s_ifs s' = s_ifs s /\ match r with Some _ => true | None => false end = match dict_search (s_dict s) name with Some _ => true | None => false end).
  { unfold bind at 1. unfold sym_search, gets. destruct (dict_search (s_dict s) name) as [a|] eqn:D.
    - destruct (bump_ok s name a S D) as (s' & E & R & I). exists (Some a), s'. rewrite E. auto.
    - exists None, s. split; [reflexivity|]. split; [apply only_read_refl|auto]. }
  unfold look_up_symbol, look_up_in. unfold bind at 1. unfold gets at 1. destruct (s_scope s) as [c|].
  - unfold bind at 1. unfold sym_search at 1, gets at 1. destruct (dict_search (s_dict s) (dotted c name)) as [a|] eqn:D.
    + destruct (bump_ok s (dotted c name) a S D) as (s' & E & R & I). exists (Some a), s'. rewrite E. destruct neg; auto.
    + destruct Gl as (r & s' & E & R & I & T). exists r, s'. split; [exact E|]. split; [exact R|]. split; [exact I|]. cbn [orb]. rewrite <- T. destruct r, neg; reflexivity.
  - destruct Gl as (r & s' & E & R & I & T). exists r, s'. split; [exact E|]. split; [exact R|]. split; [exact I|]. rewrite <- T. destruct r, neg; reflexivity.
Qed.

Definition moved (s : state) (inp : list (list sline)) (sk : bool) (ifs : list Z) (ln : Z) (li : list lrec) (h : list symbol) : state :=
  set_list li (set_line ln (set_ifs ifs (set_skip sk (set_input inp (set_syms h s))))).
Lemma moved_read s inp sk ifs ln li : only_read s (moved s inp sk ifs ln li (s_syms s)).
Proof. split; [reflexivity|]. exists inp, sk, ifs, ln, li. destruct s; reflexivity. Qed.

Lemma null_moved s : list_null s = Ok tt (moved s (s_input s) (s_skip s) (s_ifs s) (s_line s) (mkLrec (s_file s) (s_line s) (s_pstate s) false LNone :: s_list s) (s_syms s)).
Proof. destruct s; reflexivity. Qed.
Lemma when_null s f : exists s', when f list_null s = Ok tt s' /\ only_read s s' /\ s_skip s' = s_skip s /\ s_ifs s' = s_ifs s /\ s_input s' = s_input s.
Proof.
  destruct f; cbn [when].
  - rewrite null_moved. eexists. split; [reflexivity|]. split; [apply moved_read|]. destruct s; repeat split; reflexivity.
  - exists s. split; [reflexivity|]. split; [apply only_read_refl|repeat split; reflexivity].
Qed.

Lemma reopen s ln : exists s', (modify (set_line ln) ;;; when (s_final s) list_null ;;; modify (set_skip false))%m s = Ok tt s' /\
  only_read s s' /\ s_skip s' = false /\ s_ifs s' = s_ifs s /\ s_input s' = s_input s.
Proof.
  unfold bind, modify. destruct (when_null (set_line ln s) (s_final s)) as (s1 & E & R & _ & I & J). rewrite E.
  eexists. split; [reflexivity|]. split.
  - apply only_read_trans with (set_line ln s); [|apply only_read_trans with s1; [exact R|]].
    + pose proof (moved_read s (s_input s) (s_skip s) (s_ifs s) ln (s_list s)) as M. destruct s; exact M.
    + pose proof (moved_read s1 (s_input s1) false (s_ifs s1) (s_line s1) (s_list s1)) as M. destruct s1; exact M.
  - destruct s1; cbn in *. destruct s; cbn in *. repeat split; assumption.
Qed.

Lemma read_ifs s i : only_read s (set_ifs i s).
Proof. pose proof (moved_read s (s_input s) (s_skip s) i (s_line s) (s_list s)) as M. destruct s; exact M. Qed.
Lemma read_skip s i : only_read s (set_skip i s).
Proof. pose proof (moved_read s (s_input s) i (s_ifs s) (s_line s) (s_list s)) as M. destruct s; exact M. Qed.
Lemma read_input s i : only_read s (set_input i s).
Proof. pose proof (moved_read s i (s_skip s) (s_ifs s) (s_line s) (s_list s)) as M. destruct s; exact M. Qed.

Lemma look_input n s r s' : look_up_symbol n s = Ok r s' -> s_input s' = s_input s.
Proof.
  unfold look_up_symbol, look_up_in, sym_search, bind, gets, sym_get, sym_set, modify, ret, bind, gets.
  destruct (s_scope s) as [c|].
  - destruct (dict_search (s_dict s) (dotted c n)) as [a|].
    + destruct (nth_error (s_syms s) a); intros E; inversion E; reflexivity.
    + destruct (dict_search (s_dict s) n) as [a|]; [|intros E; inversion E; reflexivity].
      destruct (nth_error (s_syms s) a); intros E; inversion E; reflexivity.
  - destruct (dict_search (s_dict s) n) as [a|]; [|intros E; inversion E; reflexivity].
    destruct (nth_error (s_syms s) a); intros E; inversion E; reflexivity.
Qed.

Lemma cond_else s ln t st : s_ifs s = t :: st -> cond_line (SrcElse ln) s =
  (if s_skip s then if t =? 0 then modify (set_line ln) ;;; when (s_final s) list_null ;;; modify (set_skip false) else ret tt
   else if t =? 0 then modify (set_skip true) else ret tt)%m s.
Proof. intros E. unfold cond_line. unfold bind at 1 2 3. unfold gets. rewrite E. reflexivity. Qed.
Lemma cond_endif s ln t st : s_ifs s = t :: st -> cond_line (SrcEndif ln) s =
  (modify (set_ifs st) ;;;
   match s_skip s, st with
   | true, [] => modify (set_line ln) ;;; when (s_final s) list_null ;;; modify (set_skip false)
   | _, _ => ret tt
   end)%m s.
Proof. intros E. unfold cond_line. unfold bind at 1 2 3. unfold gets. rewrite E. reflexivity. Qed.
Lemma then_some (m : M unit) s s' : m s = Ok tt s' -> (m ;;; ret (Some tt))%m s = Ok (Some tt) s'.
Proof. intros E. unfold bind. rewrite E. reflexivity. Qed.

Lemma read_else F s ln : read_line F (SrcElse ln) s =
  match s_skip s, s_ifs s with
  | false, t :: _ => if t =? 0 then (cond_line (SrcElse ln) ;;; ret (Some tt))%m s else Ok None s
  | _, _ => (cond_line (SrcElse ln) ;;; ret (Some tt))%m s
  end.
Proof. unfold read_line. unfold bind at 1 2. unfold gets. destruct (s_skip s), (s_ifs s) as [|t st]; try reflexivity. destruct (t =? 0); reflexivity. Qed.
Lemma read_endif F s ln : read_line F (SrcEndif ln) s =
  if negb (s_skip s) && (match s_ifs s with [] => true | t :: _ => negb (t =? 0) end) then Ok None s
  else (cond_line (SrcEndif ln) ;;; ret (Some tt))%m s.
Proof. unfold read_line. unfold bind at 1 2. unfold gets. destruct (_ && _); reflexivity. Qed.

(** a conditional directive *)
Definition line_ok (s : state) (l : sline) : Prop := match l with SrcIf _ _ => stored s | _ => True end.
Lemma read_step F l s : line_ok s l -> (forall x, l <> SrcLine x) ->
  match lex_step (mkLst (s_skip s) (s_ifs s)) (lexeme_of s l) with
  | None => read_line F l s = Ub UbIndex
  | Some (st, []) => exists s', read_line F l s = Ok (Some tt) s' /\ only_read s s' /\ mkLst (s_skip s') (s_ifs s') = st /\ s_input s' = s_input s
  | Some (_, _ :: _) => read_line F l s = Ok None s
  end.
Proof.
  intros S0 N. destruct l as [x|neg name|ln|ln]; [destruct (N x eq_refl)| | |]; clear N; cbn [lexeme_of].
  - unfold read_line, cond_line. unfold bind at 1 2. unfold gets at 1 2. unfold lex_step. cbn [skip stk].
    destruct (s_skip s) eqn:K.
    + unfold bind, gets, modify, ret. rewrite K. eexists. split; [reflexivity|]. split; [apply read_ifs|]. destruct s; cbn in *; subst; split; reflexivity.
    + unfold bind, gets, modify, ret. rewrite K.
      assert (S1 : stored (set_ifs (0 :: s_ifs s) s)) by (destruct s; exact S0).
      destruct (test_look (set_ifs (0 :: s_ifs s) s) neg name S1) as (r & s1 & E & R & I & T).
      rewrite E. pose proof (look_input _ _ _ _ E) as J. eexists. split; [reflexivity|]. split.
      * eapply only_read_trans; [apply read_ifs|]. eapply only_read_trans; [exact R|apply read_skip].
      * rewrite T. replace (test (set_ifs (0 :: s_ifs s) s) neg name) with (test s neg name) by (destruct s; reflexivity).
        destruct s1, s; cbn in *; subst; split; reflexivity.
  - rewrite read_else. unfold lex_step. cbn [skip stk].
    destruct (s_skip s) eqn:K, (s_ifs s) as [|t st] eqn:I.
    + unfold cond_line, bind, gets, ub. rewrite I. reflexivity.
    + destruct (t =? 0) eqn:Z.
      * destruct (reopen s ln) as (s' & E & R & A & B & J). exists s'. split; [apply then_some; rewrite (cond_else _ _ _ _ I), K, Z; exact E|].
        split; [exact R|]. split; [|exact J]. cbn [negb]. congruence.
      * exists s. split; [apply then_some; rewrite (cond_else _ _ _ _ I), K, Z; reflexivity|]. split; [apply only_read_refl|]. split; [|reflexivity]. cbn [negb]. congruence.
    + unfold cond_line, bind, gets, ub. rewrite I. reflexivity.
    + destruct (t =? 0) eqn:Z; [|reflexivity]. exists (set_skip true s). split; [apply then_some; rewrite (cond_else _ _ _ _ I), K, Z; reflexivity|].
      split; [apply read_skip|]. destruct s; cbn in *; subst; split; reflexivity.
  - rewrite read_endif. unfold lex_step. cbn [skip stk].
    destruct (s_skip s) eqn:K, (s_ifs s) as [|t st] eqn:I; cbn [negb andb].
    + unfold cond_line, bind, gets, ub. rewrite I. reflexivity.
    + destruct st as [|u st].
      * destruct (reopen (set_ifs [] s) ln) as (s' & E & R & A & B & J). exists s'.
        split; [apply then_some; rewrite (cond_endif _ _ _ _ I), K; unfold bind at 1; unfold modify at 1; replace (s_final s) with (s_final (set_ifs [] s)) by (destruct s; reflexivity); exact E|].
        split; [eapply only_read_trans; [apply read_ifs|exact R]|]. split; [|rewrite J; destruct s; reflexivity].
        rewrite A, B. destruct s; reflexivity.
      * exists (set_ifs (u :: st) s). split; [apply then_some; rewrite (cond_endif _ _ _ _ I), K; reflexivity|]. split; [apply read_ifs|]. destruct s; cbn in *; subst; split; reflexivity.
    + reflexivity.
    + destruct (t =? 0) eqn:Z; [|reflexivity]. exists (set_ifs st s). cbn [negb]. split; [apply then_some; rewrite (cond_endif _ _ _ _ I), K; reflexivity|].
      split; [apply read_ifs|]. destruct s; cbn in *; subst; split; reflexivity.
Qed.

(** [s] goes on as [s'] *)
Definition goes_on (F : nat) (s s' : state) : Prop := exists k, forall f, parse_input F (k + f) s = parse_input F f s'.
Lemma goes_refl F s : goes_on F s s.
Proof. exists 0%nat. reflexivity. Qed.
Lemma goes_trans F s s1 s2 : goes_on F s s1 -> goes_on F s1 s2 -> goes_on F s s2.
Proof. intros [k A] [k1 B]. exists (k + k1)%nat. intros f. rewrite <- Nat.add_assoc, A. apply B. Qed.

Lemma goes_line F l ls up s s' : s_input s = (l :: ls) :: up -> read_line F l (set_input (ls :: up) s) = Ok (Some tt) s' -> goes_on F s s'.
Proof. intros I E. exists 1%nat. intros f. cbn [parse_input Nat.add]. unfold bind at 1. unfold gets. rewrite I. unfold bind, modify. rewrite E. reflexivity. Qed.

Lemma line_ok_input s i l : line_ok s l -> line_ok (set_input i s) l.
Proof. destruct l; auto. Qed.

Lemma parse_step F l ls up s st : s_input s = (l :: ls) :: up -> line_ok s l -> (forall x, l <> SrcLine x) ->
  lex_step (mkLst (s_skip s) (s_ifs s)) (lexeme_of s l) = Some (st, []) ->
  exists s', goes_on F s s' /\ only_read s s' /\ mkLst (s_skip s') (s_ifs s') = st /\ s_input s' = ls :: up.
Proof.
  intros I L N E. pose proof (read_step F l (set_input (ls :: up) s) (line_ok_input _ _ _ L) N) as H.
  replace (mkLst (s_skip (set_input (ls :: up) s)) (s_ifs (set_input (ls :: up) s))) with (mkLst (s_skip s) (s_ifs s)) in H by (destruct s; reflexivity).
  replace (lexeme_of (set_input (ls :: up) s) l) with (lexeme_of s l) in H by (destruct l; try reflexivity; destruct s; reflexivity).
  rewrite E in H. destruct H as (s' & H & R1 & T & J). exists s'. split; [exact (goes_line _ _ _ _ _ _ I H)|].
  split; [eapply only_read_trans; [apply read_input|exact R1]|]. split; [exact T|]. rewrite J. destruct s; reflexivity.
Qed.

Lemma parse_skip F ls up : forall th s, s_input s = (map SrcLine th ++ ls) :: up -> s_skip s = true ->
  exists s', goes_on F s s' /\ only_read s s' /\ s_skip s' = true /\ s_ifs s' = s_ifs s /\ s_input s' = ls :: up.
Proof.
  induction th as [|x th IH]; intros s I K.
  - exists s. split; [apply goes_refl|]. split; [apply only_read_refl|]. split; [exact K|]. split; [reflexivity|exact I].
  - set (s1 := set_input ((map SrcLine th ++ ls) :: up) s).
    destruct (IH s1) as (s' & E & R & A & B & C); [destruct s; reflexivity|destruct s; exact K|].
    exists s'. split; [|split; [eapply only_read_trans; [apply read_input|exact R]|split; [exact A|split; [rewrite B; destruct s; reflexivity|exact C]]]].
    eapply goes_trans; [|exact E]. apply (goes_line F (SrcLine x) (map SrcLine th ++ ls) up s s1 I). fold s1. unfold read_line, bind, gets.
    assert (K1 : s_skip s1 = true) by exact K. rewrite K1. reflexivity.
Qed.

(** ** a conditional outside all others, around plain lines *)
Definition otherwise (el : option (Z * list tline)) : list sline :=
  match el with Some (n, ls) => SrcElse n :: map SrcLine ls | None => [] end.
Definition conditional (neg : bool) (name : cstr) (th : list tline) (el : option (Z * list tline)) (n : Z) : list sline :=
  SrcIf neg name :: map SrcLine th ++ otherwise el ++ [SrcEndif n].

(** the parser is given the lines [inp], with the conditionals [open] *)
Definition reads (s : state) (open : list Z) (inp : list (list sline)) : Prop := s_skip s = false /\ s_ifs s = open /\ s_input s = inp.

Lemma enter_then F neg name th el n rest up s : stored s -> reads s [] ((conditional neg name th el n ++ rest) :: up) ->
  test s neg name = true ->
  exists s', goes_on F s s' /\ only_read s s' /\ reads s' [0] ((map SrcLine th ++ otherwise el ++ SrcEndif n :: rest) :: up).
Proof.
  intros S (K & O & I) T. unfold conditional in I. rewrite <- app_comm_cons in I.
  edestruct parse_step with (F := F) as (s' & G & R & E & J); [exact I|exact S|discriminate| |].
  { cbn [lexeme_of]. rewrite K, O, T. reflexivity. }
  exists s'. split; [exact G|]. split; [exact R|]. injection E as E1 E2. split; [exact E1|]. split; [exact E2|]. rewrite J, <- !app_assoc. reflexivity.
Qed.

Lemma leave_then F el n rest up s : reads s [0] ((otherwise el ++ SrcEndif n :: rest) :: up) ->
  exists s', goes_on F s s' /\ only_read s s' /\ reads s' [] (rest :: up).
Proof.
  intros (K & O & I). destruct el as [[m ls]|]; cbn [otherwise] in I.
  - edestruct parse_step with (F := F) as (s1 & G1 & R1 & E1 & J1); [exact I|exact Logic.I|discriminate| |].
    { cbn [lexeme_of]. rewrite K, O. reflexivity. }
    injection E1 as E1 E2. destruct (parse_skip F (SrcEndif n :: rest) up ls s1 J1 E1) as (s2 & G2 & R2 & A & B & C).
    edestruct parse_step with (F := F) (s := s2) as (s3 & G3 & R3 & E3 & J3); [exact C|exact Logic.I|discriminate| |].
    { cbn [lexeme_of]. rewrite A, B, E2. reflexivity. }
    exists s3. split; [eapply goes_trans; [exact G1|]; eapply goes_trans; eauto|].
    split; [eapply only_read_trans; [exact R1|]; eapply only_read_trans; eauto|]. injection E3 as E3 E4. repeat split; assumption.
  - edestruct parse_step with (F := F) as (s1 & G1 & R1 & E1 & J1); [exact I|exact Logic.I|discriminate| |].
    { cbn [lexeme_of]. rewrite K, O. reflexivity. }
    exists s1. split; [exact G1|]. split; [exact R1|]. injection E1 as E1 E2. repeat split; assumption.
Qed.

Lemma enter_else F neg name th el n rest up s : stored s -> reads s [] ((conditional neg name th el n ++ rest) :: up) ->
  test s neg name = false ->
  exists s', goes_on F s s' /\ only_read s s' /\
    match el with
    | Some (_, ls) => reads s' [0] ((map SrcLine ls ++ SrcEndif n :: rest) :: up)
    | None => reads s' [] (rest :: up)
    end.
Proof.
  intros S (K & O & I) T. unfold conditional in I. rewrite <- app_comm_cons, <- !app_assoc in I.
  edestruct parse_step with (F := F) as (s1 & G1 & R1 & E1 & J1); [exact I|exact S|discriminate| |].
  { cbn [lexeme_of]. rewrite K, O, T. reflexivity. }
  injection E1 as E1 E2. destruct (parse_skip F _ up th s1 J1 E1) as (s2 & G2 & R2 & A & B & C).
  destruct el as [[m ls]|]; cbn [otherwise app] in C;
    (edestruct parse_step with (F := F) (s := s2) as (s3 & G3 & R3 & E3 & J3); [exact C|exact Logic.I|discriminate|cbn [lexeme_of]; rewrite A, B, E2; reflexivity|]);
    exists s3; (split; [eapply goes_trans; [exact G1|]; eapply goes_trans; eauto|]);
    (split; [eapply only_read_trans; [exact R1|]; eapply only_read_trans; eauto|]); injection E3 as E3 E4; repeat split; assumption.
Qed.
