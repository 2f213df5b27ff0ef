From Verif Require Import Base BaseProofs IfDef.

(** ** Specification: properly nested conditionals *)
Inductive items :=
| INil
| ITxt (t : Z) (rest : items)
| ICond (b : bool) (th : items) (has_else : bool) (el : items) (rest : items)   (* .IFDEF/.IFNDEF *)
| IOrd (th : items) (has_else : bool) (el : items) (rest : items).              (* .IF *)

(** how the program is written *)
Fixpoint source (i : items) : list lexeme :=
  match i with
  | INil => []
  | ITxt t r => LText t :: source r
  | ICond b th he el r => LIfdef b :: source th ++ (if he then LElse :: source el else []) ++ LEndif :: source r
  | IOrd th he el r => LIf :: source th ++ (if he then LElse :: source el else []) ++ LEndif :: source r
  end.

(** what the parser should see: of each .IFDEF only the selected branch *)
Fixpoint selected (i : items) : list otok :=
  match i with
  | INil => []
  | ITxt t r => OText t :: selected r
  | ICond b th he el r => (if b then selected th else if he then selected el else []) ++ selected r
  | IOrd th he el r => OIf :: selected th ++ (if he then OElse :: selected el else []) ++ OEndif :: selected r
  end.

(** a region is skipped to its .ENDIF only outside all other conditionals *)
Fixpoint safe (nested : bool) (i : items) : Prop :=
  match i with
  | INil => True
  | ITxt _ r => safe nested r
  | ICond b th he el r =>
      (b = he -> nested = false) /\
      (if b then safe true th else if he then safe true el else True) /\ safe nested r
  | IOrd th he el r => safe true th /\ (if he then safe true el else True) /\ safe nested r
  end.

Lemma lex_run_app a : forall s b, lex_run s (a ++ b) =
  match lex_run s a with
  | None => None
  | Some (s1, o1) => match lex_run s1 b with None => None | Some (s2, o2) => Some (s2, o1 ++ o2) end
  end.
Proof.
  induction a as [|l a IH]; intros s b; cbn [app lex_run].
  - destruct (lex_run s b) as [[s2 o2]|]; reflexivity.
  - destruct (lex_step s l) as [[s1 o1]|]; [|reflexivity]. rewrite IH.
    destruct (lex_run s1 a) as [[s2 o2]|]; [|reflexivity].
    destruct (lex_run s2 b) as [[s3 o3]|]; [|reflexivity]. now rewrite app_assoc.
Qed.

(** inside a skipped region nothing is emitted and the stack is restored, as long as
    the region is itself inside a conditional *)
Lemma skip_region i : forall t st,
  lex_run (mkLst true (t :: st)) (source i) = Some (mkLst true (t :: st), []).
Proof.
  induction i as [|t0 r IH|b th IHt he el IHe r IHr|th IHt he el IHe r IHr]; intros t st; cbn [source lex_run].
  - reflexivity.
  - cbn [lex_step skip]. rewrite IH. reflexivity.
  - cbn [lex_step skip stk]. rewrite lex_run_app, IHt. rewrite lex_run_app.
    destruct he; cbn [lex_run lex_step skip stk Z.eqb negb].
    + rewrite IHe. cbn [lex_step skip stk]. rewrite IHr. reflexivity.
    + rewrite IHr. reflexivity.
  - cbn [lex_step skip stk]. rewrite lex_run_app, IHt. rewrite lex_run_app.
    destruct he; cbn [lex_run lex_step skip stk Z.eqb negb].
    + rewrite IHe. cbn [lex_step skip stk]. rewrite IHr. reflexivity.
    + rewrite IHr. reflexivity.
Qed.

Lemma safe_run i : forall st, safe (match st with [] => false | _ => true end) i ->
  lex_run (mkLst false st) (source i) = Some (mkLst false st, selected i).
Proof.
  induction i as [|t0 r IH|b th IHt he el IHe r IHr|th IHt he el IHe r IHr]; intros st; cbn [source lex_run safe selected].
  - reflexivity.
  - intros H. cbn [lex_step skip]. rewrite IH by exact H. reflexivity.
  - intros (Hs & Hb & Hr). cbn [lex_step skip stk]. rewrite !lex_run_app.
    destruct b; cbn [negb].
    + rewrite IHt by exact Hb. rewrite lex_run_app. destruct he; cbn [lex_run lex_step skip stk Z.eqb app].
      * rewrite skip_region. specialize (Hs eq_refl). destruct st; [|discriminate].
        cbn [lex_step skip stk]. rewrite IHr by exact Hr. cbn [app]. now rewrite ?app_nil_r.
      * rewrite IHr by exact Hr. reflexivity.
    + rewrite skip_region. rewrite lex_run_app. destruct he; cbn [lex_run lex_step skip stk Z.eqb app negb].
      * rewrite IHe by exact Hb. cbn [lex_step skip stk Z.eqb]. rewrite IHr by exact Hr. cbn [app]. reflexivity.
      * specialize (Hs eq_refl). destruct st; [|discriminate]. rewrite IHr by exact Hr. reflexivity.
  - intros (Ht & He & Hr). cbn [lex_step skip stk]. rewrite lex_run_app, IHt by exact Ht. rewrite lex_run_app.
    destruct he; cbn [lex_run lex_step skip stk Z.eqb].
    + rewrite IHe by exact He. cbn [lex_step skip stk Z.eqb]. rewrite IHr by exact Hr. cbn [app]. now rewrite <- ?app_assoc.
    + rewrite IHr by exact Hr. cbn [app]. reflexivity.
Qed.

(** conversely an unsafe conditional nested in anything leaves the lexer skipping *)
Lemma unsafe_stuck b th el st t : (b = true -> safe true th) ->
  lex_run (mkLst false (t :: st)) (source (ICond b th b el INil)) =
  Some (mkLst true (t :: st), if b then selected th else []).
Proof.
  intros Hs. cbn [source lex_run lex_step skip stk]. rewrite lex_run_app. destruct b; cbn [negb].
  - rewrite safe_run by (apply Hs; reflexivity). rewrite lex_run_app.
    cbn [lex_run lex_step skip stk Z.eqb]. rewrite skip_region. cbn [lex_step skip stk lex_run].
    cbn [app]. now rewrite ?app_nil_r.
  - rewrite skip_region. cbn [app lex_run lex_step skip stk]. reflexivity.
Qed.
