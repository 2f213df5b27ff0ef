(** Building and evaluating an expression, end to end. *)
From Coq Require Import String Lia.
From Verif Require Import Base BaseProofs Hash Dict DictProofs DictMore Str Opcodes Err State Sym Machine Build Pass Prog
  Gen Inv SymProofs SymEx Sem ExprProofs.
Open Scope string_scope.
Open Scope list_scope.
Open Scope Z_scope.
Open Scope m_scope.

(** the value of a plain name in the current scope, 0 while it has none *)
Definition value_of (s : state) (n : cstr) : Z :=
  match resolve s (s_scope s) n with Some y => if y_init y then y_value y else 0 | None => 0 end.
(** the names of an expression are plain and none is the name of a macro *)
Definition plain_names (s : state) (e : expr) : Prop :=
  forall n, In n (names e) -> plain n /\ forall y, resolve s (s_scope s) n = Some y -> y_mname y = false.

Lemma value_of_env s n : value_of s n = cval (meaning s n).
Proof. unfold value_of, meaning, core, ycore, cval. destruct (resolve s (s_scope s) n) as [y|]; reflexivity. Qed.
Lemma plain_names_expr s e : plain_names s e -> plain_expr s e.
Proof.
  intros H n Hn. destruct (H n Hn) as [P M]. split; auto. unfold meaning, core, cmacro, ycore.
  destruct (resolve s (s_scope s) n) as [y|]; [apply M; reflexivity|reflexivity].
Qed.
Lemma sem_ext e : forall en en' pc, (forall n, In n (names e) -> en n = en' n) -> sem en pc e = sem en' pc e.
Proof.
  induction e as [v|n| |o e IH|o e1 IH1 e2 IH2]; intros en en' pc H; cbn [sem names] in *; auto.
  - rewrite H; cbn; auto.
  - rewrite (IH en en' pc H). reflexivity.
  - rewrite (IH1 en en' pc), (IH2 en en' pc); auto; intros n Hn; apply H, in_or_app; auto.
Qed.

Lemma evaluates_all e F s : table_ok s -> (forall k, valids k -> single s k) -> (forall c, s_scope s = Some c -> valids c) ->
  s_stop s = false -> wfe e = true -> plain_names s e -> (height e <= F)%nat ->
  exists p s1, build_expr e s = Ok (Some p) s1 /\
  match sem (value_of s) (s_pc s) e with
  | None => expand F p s1 = Ub UbArith
  | Some (v, k) => exists s2, expand F p s1 = Ok v s2 /\ s_errs s2 = s_errs s + k /\
      (forall n, plain n -> value_of s2 n = value_of s n) /\
      s2 = set_nodes (s_nodes s2) (set_syms (s_syms s2) (set_dict (s_dict s2)
             (set_errs (s_errs s2) (set_msgs (s_msgs s2) s))))
  end.
Proof.
  intros T1 T2 T3 St W P HF. assert (T : tab s) by (split; [|split]; auto).
  destruct (build_expr_rep e s T W (plain_names_expr _ _ P)) as (p & s1 & E1 & V1 & Er & R & _).
  exists p, s1. split; [exact E1|].
  pose proof (eval_rep (meaning s) true e F s1 p HF (e_tab _ _ V1) ltac:(rewrite (evo_stop _ _ V1); exact St) R) as V.
  rewrite (evo_pc _ _ V1) in V.
  rewrite (sem_ext e (value_of s) (fun n => cval (meaning s n))) by (intros; apply value_of_env).
  destruct (sem _ (s_pc s) e) as [[v k]|]; cbn [evaluates] in V; [|exact V].
  destruct V as (s2 & E2 & V2 & Er2 & _). exists s2. split; [exact E2|]. split; [lia|].
  pose proof (evo_trans _ _ _ V1 V2) as V12. split; [|apply (e_same _ _ V12)].
  intros n Hn. rewrite !value_of_env, (e_res _ _ V12) by auto. reflexivity.
Qed.

(** ** An example: names of a section and of the program, both kinds of division, short-circuit operators *)
Definition e_ex : expr :=
  EBin OPlus (EBin OMul (ESym (cs "x1")) (EInt 100)) (EBin OAnd (EBin OShl (ESym (cs "x0")) (EInt 3)) (EBin ODiv (EPc) (ESym (cs "nowhere")))).
Lemma e_ex_names : plain_names in_one e_ex.
Proof.
  intros n Hn. unfold e_ex in Hn. cbn [names app] in Hn.
  repeat (destruct Hn as [<-|Hn]; [split; [plain_tac|]|]); try destruct Hn; intros y; vm_compute; intros E; inversion E; reflexivity.
Qed.
Lemma in_one_scope c : s_scope in_one = Some c -> valids c.
Proof. cbn. intros E. injection E as <-. apply validsb_ok. vm_compute. reflexivity. Qed.
