(** Deciding whether a program is in the fragment, for examples. *)
From Coq Require Import String Lia.
From Verif Require Import Base BaseProofs Hash Dict DictProofs DictMore Str Opcodes OpcodesProofs Err State Sym Machine Build Lexer Parser Pass Prog
  SymProofs SymMore Sem ExprProofs OpProofs DataProofs DefProofs DataMore
  Colon Layout LineTwo LineFour Frag FragPass FragProg FragAsm.
Open Scope string_scope.
Open Scope list_scope.
Open Scope Z_scope.

Definition plainb (n : cstr) : bool :=
  validsb n && negb (existsb (Z.eqb 46) n) && negb (existsb (Z.eqb 58) n) && match n with [] => false | _ => true end &&
  negb (existsb (Z.eqb (hd0 n)) [43; 45; 64; 92]) && negb (stricmp n (cs "A") =? 0).
Lemma notin_b z l : negb (existsb (Z.eqb z) l) = true -> ~ In z l.
Proof. intros H X. apply negb_true_iff in H. assert (existsb (Z.eqb z) l = true); [|congruence]. apply existsb_exists. exists z. split; auto. apply Z.eqb_refl. Qed.
Lemma plainb_ok n : plainb n = true -> plain n.
Proof.
  unfold plainb. rewrite !andb_true_iff. intros [[[[[H1 H2] H3] H4] H5] H6]. split; [apply validsb_ok, H1|]. split; [apply notin_b, H2|]. split; [apply notin_b, H3|].
  split; [destruct n; [discriminate|congruence]|]. split; [apply notin_b, H5|]. apply negb_true_iff, Z.eqb_neq in H6. exact H6.
Qed.
Definition okexprb (F : nat) (e : expr) : bool := wfe e && eager e && forallb plainb (names e) && (height e <=? F)%nat.
Lemma okexprb_ok F e : okexprb F e = true -> okexpr F e.
Proof.
  unfold okexprb. rewrite !andb_true_iff, Nat.leb_le, forallb_forall. intros [[[H1 H2] H3] H4]. split; auto. split; auto. split; auto. intros n Hn. apply plainb_ok, H3, Hn.
Qed.
Definition okitemb (F : nat) (i : item) : bool := match i with IExpr e => okexprb F e | IStr raw => match text_of raw with Some _ => true | None => false end end.
Lemma okitemb_ok F i : okitemb F i = true -> okitem F i.
Proof. destruct i as [e|raw]; cbn; [apply okexprb_ok|]. destruct (text_of raw); congruence. Qed.
Definition okformb (c02 ill : bool) (F : nat) (instr : Z) (f : opform) : bool :=
  match form f with
  | inl _ => (get_op_code c02 ill instr m_r =? -1) && match f with FAbs (ESym n) => validsb n | _ => true end
  | inr (_, e) => okexprb F e
  end.
Lemma okformb_ok c02 ill F instr f : okformb c02 ill F instr f = true -> okform c02 ill F instr f.
Proof.
  unfold okformb, okform. destruct (form f) as [k|[m e]]; [|apply okexprb_ok]. rewrite andb_true_iff, Z.eqb_eq. intros [H1 H2]. split; auto.
  intros n ->. apply validsb_ok, H2.
Qed.
Definition okstmtb (c02 ill : bool) (F : nat) (st : stmt) : bool :=
  match st with
  | SEmpty => true
  | SOp instr f => okformb c02 ill F instr f
  | SData size l => ((size =? 1) || (size =? 2)) && match l with [] => false | _ => true end && forallb (okitemb F) l && (list_fuel l <=? F)%nat
  | _ => false
  end.
Lemma okstmtb_ok c02 ill F st : okstmtb c02 ill F st = true -> okstmt c02 ill F st.
Proof.
  destruct st; cbn [okstmtb okstmt]; try discriminate; auto; [apply okformb_ok|].
  rewrite !andb_true_iff, orb_true_iff, !Z.eqb_eq, Nat.leb_le, forallb_forall. intros [[[H1 H2] H3] H4]. split; [cbn; intuition|]. split; [destruct l; congruence|].
  split; auto. intros i Hi. apply okitemb_ok, H3, Hi.
Qed.
Definition oklb (c02 ill : bool) (F : nat) (l : tline) : bool :=
  match move_of l with
  | Some e => okexprb F e
  | None => match t_stmt l with
            | SAssign n e => match t_label l with None => plainb n && okexprb F e | Some _ => false end
            | st => okstmtb c02 ill F st && match t_label l with Some n => plainb (uncolon n) && (owns (uncolon n) (stmt_names st) <=? 1)%nat | None => true end
            end
  end.
Lemma oklb_ok c02 ill F l : oklb c02 ill F l = true -> okl c02 ill F l.
Proof.
  unfold oklb, okl, okline. destruct (move_of l); [apply okexprb_ok|].
  assert (X : forall st, okstmtb c02 ill F st && match t_label l with Some n => plainb (uncolon n) && (owns (uncolon n) (stmt_names st) <=? 1)%nat | None => true end = true ->
    okstmt c02 ill F st /\ match t_label l with Some n => plain (uncolon n) /\ (owns (uncolon n) (stmt_names st) <= 1)%nat | None => True end).
  { intros st. rewrite andb_true_iff. intros [H1 H2]. split; [apply okstmtb_ok, H1|]. destruct (t_label l); auto. rewrite andb_true_iff, Nat.leb_le in H2.
    split; [apply plainb_ok, H2|apply H2]. }
  destruct (t_stmt l); try apply X. destruct (t_label l); [discriminate|]. rewrite andb_true_iff. intros [H1 H2]. split; auto. split; [apply plainb_ok, H1|apply okexprb_ok, H2].
Qed.
Lemma oklsb_ok c02 ill F ls : forallb (oklb c02 ill F) ls = true -> Forall (okl c02 ill F) ls.
Proof. rewrite forallb_forall. intros H. apply Forall_forall. intros l Hl. apply oklb_ok, H, Hl. Qed.

(** the lines of a source text without conditionals *)
Fixpoint src_lines (l : list sline) : option (list tline) :=
  match l with
  | [] => Some []
  | SrcLine t :: l => match src_lines l with Some r => Some (t :: r) | None => None end
  | _ => None
  end.
Lemma src_lines_ok l r : src_lines l = Some r -> l = map SrcLine r.
Proof.
  revert r. induction l as [|x l IH]; cbn; intros r H; [injection H as <-; reflexivity|]. destruct x; try discriminate.
  destruct (src_lines l) as [r0|]; [|discriminate]. injection H as <-. cbn. rewrite (IH r0 eq_refl). reflexivity.
Qed.
