(** The meaning of Struct.v computed, for examples. *)
From Coq Require Import String Lia.
From Verif Require Import Base Opcodes Str State Sem ExprProofs ExprMore InstrProofs DataProofs Colon Layout Struct StructRep StructOp StructRun StructBuild StructLine StructVar StructLabel VarProofs StructProg SymProofs FragEx.
Open Scope string_scope.
Open Scope list_scope.
Open Scope Z_scope.

Definition outcome : Type := option ((cstr -> Z) * Z * list Z).
Section Cpu.
Variables c02 ill : bool.
Local Notation runs := (Struct.runs c02 ill).
Local Notation body_runs := (Struct.body_runs c02 ill).
Local Notation for_runs := (Struct.for_runs c02 ill).
Local Notation plainly := (Struct.plainly c02 ill).
Local Notation plainly_all := (Struct.plainly_all c02 ill).
Local Notation acts := (StructProg.acts c02 ill).
Lemma body_cons env pc ln st env1 pc1 o1 : runs env pc st env1 pc1 o1 -> forall l env2 pc2 o2, body_runs env1 pc1 l env2 pc2 o2 -> body_runs env pc ((ln, st) :: l) env2 pc2 (o1 ++ o2).
Proof.
  intros R. assert (X : forall e p l e2 p2 o2, body_runs e p l e2 p2 o2 -> e = env1 -> p = pc1 -> body_runs env pc ((ln, st) :: l) e2 p2 (o1 ++ o2)).
  { induction 1 as [e p|e p l ln' st' e1' p1' o1' e2' p2' o2' _ IH R']; intros -> ->.
    - rewrite app_nil_r. apply (BodySnoc c02 ill env pc [] ln st env pc [] env1 pc1 o1); [constructor|exact R].
    - rewrite app_assoc, app_comm_cons. apply (BodySnoc c02 ill env pc _ ln' st' e1' p1'); [apply IH; reflexivity|exact R']. }
  intros l env2 pc2 o2 B. apply (X env1 pc1 l env2 pc2 o2 B); reflexivity.
Qed.

Section Step.
Variable r : (cstr -> Z) -> Z -> stmt -> outcome.
Fixpoint ibody (env : cstr -> Z) (pc : Z) (l : list (Z * stmt)) : outcome :=
  match l with
  | [] => Some (env, pc, [])
  | (_, st) :: l => match r env pc st with
      | Some (env1, pc1, o1) => match ibody env1 pc1 l with Some (env2, pc2, o2) => Some (env2, pc2, o1 ++ o2) | None => None end
      | None => None end
  end.
Definition beyondb (w k v : Z) : bool := ((0 <? k) && (w <? v)) || ((k <? 0) && (v <? w)).
Fixpoint ifor (f : nat) (n : cstr) (w k : Z) (b : list (Z * stmt)) (env : cstr -> Z) (pc : Z) : outcome :=
  match f with
  | O => None
  | S f => if beyondb w k (env n) then Some (env, pc, []) else
      match ibody env pc b with
      | Some (env1, pc1, o1) => if pc1 <=? 65535 then match ifor f n w k b (with_value env1 n (env1 n + k)) pc1 with Some (env2, pc2, o2) => Some (env2, pc2, o1 ++ o2) | None => None end else None
      | None => None end
  end.
Definition again (st : stmt) (x : (cstr -> Z) * Z * list Z) : outcome :=
  let '(env1, pc1, o1) := x in match r env1 pc1 st with Some (env2, pc2, o2) => Some (env2, pc2, o1 ++ o2) | None => None end.
Definition istep (f : nat) (env : cstr -> Z) (pc : Z) (st : stmt) : outcome :=
  match st with
  | SEmpty => Some (env, pc, [])
  | SData size l => if (size =? 1) || (size =? 2) then match items_bytes env size pc l with Some o => Some (env, pc + Z.of_nat (length o), o) | None => None end else None
  | SOp instr g => match instr_bytes c02 ill env pc instr g with Some o => Some (env, pc + Z.of_nat (length o), o) | None => None end
  | SAssign n e => match val_of env pc e with Some v => Some (with_value env n v, pc, []) | None => None end
  | SIf e b el => match val_of env pc e with
      | Some v => if v =? 0 then match el with Some el => ibody env pc el | None => Some (env, pc, []) end else ibody env pc b
      | None => None end
  | SWhile e b => match val_of env pc e with
      | Some v => if v =? 0 then Some (env, pc, []) else match ibody env pc b with Some (env1, pc1, o1) => if pc1 <=? 65535 then again st (env1, pc1, o1) else None | None => None end
      | None => None end
  | SRepeat b e => match ibody env pc b with
      | Some (env1, pc1, o1) => if pc1 <=? 65535 then match val_of env1 pc1 e with Some v => if v =? 0 then again st (env1, pc1, o1) else Some (env1, pc1, o1) | None => None end else None
      | None => None end
  | SDo b e => match ibody env pc b with
      | Some (env1, pc1, o1) => if pc1 <=? 65535 then match val_of env1 pc1 e with Some v => if v =? 0 then Some (env1, pc1, o1) else again st (env1, pc1, o1) | None => None end else None
      | None => None end
  | SFor n e0 e1 step b next =>
      if list_eq_dec Z.eq_dec (map tolower next) (map tolower n) then
      match (match step with Some e => val_of env pc e | None => Some 1 end), val_of env pc e0 with
      | Some k, Some v => match val_of (with_value env n v) pc e1 with Some w => ifor f n w k b (with_value env n v) pc | None => None end
      | _, _ => None end else None
  | _ => None
  end.
Hypothesis R : forall env pc st env' pc' o, r env pc st = Some (env', pc', o) -> runs env pc st env' pc' o.
Lemma ibody_ok l : forall env pc env' pc' o, ibody env pc l = Some (env', pc', o) -> body_runs env pc l env' pc' o.
Proof.
  induction l as [|[ln st] l IH]; intros env pc env' pc' o; cbn [ibody]; [intros E; injection E as <- <- <-; constructor|].
  destruct (r env pc st) as [[[e1 p1] o1]|] eqn:E1; [|discriminate]. destruct (ibody e1 p1 l) as [[[e2 p2] o2]|] eqn:E2; [|discriminate]. intros E. injection E as <- <- <-.
  exact (body_cons _ _ _ _ _ _ _ (R _ _ _ _ _ _ E1) _ _ _ _ (IH _ _ _ _ _ E2)).
Qed.
Lemma beyondb_ok w k v : beyondb w k v = true <-> beyond w k v.
Proof. unfold beyondb, beyond. rewrite orb_true_iff, !andb_true_iff, !Z.ltb_lt. tauto. Qed.
Lemma ifor_ok f : forall n w k b env pc env' pc' o, ifor f n w k b env pc = Some (env', pc', o) -> for_runs n w k b env pc env' pc' o.
Proof.
  induction f as [|f IH]; intros n w k b env pc env' pc' o; cbn [ifor]; [discriminate|]. pose proof (beyondb_ok w k (env n)) as B. destruct (beyondb w k (env n)).
  - intros E. injection E as <- <- <-. apply ForEnd, B; reflexivity.
  - destruct (ibody env pc b) as [[[e1 p1] o1]|] eqn:E1; [|discriminate]. destruct (Z.leb_spec p1 65535) as [L|]; [|discriminate].
    destruct (ifor f n w k b _ p1) as [[[e2 p2] o2]|] eqn:E2; [|discriminate]. intros E. injection E as <- <- <-.
    apply (ForTurn c02 ill _ _ _ _ _ _ e1 p1); [intros X; apply B in X; discriminate|apply ibody_ok, E1|exact L|apply IH, E2].
Qed.
Lemma again_ok st e1 p1 o1 env' pc' o : again st (e1, p1, o1) = Some (env', pc', o) -> exists o2, runs e1 p1 st env' pc' o2 /\ o = o1 ++ o2.
Proof. unfold again. destruct (r e1 p1 st) as [[[e2 p2] o2]|] eqn:E; [|discriminate]. intros X. injection X as <- <- <-. exists o2. split; [apply R, E|reflexivity]. Qed.
Lemma istep_ok f env pc st env' pc' o : istep f env pc st = Some (env', pc', o) -> runs env pc st env' pc' o.
Proof.
  destruct st; cbn [istep]; try discriminate.
  - intros E. injection E as <- <- <-. constructor.
  - destruct (instr_bytes c02 ill env pc instr f0) eqn:E1; [|discriminate]. intros E. injection E as <- <- <-. apply RunOp, E1.
  - destruct ((size =? 1) || (size =? 2)) eqn:Es; [|discriminate]. destruct (items_bytes env size pc l) eqn:E1; [|discriminate]. intros E. injection E as <- <- <-.
    apply RunData; [apply orb_true_iff in Es; rewrite !Z.eqb_eq in Es; exact Es|exact E1].
  - destruct (val_of env pc e) eqn:E1; [|discriminate]. intros E. injection E as <- <- <-. apply RunAssign, E1.
  - destruct (val_of env pc e) as [v|] eqn:E1; [|discriminate]. destruct (Z.eqb_spec v 0) as [->|Hv].
    + destruct els as [el|]; [intros E; apply RunElse; [exact E1|apply ibody_ok, E]|]. intros E. injection E as <- <- <-. apply RunNot, E1.
    + intros E. apply (RunThen c02 ill _ _ _ _ _ v); auto. apply ibody_ok, E.
  - destruct (ibody env pc b) as [[[e1 p1] o1]|] eqn:E1; [|discriminate]. destruct (Z.leb_spec p1 65535) as [L|]; [|discriminate]. destruct (val_of e1 p1 e) as [v|] eqn:E2; [|discriminate].
    apply ibody_ok in E1. destruct (Z.eqb_spec v 0) as [->|Hv].
    + intros E. apply again_ok in E. destruct E as (o2 & X & ->). inversion X; subst. apply RunRepeat. apply (DoTurn c02 ill true _ _ _ _ e1 p1 o1 0); auto.
    + intros E. injection E as <- <- <-. apply RunRepeat, (DoEnd c02 ill true _ _ _ _ _ _ _ v); auto.
  - destruct (ibody env pc b) as [[[e1 p1] o1]|] eqn:E1; [|discriminate]. destruct (Z.leb_spec p1 65535) as [L|]; [|discriminate]. destruct (val_of e1 p1 e) as [v|] eqn:E2; [|discriminate].
    apply ibody_ok in E1. destruct (Z.eqb_spec v 0) as [->|Hv].
    + intros E. injection E as <- <- <-. apply RunDo, (DoEnd c02 ill false _ _ _ _ _ _ _ 0); auto.
    + intros E. apply again_ok in E. destruct E as (o2 & X & ->). inversion X; subst. apply RunDo. apply (DoTurn c02 ill false _ _ _ _ e1 p1 o1 v); auto.
  - destruct (val_of env pc e) as [v|] eqn:E1; [|discriminate]. destruct (Z.eqb_spec v 0) as [->|Hv].
    + intros E. injection E as <- <- <-. apply RunWhile, WhileEnd, E1.
    + destruct (ibody env pc b) as [[[e1 p1] o1]|] eqn:E2; [|discriminate]. destruct (Z.leb_spec p1 65535) as [L|]; [|discriminate]. apply ibody_ok in E2.
      intros E. apply again_ok in E. destruct E as (o2 & X & ->). inversion X; subst. apply RunWhile. apply (WhileTurn c02 ill _ _ _ _ v e1 p1); auto.
  - destruct (list_eq_dec Z.eq_dec (map tolower next) (map tolower name)) as [En|]; [|discriminate]. destruct (match step with Some e => val_of env pc e | None => Some 1 end) as [k|] eqn:Ek; [|discriminate].
    destruct (val_of env pc e0) as [v|] eqn:E0; [|discriminate]. destruct (val_of (with_value env name v) pc e1) as [w|] eqn:E1; [|discriminate]. intros E. apply ifor_ok in E.
    exact (RunFor _ _ _ _ _ _ _ _ _ _ _ _ _ _ _ _ Ek E0 E1 En E).
Qed.
End Step.

Fixpoint interp (f : nat) (env : cstr -> Z) (pc : Z) (st : stmt) : outcome := match f with O => None | S f => istep (interp f) f env pc st end.
Lemma interp_ok f : forall env pc st env' pc' o, interp f env pc st = Some (env', pc', o) -> runs env pc st env' pc' o.
Proof. induction f as [|f IH]; intros env pc st env' pc' o E; [discriminate|]. exact (istep_ok (interp f) IH f env pc st env' pc' o E). Qed.

Definition itemb (i : item) : bool := match i with IExpr e => wfe e && eager e | IStr raw => match text_of raw with Some (_ :: _) => true | _ => false end end.
Fixpoint plainlyb (st : stmt) : bool :=
  let body (l : list (Z * stmt)) := match l with [] => false | _ => forallb (fun x => plainlyb (snd x)) l end in
  match st with
  | SEmpty => true
  | SData size l => ((size =? 1) || (size =? 2)) && match l with [] => false | _ => forallb itemb l end
  | SOp instr f => match form f with
      | inl k => match f with FImp | FAbs (ESym [65]) | FAbs (ESym [97]) => has c02 ill instr k && negb (has c02 ill instr m_r) | _ => false end
      | inr (m, e) => wfe e && eager e && usable (has c02 ill instr) m end
  | SAssign n e => wfe e
  | SIf e b None => wfe e && body b
  | SIf e b (Some el) => wfe e && body b && body el
  | SWhile e b | SRepeat b e | SDo b e => wfe e && body b
  | SFor n e0 e1 step b next => wfe e0 && wfe e1 && match step with Some e => wfe e | None => true end && body b
  | _ => false
  end.
Lemma itemb_ok i : itemb i = true -> match i with IExpr e => wfe e = true /\ eager e = true | IStr raw => exists a t, text_of raw = Some (a :: t) end.
Proof. destruct i as [e|raw]; cbn; [rewrite andb_true_iff; auto|]. destruct (text_of raw) as [[|a t]|]; try discriminate. eauto. Qed.
Section Stmt.
Variable P : stmt -> Prop.
Definition all_b (l : list (Z * stmt)) : Prop := Forall (fun x => P (snd x)) l.
Hypothesis H0 : forall st, match st with SIf _ _ _ | SWhile _ _ | SRepeat _ _ | SDo _ _ | SFor _ _ _ _ _ _ | SForReg _ _ _ _ _ | SMacro _ _ => True | _ => P st end.
Hypothesis H1 : forall e b, all_b b -> P (SIf e b None).
Hypothesis H2 : forall e b el, all_b b -> all_b el -> P (SIf e b (Some el)).
Hypothesis H3 : forall e b, all_b b -> P (SWhile e b).
Hypothesis H4 : forall e b, all_b b -> P (SRepeat b e).
Hypothesis H5 : forall e b, all_b b -> P (SDo b e).
Hypothesis H6 : forall n e0 e1 k b m, all_b b -> P (SFor n e0 e1 k b m).
Hypothesis H7 : forall x e0 e1 u b, all_b b -> P (SForReg x e0 e1 u b).
Hypothesis H8 : forall n b, all_b b -> P (SMacro n b).
Fixpoint stmt_all (st : stmt) : P st :=
  let body := fix body (l : list (Z * stmt)) : all_b l := match l with [] => Forall_nil _ | x :: l => Forall_cons x (stmt_all (snd x)) (body l) end in
  match st as t return match t with SIf _ _ _ | SWhile _ _ | SRepeat _ _ | SDo _ _ | SFor _ _ _ _ _ _ | SForReg _ _ _ _ _ | SMacro _ _ => True | _ => P t end -> P t with
  | SIf e b None => fun _ => H1 e b (body b) | SIf e b (Some el) => fun _ => H2 e b el (body b) (body el)
  | SWhile e b => fun _ => H3 e b (body b) | SRepeat b e => fun _ => H4 e b (body b) | SDo b e => fun _ => H5 e b (body b)
  | SFor n e0 e1 k b m => fun _ => H6 n e0 e1 k b m (body b) | SForReg x e0 e1 u b => fun _ => H7 x e0 e1 u b (body b) | SMacro n b => fun _ => H8 n b (body b)
  | _ => fun h => h
  end (H0 st).
End Stmt.
Lemma body_plainly l : l <> [] -> Forall (fun x : Z * stmt => plainly (snd x)) l -> plainly_all l.
Proof.
  induction l as [|x l IH] using rev_ind; [congruence|]. intros _ F. apply Forall_app in F. destruct F as [Fl Fx]. inversion Fx as [|? ? Px _]; subst. destruct x as [ln st]. cbn in Px.
  destruct l as [|y l]; [apply PlOne, Px|]. apply PlSnoc; [apply IH; [discriminate|exact Fl]|exact Px].
Qed.
Lemma body_b l : all_b (fun st => plainlyb st = true -> plainly st) l -> match l with [] => false | _ => forallb (fun x : Z * stmt => plainlyb (snd x)) l end = true -> plainly_all l.
Proof.
  intros A B. assert (N : l <> []) by (intros ->; discriminate). apply body_plainly; [exact N|]. assert (B' : forallb (fun x : Z * stmt => plainlyb (snd x)) l = true) by (destruct l; [discriminate|exact B]).
  rewrite forallb_forall in B'. unfold all_b in A. rewrite Forall_forall in *. auto.
Qed.
Lemma plainlyb_ok st : plainlyb st = true -> plainly st.
Proof.
  revert st. apply (stmt_all (fun st => plainlyb st = true -> plainly st));
    [intros st|intros e b Ib|intros e b el Ib Iel|intros e b Ib|intros e b Ib|intros e b Ib|intros n e0 e1 k b m Ib|discriminate|discriminate].
  - destruct st; try exact I; try discriminate; intros B.
    + constructor.
    + cbn [plainlyb] in B. apply PlOp. unfold known_op. destruct (form f) as [k|[m e]].
      * assert (X : In f [FImp; FAbs (ESym (cs "A")); FAbs (ESym (cs "a"))] /\ has c02 ill instr k && negb (has c02 ill instr m_r) = true).
        { destruct f as [|e0|e0|e0|e0|e0|e0|e0]; try discriminate; [split; [left; reflexivity|exact B]|]. destruct e0 as [|n| | |]; try discriminate.
          destruct n as [|z [|z' n]]; try discriminate; [|destruct z as [|z|z]; try discriminate; repeat (destruct z as [z|z|]; try discriminate)].
          destruct z as [|z|z]; try discriminate; repeat (destruct z as [z|z|]; try discriminate); (split; [cbn; auto|exact B]). }
        destruct X as [X B']. apply andb_true_iff in B'. destruct B' as [B1 B2]. apply negb_true_iff in B2. auto.
      * rewrite !andb_true_iff in B. tauto.
    + cbn [plainlyb] in B. apply andb_true_iff in B. destruct B as [B1 B2]. apply orb_true_iff in B1. rewrite !Z.eqb_eq in B1. apply PlData; [cbn; lia|intros ->; discriminate|].
      assert (B' : forallb itemb l = true) by (destruct l; [discriminate|exact B2]). rewrite forallb_forall in B'. apply Forall_forall. intros i Hi. apply itemb_ok, B', Hi.
    + apply PlAssign, B.
  - cbn [plainlyb]. rewrite andb_true_iff. intros [A B]. apply PlIf; [exact A|apply body_b; auto].
  - cbn [plainlyb]. rewrite !andb_true_iff. intros [[A B] C]. apply PlElse; [exact A|apply body_b; auto|apply body_b; auto].
  - cbn [plainlyb]. rewrite andb_true_iff. intros [A B]. apply PlWhile; [exact A|apply body_b; auto].
  - cbn [plainlyb]. rewrite andb_true_iff. intros [A B]. apply PlRepeat; [exact A|apply body_b; auto].
  - cbn [plainlyb]. rewrite andb_true_iff. intros [A B]. apply PlDo; [exact A|apply body_b; auto].
  - cbn [plainlyb]. rewrite !andb_true_iff. intros [[[A B] C] D]. apply PlFor; [exact A|exact B|destruct k; auto|apply body_b; auto].
Qed.

Definition declb (D U : list cstr) : bool := forallb (fun n => plainb n && existsb (fun m => if list_eq_dec Z.eq_dec (map tolower m) (map tolower n) then true else false) D) U.
Lemma declb_ok D U : declb D U = true -> declared D U.
Proof.
  unfold declb, declared. rewrite forallb_forall. intros H n Hn. specialize (H n Hn). apply andb_true_iff in H. destruct H as [H1 H2]. split; [apply plainb_ok, H1|].
  apply existsb_exists in H2. destruct H2 as (m & Hm & E). exists m. split; [exact Hm|]. destruct (list_eq_dec _ _ _); [assumption|discriminate].
Qed.
Definition valuedb (env : cstr -> Z) (pc : Z) (st : stmt) : bool := forallb (fun e => match val_of env pc e with Some _ => true | None => false end) (operands st).
Lemma valuedb_ok env pc st : valuedb env pc st = true -> valued env pc st.
Proof. unfold valuedb, valued. rewrite forallb_forall. intros H e He E. specialize (H e He). rewrite E in H. discriminate. Qed.
Definition nonnameb (e : expr) : bool := match e with ESym _ => false | _ => true end.
Definition behindb (st : stmt) : bool := match st with SEmpty | SData _ _ | SOp _ _ => match uses st with [] => true | _ => false end | _ => false end.
Lemma behindb_ok st : behindb st = true -> behind st.
Proof. unfold behindb, behind. destruct st; try discriminate; destruct (uses _); auto; discriminate. Qed.
Definition onward (o1 : list Z) (L1 : list (cstr * Z)) (x : option ((cstr -> Z) * Z * list Z * list (cstr * Z))) : option ((cstr -> Z) * Z * list Z * list (cstr * Z)) :=
  match x with Some (env, pc, o2, L2) => Some (env, pc, o1 ++ o2, L1 ++ L2) | None => None end.
Fixpoint iacts (f : nat) (D T : list cstr) (env : cstr -> Z) (pc : Z) (l : list (option cstr * stmt)) : option ((cstr -> Z) * Z * list Z * list (cstr * Z)) :=
  match l with
  | [] => Some (env, pc, [], [])
  | (None, SVar [(n, i)]) :: l => if plainb n then
      match i with
      | None => iacts f (n :: D) (n :: T) (with_value env n 0) pc l
      | Some e => if wfe e && eager e && nonnameb e && declb D (names e) then match val_of (with_value env n 0) pc e with Some v => iacts f (n :: D) (n :: T) (with_value env n v) pc l | None => None end else None
      end else None
  | (None, st) :: l => if plainlyb st && declb D (uses st) && declb T (targets st) && valuedb env pc st then
      match interp f env pc st with
      | Some (env1, pc1, o1) => onward o1 [] (iacts f D T env1 pc1 l)
      | None => None end else None
  | (Some t, st) :: l => let n := uncolon t in if plainb n && (0 <=? pc) && (pc <=? 65535) && behindb st && plainlyb st && valuedb env pc st then
      match interp f (with_value env n pc) pc st with
      | Some (env1, pc1, o1) => onward o1 [(n, pc)] (iacts f (n :: D) T env1 pc1 l)
      | None => None end else None
  end.
Lemma onward_ok o1 L1 x env pc o L : onward o1 L1 x = Some (env, pc, o, L) -> exists o2 L2, x = Some (env, pc, o2, L2) /\ o = o1 ++ o2 /\ L = L1 ++ L2.
Proof. destruct x as [[[[e p] o2] L2]|]; [|discriminate]. intros E. injection E as <- <- <- <-. eauto. Qed.
Lemma iacts_ok f l : forall D T env pc env' pc' o L, iacts f D T env pc l = Some (env', pc', o, L) -> acts D T env pc l env' pc' o L.
Proof.
  induction l as [|[[a|] st] l IH]; intros D T env pc env' pc' o L E; [cbn in E; injection E as <- <- <- <-; constructor| |].
  - cbn [iacts] in E. cbv zeta in E. destruct (plainb (uncolon a) && (0 <=? pc) && (pc <=? 65535) && behindb st && plainlyb st && valuedb env pc st) eqn:B; [|discriminate].
    rewrite !andb_true_iff, !Z.leb_le in B. destruct B as [[[[[B1 B2] B3] B4] B5] B6].
    destruct (interp f (with_value env (uncolon a) pc) pc st) as [[[e1 p1] o1]|] eqn:E1; [|discriminate]. apply onward_ok in E. destruct E as (o2 & L2 & E & -> & ->).
    apply (ActLabel c02 ill D T env pc a st l e1 p1); [apply plainb_ok, B1|lia|apply behindb_ok, B4|apply plainlyb_ok, B5|apply valuedb_ok, B6|exact (interp_ok _ _ _ _ _ _ _ E1)|apply IH, E].
  - assert (G : (exists n i, st = SVar [(n, i)]) \/ (if plainlyb st && declb D (uses st) && declb T (targets st) && valuedb env pc st then
      match interp f env pc st with
      | Some (env1, pc1, o1) => onward o1 [] (iacts f D T env1 pc1 l)
      | None => None end else None) = Some (env', pc', o, L)).
    { destruct st; try (right; exact E). destruct l0 as [|[n i] [|]]; try (right; exact E). left. eauto. }
    destruct G as [(n & i & ->)|G].
    + cbn [iacts] in E. destruct (plainb n) eqn:Pn; [|discriminate]. apply plainb_ok in Pn. destruct i as [e|].
      * destruct (wfe e && eager e && nonnameb e && declb D (names e)) eqn:G; [|discriminate]. rewrite !andb_true_iff in G. destruct G as [[[G1 G2] G3] G4].
        destruct (val_of (with_value env n 0) pc e) as [v|] eqn:Ev; [|discriminate]. apply (ActVar c02 ill D T env pc n (Some e) v); [exact Pn| |apply IH, E].
        split; [exact G1|]. split; [exact G2|]. split; [destruct e; try exact I; discriminate|]. split; [apply declb_ok, G4|exact Ev].
      * apply (ActVar c02 ill D T env pc n None 0); [exact Pn|reflexivity|apply IH, E].
    + clear E. destruct (plainlyb st && declb D (uses st) && declb T (targets st) && valuedb env pc st) eqn:B; [|discriminate]. rewrite !andb_true_iff in B. destruct B as [[[B1 B2] B2'] B3].
      destruct (interp f env pc st) as [[[e1 p1] o1]|] eqn:E1; [|discriminate]. apply onward_ok in G. destruct G as (o2 & L2 & G & -> & ->).
      apply (ActStmt c02 ill D T env pc st l e1 p1); [apply plainlyb_ok, B1|apply declb_ok, B2|apply declb_ok, B2'|apply valuedb_ok, B3|exact (interp_ok _ _ _ _ _ _ _ E1)|apply IH, G].
Qed.
End Cpu.
(** the lines of a file that has nothing but lines *)
Definition only_lines (l : list sline) : list tline := flat_map (fun x => match x with SrcLine y => [y] | _ => [] end) l.
