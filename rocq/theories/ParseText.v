(** The parser reads statements and lines as they are written (proofs for C68). *)
From Coq Require Import String Lia.
From Verif Require Import Base BaseProofs State Lexer Parser ExprShape ParseProofs SrcText SrcProg LexText.
Open Scope list_scope.
Open Scope Z_scope.

(** ** Expressions and lists *)
Definition plainb (t : tok) : bool := match t with TkInt _ => false | TkCh c => negb (c =? 40) | _ => true end.
Lemma may_b t : binop t = None -> plainb t = true -> may_follow t.
Proof.
  intros B P. split; [|split].
  - intros o p L ->. rewrite (binop_spell o p L) in B. discriminate.
  - intros v ->. discriminate.
  - intros ->. discriminate.
Qed.
Lemma sub_ok t l x n r : written t l -> binop x = None -> plainb x = true -> p_sub (l ++ LTok x n :: r) = Some (meant t, LTok x n :: r).
Proof. intros [G T] B P. apply grouped_sub; auto. apply may_b; auto. Qed.
(** how an expression can begin *)
Definition exprb (h : tok) : bool :=
  match h with
  | TkInt _ | TkName _ _ | TkPar _ | TkPm _ false => true
  | TkKw WNot => true
  | TkCh c => (c =? 45) || (c =? 43) || (c =? 42) || (c =? 40) || (c =? 126) || (c =? 60) || (c =? 62)
  | _ => false
  end.
Lemma flat_head t : grouped t -> exists h r, flat t = h :: r /\ exprb h = true.
Proof.
  induction t as [v|v|s b|s|s| | | |t IH|t IH|o t IH|o a IHa b IHb]; cbn [flat grouped]; intros G; eauto.
  - destruct G as [G _]. do 2 eexists. split; [reflexivity|]. destruct G as [<-|[<-|[<-|[<-|[]]]]]; reflexivity.
  - destruct G as [G _]. destruct (IHa G) as (h & r & -> & H). cbn [app]. eauto.
Qed.
Lemma written_head t l : written t l -> exists h n r, l = LTok h n :: r /\ exprb h = true.
Proof. intros [G T]. destruct (flat_head t G) as (h & r & E & H). rewrite E in T. apply text_cons in T as (n & l' & -> & _). eauto. Qed.
Lemma item_ok i l x n r : item_of i l -> binop x = None -> plainb x = true -> p_item (l ++ LTok x n :: r) = Some (i, LTok x n :: r).
Proof.
  intros H B P. destruct H as [s m|t l W]; [reflexivity|]. pose proof (sub_ok t l x n r W B P) as S. destruct (written_head t l W) as (h & m & r' & -> & H).
  cbn [app] in *. unfold p_item. rewrite S. destruct h; try reflexivity. discriminate.
Qed.
Lemma item_len i l : item_of i l -> (1 <= List.length l)%nat.
Proof. destruct 1 as [s m|t l W]; [cbn; lia|]. destruct (written_head t l W) as (h & m & r' & -> & H). cbn. lia. Qed.
Lemma items_ok a l : items_of a l -> forall f n r, (List.length l < f)%nat -> p_items f (l ++ kwt WEol n :: r) = Some (a, kwt WEol n :: r).
Proof.
  induction 1 as [i l I|i is_ l m r0 I Is IH]; intros f n r F; (destruct f as [|f]; [lia|]); cbn [p_items].
  - unfold kwt. rewrite (item_ok i l) by auto. reflexivity.
  - rewrite <- app_assoc. cbn [app]. rewrite (item_ok i l) by auto. change (44 =? 44) with true. cbv iota. rewrite IH; [reflexivity|]. pose proof (item_len i l I). rewrite app_length in F. cbn [List.length] in F. lia.
Qed.
Lemma list_ok a l n r : items_of a l -> p_list (l ++ kwt WEol n :: r) = Some (a, kwt WEol n :: r).
Proof. intros H. unfold p_list. apply items_ok; auto. rewrite app_length. cbn [List.length]. lia. Qed.
(** how an argument can begin *)
Definition argb (h : tok) : bool := exprb h || match h with TkStr _ => true | _ => false end.
Lemma items_head a l : items_of a l -> exists h n r, l = LTok h n :: r /\ argb h = true.
Proof.
  assert (X : forall i l, item_of i l -> exists h n r, l = LTok h n :: r /\ argb h = true).
  { intros i l0 [s m|t l1 W]; [do 3 eexists; split; reflexivity|]. destruct (written_head t l1 W) as (h & m & r' & -> & H). do 3 eexists. split; [reflexivity|]. unfold argb. rewrite H. reflexivity. }
  intros [i l0 I|i is_ l0 m r0 I Is]; destruct (X _ _ I) as (h & n & r & -> & H); cbn [app]; eauto.
Qed.

(** ** Operands *)
Lemma abs_ok t l x n r : written t l -> meant t <> EPc -> binop x = None -> plainb x = true -> p_abs (l ++ LTok x n :: r) = p_indexed (meant t) (LTok x n :: r).
Proof. intros W E B P. unfold p_abs. rewrite (sub_ok t) by auto. destruct (meant t); congruence. Qed.
(** a text that begins with a parenthesis and is not a parenthesised expression: an operator follows the closing one *)
Lemma paren_first t : grouped t -> (forall u, t <> TParen u) -> forall r, flat t = TkCh 40 :: r ->
  exists u k v, r = flat u ++ TkCh 41 :: k :: v /\ grouped u /\ exists o p, level o = Some p /\ k = spell o.
Proof.
  induction t as [v|v|s b|s|s| | | |t IH|t IH|o t IH|o a IHa b IHb]; cbn [flat grouped]; intros G N r E; try discriminate.
  - exfalso. eapply N. reflexivity.
  - destruct G as [[<-|[<-|[<-|[<-|[]]]]] _]; discriminate.
  - destruct G as (G & _ & _ & p & L & _). destruct a as [v|v|s c|s|s| | | |a|a|o' a|o' a1 a2]; try discriminate.
    + cbn [flat app] in E. injection E as <-. exists a, (spell o), (flat b). rewrite <- app_assoc. cbn [app]. eauto 7.
    + cbn [flat app] in E. destruct G as [[<-|[<-|[<-|[<-|[]]]]] _]; discriminate.
    + destruct (flat (TBin o' a1 a2)) as [|h r'] eqn:Ef; [destruct (flat_head _ G) as (h & r' & X & _); congruence|]. cbn [app] in E. injection E as -> <-.
      destruct (IHa G ltac:(discriminate) r' eq_refl) as (u & k & v & -> & Gu & K). exists u, k, (v ++ spell o :: flat b). rewrite <- app_assoc. cbn [app]. auto.
Qed.
Lemma operand_abs t l x n r : written t l -> meant t <> EPc -> (forall u, t <> TParen u) -> binop x = None -> plainb x = true ->
  p_operand (l ++ LTok x n :: r) = p_indexed (meant t) (LTok x n :: r).
Proof.
  intros W E N B P. pose proof (abs_ok t l x n r W E B P) as A. destruct (written_head t l W) as (h & m & l' & -> & H). cbn [app] in *. unfold p_operand.
  destruct h as [v|i|s f|s|s lab|raw|k|c|]; try exact A; try discriminate.
  - destruct k; try discriminate. exact A.
  - destruct (c =? 35) eqn:E35; [cbn in H; lia|]. destruct (c =? 40) eqn:E40; [|exact A].
    apply Z.eqb_eq in E40. subst c. destruct W as [G T]. cbn [text map] in T. symmetry in T. destruct (paren_first t G N _ T) as (u & k & v & Tx & Gu & o & p & L & K).
    change (map _ l') with (text l') in Tx. apply text_app in Tx as (a & b & -> & Ta & Tb). apply text_cons in Tb as (n1 & b1 & -> & Tb). apply text_cons in Tb as (n2 & b2 & -> & Tb).
    rewrite <- app_assoc. cbn [app]. rewrite (sub_ok u a (TkCh 41) n1) by (auto; split; auto). change (41 =? 44) with false. change (41 =? 41) with true. cbv iota.
    rewrite <- app_assoc in A. cbn [app] in A. subst k. destruct o; cbn in L; try discriminate; cbn [spell] in *; exact A.
Qed.
Lemma operand_ok o l n r : operand_of o l -> p_operand (l ++ kwt WEol n :: r) = Some (o, kwt WEol n :: r).
Proof.
  unfold kwt. destruct 1 as [|t l m W|t l W E N|t l m k W E N|t l m k W E N|t l m k W|t l m k p q W|t l m k p q W].
  - reflexivity.
  - cbn [app p_operand cht]. change (35 =? 35) with true. cbv iota. rewrite (sub_ok t) by auto. reflexivity.
  - rewrite (operand_abs t) by auto. reflexivity.
  - rewrite <- app_assoc. cbn [app]. unfold cht, kwt. rewrite (operand_abs t) by auto. reflexivity.
  - rewrite <- app_assoc. cbn [app]. unfold cht, kwt. rewrite (operand_abs t) by auto. reflexivity.
  - cbn [app p_operand cht]. rewrite <- app_assoc. cbn [app]. change (40 =? 35) with false. change (40 =? 40) with true. cbv iota. unfold cht. rewrite (sub_ok t) by auto. reflexivity.
  - cbn [app p_operand cht]. rewrite <- app_assoc. cbn [app]. change (40 =? 35) with false. change (40 =? 40) with true. cbv iota. unfold cht, kwt. rewrite (sub_ok t) by auto. reflexivity.
  - cbn [app p_operand cht]. rewrite <- app_assoc. cbn [app]. change (40 =? 35) with false. change (40 =? 40) with true. cbv iota. unfold cht, kwt. rewrite (sub_ok t) by auto. reflexivity.
Qed.

(** ** Names and variables *)
Lemma named_ok s x r : named s x -> p_name (x :: r) = Some (s, r).
Proof. destruct 1; reflexivity. Qed.
Lemma sets_ok x r : sets x -> p_asg (x :: r) = Some r.
Proof. intros (n & [->| ->]); reflexivity. Qed.
Lemma ch_hit c n r : p_ch c (cht c n :: r) = Some r.
Proof. unfold p_ch, cht. rewrite Z.eqb_refl. reflexivity. Qed.
Lemma vars_ok v l : vars_of v l -> forall f n r, (List.length l < f)%nat -> p_vars f (l ++ kwt WEol n :: r) = Some (v, kwt WEol n :: r).
Proof.
  assert (V : forall v l, var_of v l -> (1 <= List.length l)%nat). { destruct 1; cbn; lia. }
  induction 1 as [v l H|v vs l m r0 H Hs IH]; intros f n r F; (destruct f as [|f]; [lia|]); cbn [p_vars]; pose proof (V _ _ H) as L.
  - destruct H as [s x N|s x m t l N W]; cbn [app]; rewrite (named_ok s x _ N); [reflexivity|]. unfold p_ch at 1. cbn [cht]. change (61 =? 61) with true. cbv iota. unfold kwt. rewrite (sub_ok t) by auto. reflexivity.
  - rewrite <- app_assoc. cbn [app]. rewrite app_length in F. cbn [List.length] in F. destruct H as [s x N|s x k t l N W]; cbn [app]; rewrite (named_ok s x _ N).
    + change (p_ch 61 (cht 44 m :: r0 ++ kwt WEol n :: r)) with (@None toks). cbv iota. rewrite (ch_hit 44), IH by (cbn in *; lia). reflexivity.
    + rewrite (ch_hit 61). unfold cht at 1. rewrite (sub_ok t) by auto. fold (cht 44 m). rewrite (ch_hit 44), IH by (cbn in *; lia). reflexivity.
Qed.

(** ** Statements *)
Lemma bindp_ok (A B : Type) (m : pres A) (k : A -> toks -> pres B) a r : m = Some (a, r) -> bindp m k = k a r.
Proof. intros ->. reflexivity. Qed.
(** how a statement can begin, if not with the end of its line *)
Definition startb (h : tok) : bool :=
  match h with
  | TkOp _ | TkName _ _ | TkPar _ | TkPm _ false => true
  | TkKw k => match k with
    | WEol | WOrg | WDs | WFill | WByte | WWord | WStr | WPrint | WPrintAll | WPrintOn | WPrintOff | WSection | WEndSection | WEnd | WInc | WLoad | WPcAssign | WVar
    | WCpu _ | WIllegal _ | WC64 | WIf | WRepeat | WDo | WWhile | WFor | WMacro => true
    | _ => false end
  | _ => false
  end.
Lemma named_head s x : named s x -> exists h n, x = LTok h n /\ startb h = true.
Proof. destruct 1; eauto. Qed.
Lemma stmt_head st l n r : stmt_of st l -> exists h m r', l ++ kwt WEol n :: r = LTok h m :: r' /\ startb h = true.
Proof.
  destruct 1; cbn [app]; try (unfold kwt; do 3 eexists; split; reflexivity);
    match goal with H : named _ ?x |- _ => destruct (named_head _ x H) as (h & m & -> & Hh); eauto end.
Qed.
Lemma body_head b l r : body_of b l -> exists h m r', l ++ r = LTok h m :: r' /\ startb h = true.
Proof. destruct 1 as [st l n H|st l n b r0 H Hb]; rewrite <- app_assoc; cbn [app]; apply (stmt_head st l n _ H). Qed.
Lemma start_may h : startb h = true -> binop h = None /\ plainb h = true.
Proof. destruct h as [v|i|s f|s|s lab|raw|k|c|]; try discriminate; try (split; reflexivity). destruct k; try discriminate; split; reflexivity. Qed.
Lemma start_body h m r : startb h = true -> ends_body (LTok h m :: r) = false.
Proof. destruct h as [v|i|s f|s|s lab|raw|k|c|]; try discriminate; try reflexivity. destruct k; try discriminate; reflexivity. Qed.
Lemma sub_body t l b r rest : written t l -> body_of b r -> p_sub (l ++ r ++ rest) = Some (meant t, r ++ rest).
Proof. intros W Hb. destruct (body_head b r rest Hb) as (h & m & r' & -> & H). destruct (start_may h H). apply sub_ok; auto. Qed.
Lemma named_asg s x l : named s x -> forall f, p_stmt (S f) (x :: l) =
  match p_asg l with
  | Some r2 => bindp (p_sub r2) (fun e r => Some (SAssign s e, r))
  | None => if at_eol l then Some (SName s [], l) else match x with LTok (TkName _ _) _ => bindp (p_list l) (fun a r => Some (SName s a, r)) | _ => None end
  end.
Proof. destruct 1; reflexivity. Qed.

Definition stmt_reads (st : stmt) (l : toks) : Prop :=
  forall f n rest, (2 * List.length l + 1 <= f)%nat -> p_stmt f (l ++ kwt WEol n :: rest) = Some (st, kwt WEol n :: rest).
Definition body_reads (b : list (Z * stmt)) (l : toks) : Prop :=
  forall f x rest, (2 * List.length l <= f)%nat -> ends_body [x] = true -> p_body f (l ++ x :: rest) = Some (b, x :: rest).
Ltac len := repeat (rewrite ?app_length in *; cbn [List.length] in * ); lia.
Ltac opn := let f := fresh "f" in let n := fresh "n" in let rest := fresh "rest" in let F := fresh "F" in
  intros f n rest F; (destruct f as [|f]; [lia|]); repeat (rewrite <- ?app_assoc; cbn [app]).
Ltac sub1 := erewrite bindp_ok by (apply sub_ok; [eassumption|reflexivity|reflexivity]); cbv beta iota.
Ltac body1 := erewrite bindp_ok by (match goal with H : body_reads _ _ |- _ => apply H; [len|reflexivity] end); cbv beta iota.
Ltac all1 := erewrite bindp_ok by (apply list_ok; eassumption); cbv beta iota.
Lemma args_tests a l : items_of a l -> forall r, p_asg (l ++ r) = None /\ at_eol (l ++ r) = false.
Proof.
  intros H r0. destruct (items_head a l H) as (h & m & r & -> & Hh). cbn [app]. split.
  - destruct h as [v|i|s1 f1|s1|s1 lab|raw|k|c|]; try reflexivity; [destruct k; try reflexivity; discriminate|]. cbn [p_asg]. destruct (c =? 61) eqn:Ec; [|reflexivity]. unfold argb, exprb in Hh. lia.
  - destruct h as [v|i|s1 f1|s1|s1 lab|raw|k|c|]; try reflexivity. destruct k; try reflexivity. discriminate.
Qed.
Lemma stmt_body_reads : (forall st l, stmt_of st l -> stmt_reads st l) /\ (forall b l, body_of b l -> body_reads b l).
Proof.
  apply stmt_body_ind; intros; unfold stmt_reads.
  - (* empty *) opn. reflexivity.
  - (* instruction *) opn. cbn [p_stmt]. erewrite bindp_ok by (apply operand_ok; eassumption). reflexivity.
  - (* assignment *) opn. rewrite (named_asg s x) by assumption. rewrite sets_ok by assumption. unfold kwt. sub1. reflexivity.
  - (* name *) opn. rewrite (named_asg s x) by assumption. reflexivity.
  - (* call *) opn. rewrite (named_asg s _ _ (NmName s f n)). destruct (args_tests a l H (kwt WEol n0 :: rest)) as [-> ->]. all1. reflexivity.
  - opn. cbn [p_stmt kwt]. unfold kwt. sub1. reflexivity.
  - opn. cbn [p_stmt kwt]. unfold kwt. sub1. reflexivity.
  - (* .FILL *) opn. cbn [p_stmt kwt]. unfold cht. sub1. fold (cht 44 m). rewrite ch_hit. unfold kwt. sub1. reflexivity.
  - opn. cbn [p_stmt kwt]. all1. reflexivity.
  - opn. cbn [p_stmt kwt]. all1. reflexivity.
  - opn. cbn [p_stmt kwt]. all1. reflexivity.
  - opn. reflexivity.
  - opn. cbn [p_stmt]. unfold kwt at 1. destruct (args_tests a l H (kwt WEol n0 :: rest)) as [_ ->]. all1. reflexivity.
  - opn. reflexivity.
  - opn. cbn [p_stmt]. unfold kwt at 1. destruct (args_tests a l H (kwt WEol n0 :: rest)) as [_ ->]. all1. reflexivity.
  - opn. reflexivity.
  - opn. reflexivity.
  - opn. cbn [p_stmt kwt]. rewrite (bindp_ok _ _ _ _ s (kwt WEol n0 :: rest)) by (apply named_ok; assumption). reflexivity.
  - opn. reflexivity.
  - opn. reflexivity.
  - opn. reflexivity.
  - opn. reflexivity.
  - opn. cbn [p_stmt kwt]. rewrite sets_ok by assumption. unfold kwt. sub1. reflexivity.
  - opn. cbn [p_stmt kwt]. erewrite bindp_ok by (apply vars_ok; [eassumption|len]). reflexivity.
  - opn. reflexivity.
  - opn. reflexivity.
  - opn. reflexivity.
  - (* .IF *) opn. cbn [p_stmt]. unfold kwt at 1. erewrite bindp_ok by (eapply sub_body; eassumption). cbv beta. body1. reflexivity.
  - (* .IF .ELSE *) opn. cbn [p_stmt]. unfold kwt at 1. erewrite bindp_ok by (eapply sub_body; eassumption). cbv beta.
    erewrite bindp_ok by (match goal with H : body_reads b _ |- _ => apply H; [len|reflexivity] end). unfold kwt at 1.
    erewrite bindp_ok by (match goal with H : body_reads c _ |- _ => apply H; [len|reflexivity] end). reflexivity.
  - (* .REPEAT *) opn. cbn [p_stmt]. unfold kwt at 1. rewrite (bindp_ok _ _ _ _ tt (r ++ kwt WUntil k :: l ++ kwt WEol n0 :: rest)) by reflexivity. body1. unfold kwt. sub1. reflexivity.
  - (* .DO *) opn. cbn [p_stmt]. unfold kwt at 1. body1. unfold kwt. sub1. reflexivity.
  - (* .WHILE *) opn. cbn [p_stmt]. unfold kwt at 1 2. sub1. rewrite (bindp_ok _ _ _ _ tt (r ++ kwt WWend k :: kwt WEol n0 :: rest)) by reflexivity. body1. reflexivity.
  - (* .FOR *) opn. cbn [p_stmt]. unfold kwt at 1. cbv iota.
    set (R := y :: l ++ kwt WTo m :: p ++ sl ++ kwt WEol k :: r ++ kwt WNext j :: z :: kwt WEol n0 :: rest).
    transitivity (bindp (p_name (x :: R)) (fun s r =>
                      match p_asg r with
                      | None => None
                      | Some r =>
                          bindp (p_sub r) (fun e0 r =>
                          match r with
                          | LTok (TkKw WTo) _ :: r =>
                              bindp (p_sub r) (fun e1 r =>
                              bindp (match r with
                                     | LTok (TkKw WStep) _ :: r => bindp (p_sub r) (fun e r => Some (Some e, r))
                                     | _ => Some (None, r)
                                     end) (fun st r =>
                              bindp (p_kw k_eol r) (fun _ r =>
                              bindp (p_body f r) (fun b r =>
                              match r with
                              | LTok (TkKw WNext) _ :: r =>
                                  bindp (p_name r) (fun nx r => Some (SFor s e0 e1 st b nx, r))
                              | _ => None
                              end))))
                          | _ => None
                          end)
                      end)); [destruct H; reflexivity|].
    erewrite bindp_ok by (apply named_ok; eassumption). unfold R. rewrite sets_ok by assumption. unfold kwt at 1. sub1.
    match goal with H : step_of _ _ |- _ => destruct H as [|sn su sl' Ws] end; cbn [app].
    + unfold kwt at 1. sub1. erewrite bindp_ok by reflexivity. cbv beta. erewrite bindp_ok by reflexivity. cbv beta. body1. unfold kwt at 1.
      erewrite bindp_ok by (apply named_ok; eassumption). reflexivity.
    + unfold kwt at 1. sub1. unfold kwt at 1. erewrite bindp_ok by (cbv iota; sub1; reflexivity). cbv beta. erewrite bindp_ok by reflexivity. cbv beta. body1. unfold kwt at 1.
      erewrite bindp_ok by (apply named_ok; eassumption). reflexivity.
  - (* .FOR .REGX *) opn. cbn [p_stmt]. unfold kwt at 1 2.
    destruct x, up; cbv iota; rewrite ch_hit; unfold kwt at 1; sub1; unfold kwt at 1; sub1; (erewrite bindp_ok by reflexivity; cbv beta; body1; reflexivity).
  - (* .MACRO *) opn. cbn [p_stmt]. unfold kwt at 1. body1. reflexivity.
  - (* body *) unfold body_reads. intros f x rest F C. destruct f as [|f]; [len|]. rewrite <- app_assoc. cbn [app p_body]. rewrite H0 by len. cbn [p_eol kwt].
    change (ends_body (x :: rest)) with (ends_body [x]). rewrite C. reflexivity.
  - unfold body_reads. intros f x rest F C. destruct f as [|f]; [len|]. rewrite <- app_assoc. cbn [app p_body]. rewrite H0 by len. cbn [p_eol kwt].
    destruct (body_head b r (x :: rest) H1) as (h & m & r' & E & Hh). pose proof (H2 f x rest ltac:(len) C) as B. rewrite E in *. rewrite (start_body h m r' Hh). rewrite B. reflexivity.
Qed.
Lemma stmt_line st l n rest : stmt_of st l -> stmt_eol (l ++ kwt WEol n :: rest) = Some (st, n, rest).
Proof. intros H. unfold stmt_eol. rewrite (proj1 stmt_body_reads st l H) by len. reflexivity. Qed.

(** ** Lines *)
Lemma begins_asg l : begins_stmt l -> forall st, stmt_of st l -> forall r, p_asg (l ++ r) = None /\ args_eol (l ++ r) = None.
Proof.
  intros (t & n & r & -> & T) st H r0. destruct (stmt_head st _ 0 [] H) as (h & m & r' & E & Hh). cbn [app] in E. injection E as <- <- _. cbn [app].
  destruct T as [(i & ->)|(k & ->)]; [split; reflexivity|]. destruct k; try discriminate Hh; try (split; reflexivity). exfalso. clear Hh.
  inversion H; subst; match goal with N : named _ _ |- _ => inversion N end.
Qed.
(** a line with a name in front *)
Lemma labelled_top s t n r : t = TkName s true \/ t = TkName s false \/ t = TkPm s true -> p_asg r = None ->
  p_top (LTok t n :: r) = match stmt_eol r, args_eol r with
        | Some (st, n, r2), a => (SrcLine (mkLine n (Some s) st (option_map (fun x => fst (fst x)) a)), r2)
        | None, Some (a, n, r2) => (SrcLine (mkLine n (Some s) SBad (Some a)), r2)
        | None, None => let '(n, r2) := skip_line r in (SrcLine (mkLine n (Some s) SBad None), r2)
        end.
Proof. intros [->|[->| ->]] A; unfold p_top; rewrite A; reflexivity. Qed.
Lemma name_top s f n r : p_asg r = None ->
  p_top (LTok (TkName s f) n :: r) = match stmt_eol r, args_eol r with
        | Some (st, n, r2), a => (SrcLine (mkLine n (Some s) st (option_map (fun x => fst (fst x)) a)), r2)
        | None, Some (a, n, r2) => (SrcLine (mkLine n (Some s) SBad (Some a)), r2)
        | None, None => let '(n, r2) := skip_line r in (SrcLine (mkLine n (Some s) SBad None), r2)
        end.
Proof. intros A. apply labelled_top; auto. destruct f; auto. Qed.
Lemma args_line a l n r : items_of a l -> args_eol (l ++ kwt WEol n :: r) = Some (a, n, r).
Proof.
  intros H. unfold args_eol. destruct (args_tests a l H (kwt WEol n :: r)) as [_ E]. unfold at_eol in E. destruct (p_eol _); [discriminate|]. rewrite (list_ok a l n r H). reflexivity.
Qed.
Lemma line_top x l r : line_of x l -> p_top (l ++ r) = (x, r).
Proof.
  destruct 1 as [n|st l n H B|s x y t l n N S W|s f m n|s f m st l n H B|s f m a l n H B|s f m v g k n|s f m v g k j a l n H|s m st l n H B|s m n|neg s m n|m n|m n].
  - reflexivity.
  - rewrite <- app_assoc. cbn [app]. pose proof (stmt_line st l n r H) as E. destruct B as (t & m & q & -> & T). destruct (stmt_head st _ 0 [] H) as (h & m' & r' & E' & Hh). cbn [app] in *. injection E' as <- <- _.
    destruct T as [(i & ->)|(k & ->)]; unfold p_top; [rewrite E; reflexivity|]. destruct k; try discriminate Hh; rewrite E; reflexivity.
  - cbn [app]. rewrite <- app_assoc. cbn [app]. pose proof (stmt_line _ _ n r (StAssign s x y t l N S W)) as E. cbn [app] in E. unfold p_top.
    destruct N; rewrite ?(sets_ok y _ S), E; reflexivity.
  - cbn [app]. rewrite name_top by reflexivity. reflexivity.
  - cbn [app]. rewrite <- app_assoc. cbn [app]. destruct (begins_asg l B st H (kwt WEol n :: r)) as [A G]. rewrite name_top by exact A. rewrite (stmt_line st l n r H), G. reflexivity.
  - cbn [app]. rewrite <- app_assoc. cbn [app]. destruct (args_tests a l H (kwt WEol n :: r)) as [A _]. rewrite name_top by exact A. rewrite (args_line a l n r H).
    replace (stmt_eol (l ++ kwt WEol n :: r)) with (@None (stmt * Z * toks)); [reflexivity|]. destruct B as (t & m' & q & -> & [(v & ->)|[(c & ->)|(w & ->)]]); reflexivity.
  - cbn [app]. rewrite name_top by reflexivity.
    pose proof (args_line [IExpr (ESym v)] [LTok (TkName v g) k] n r (ItLast _ _ (ItExpr (TName v g) [LTok (TkName v g) k] (conj I eq_refl)))) as A. cbn [app] in A. rewrite A.
    pose proof (stmt_line _ _ n r (StName v _ (NmName v g k))) as E. cbn [app] in E. rewrite E. reflexivity.
  - cbn [app]. rewrite <- app_assoc. cbn [app]. rewrite name_top by reflexivity.
    pose proof (args_line (IExpr (ESym v) :: a) (LTok (TkName v g) k :: cht 44 j :: l) n r (ItMore (IExpr (ESym v)) a [LTok (TkName v g) k] j l (ItExpr (TName v g) [LTok (TkName v g) k] (conj I eq_refl)) H)) as A.
    cbn [app] in A. rewrite A.
    replace (stmt_eol (LTok (TkName v g) k :: cht 44 j :: l ++ kwt WEol n :: r)) with (@None (stmt * Z * toks)); [reflexivity|].
    unfold stmt_eol. cbn [List.length Nat.mul Nat.add]. rewrite (named_asg v _ _ (NmName v g k)). reflexivity.
  - cbn [app]. rewrite <- app_assoc. cbn [app]. destruct (begins_asg l B st H (kwt WEol n :: r)) as [A G]. rewrite (labelled_top s) by auto. rewrite (stmt_line st l n r H), G. reflexivity.
  - cbn [app]. rewrite (labelled_top s) by auto. reflexivity.
  - reflexivity.
  - reflexivity.
  - reflexivity.
Qed.
Lemma file_reads xs l : file_of xs l -> forall f, (List.length l < f)%nat -> p_file f l = xs.
Proof.
  induction 1 as [|x l xs r H Hs IH]; intros f F; (destruct f as [|f]; [lia|]); [reflexivity|]. cbn [p_file].
  assert (L : exists a q, l = a :: q) by (destruct H; cbn [app]; eauto; destruct l; cbn [app]; eauto). destruct L as (a & q & El).
  pose proof (line_top x l r H) as T. rewrite El in *. cbn [app] in *. rewrite T. f_equal. apply IH. len.
Qed.
Theorem text_lines ls s : reads_as ls s -> parse_text s = ls.
Proof. intros (ts & L & F). unfold parse_text. rewrite (lexed_tokens ts s L). apply file_reads; auto. Qed.
