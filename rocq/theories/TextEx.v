(** A source text with its tokens and statements: a case for the properties of Prop_Text.v. *)
From Coq Require Import String Lia.
From Verif Require Import Base BaseProofs Str CNum Opcodes State Lexer LexProofs ExprShape SrcText SrcProg.
Open Scope string_scope.
Open Scope list_scope.
Open Scope Z_scope.

Lemma lex_tok f d n ts t s k : lexeme f (skipn k s) (firstn k s) t -> lexed false d n ts (skipn k s) -> lexed f d n (LTok t n :: ts) s.
Proof. intros H1 H2. rewrite <- (firstn_skipn k s). apply LexTok; auto. Qed.
Lemma lex_comment f d n ts s k : firstn 1 s = [59] -> Forall (fun c => c <> 10) (firstn k (tl s)) -> next_not (fun c => c <> 10) (skipn k (tl s)) -> lexed f d n ts (skipn k (tl s)) -> lexed f d n ts s.
Proof. destruct s as [|c s]; [discriminate|]. cbn [firstn tl]. intros [= ->] H1 H2 H3. rewrite <- (firstn_skipn k s). apply LexComment; auto. Qed.
Definition same_b (a b : cstr) : bool := forallb (fun x => fst x =? snd x) (combine (map tolower a) (map tolower b)) && Nat.eqb (List.length a) (List.length b).
Definition free (w : cstr) : bool := forallb (fun x : string * Z => negb (same_b w (cs (fst x)))) op_table && negb (same_b w (cs "NOT")) && negb (same_b w (cs "X")) && negb (same_b w (cs "Y")).
Lemma same_b_ok a b : same_text a b -> same_b a b = true.
Proof.
  unfold same_text, same_b. intros H. apply andb_true_iff. split.
  - rewrite H. generalize (map tolower b). induction l as [|c l IH]; cbn; [reflexivity|]. rewrite Z.eqb_refl. exact IH.
  - apply (f_equal (@List.length Z)) in H. rewrite !map_length in H. rewrite H. apply Nat.eqb_refl.
Qed.
Lemma free_ok w : free w = true -> ~ reserved w.
Proof.
  unfold free. rewrite !andb_true_iff, !negb_true_iff. intros [[[F1 F2] F3] F4] [(v & i & I1 & S)|[S|[S|S]]].
  - rewrite forallb_forall in F1. specialize (F1 _ I1). cbn [fst] in F1. apply same_b_ok in S. rewrite S in F1. discriminate.
  - apply same_b_ok in S. congruence.
  - apply same_b_ok in S. congruence.
  - apply same_b_ok in S. congruence.
Qed.
Ltac chars := cbn; unfold word_char, name_char, letter, digit, blank_ch, digit_is; try lia; try (intros (? & ?); lia); auto.
Ltac fin := repeat (apply Forall_nil || apply Forall2_nil || (apply Forall_cons; [chars|]) || (apply Forall2_cons; [split; [unfold digit_is; lia|lia]|])).
Ltac tk k := match goal with |- lexed _ _ _ ?ts _ => apply (lex_tok _ _ _ _ _ _ k) end; [cbn [firstn skipn]|cbn [skipn]].
Ltac blank := apply LexBlank; [chars|].
Ltac eol := apply LexEol; cbn [Z.add Pos.add Pos.succ].
Ltac op k v i := tk k; [apply (LxOp _ _ _ v i); [vm_compute; auto 200|reflexivity|chars]|].
Ltac name k := tk k; [apply LxName; [exists []; eexists _, _; split; [reflexivity|]; split; [auto|]; split; [chars|fin]|apply free_ok; vm_compute; reflexivity|chars]|].
Ltac hex k ds := tk k; [match goal with |- lexeme ?f ?r ?w _ => change (lexeme f r w (TkInt (positional 16 ds))) end; apply (LxHex _ _ _ ds); [fin|vm_compute; reflexivity|chars]|].
Ltac dec k ds := tk k; [match goal with |- lexeme ?f ?r ?w _ => change (lexeme f r w (TkInt (positional 10 ds))) end; apply (LxDec _ _ _ ds); [fin|discriminate|vm_compute; reflexivity|chars]|].
Ltac colon k := tk k; [match goal with |- lexeme _ _ ?w _ => change w with (removelast w ++ [58]); cbn [removelast]; apply LxColon; exists []; eexists _, _; split; [reflexivity|]; split; [auto|]; split; [chars|fin] end|].
Ltac sign := tk 1%nat; [apply LxSign; [reflexivity|auto|chars]|].
Ltac mul := tk 1%nat; [apply LxStar; intros b r E B; destruct b as [|c b]; [cbn in E; rewrite <- E; chars|inversion B; subst; cbn in E; injection E as E1 E2; unfold blank_ch in *; lia]|].
Ltac comment k := apply (lex_comment _ _ _ _ _ k); [reflexivity|cbn [firstn tl]; fin|chars|cbn [skipn tl]].
Ltac word k v kk := tk k; [apply (LxWord _ _ _ v kk); [vm_compute; auto 60|reflexivity|chars]|].
Ltac mark k v t no := tk k; [apply (LxMark _ _ v t no); [vm_compute; auto 40|chars]|].
Ltac str k := tk k; [match goal with |- lexeme _ _ (34 :: ?w) _ => change (34 :: w) with (34 :: removelast w ++ [34]); cbn [removelast]; apply LxStr; [fin; repeat split; lia|discriminate|chars] end|].

Definition ex_text : cstr := concat (map (fun l => (cs l ++ [10])%list)
  ["; a case"; " .org $0801"; "start: LDA #tab+2*3 ; load"; "loop sta ($fb),y"; " .if n < 4"; " dex"; " .else"; " .byte 1, ""abc"""; " .endif"; "n = 10"; " mac 7, n"; ""]).
Definition ex_tokens : list ltok := Eval vm_compute in tokens ex_text.
Lemma ex_lexed : lexed true 0 0 ex_tokens ex_text.
Proof.
  let x := eval vm_compute in ex_text in change ex_text with x. unfold ex_tokens.
  comment 7%nat. eol. blank. word 4%nat ".ORG" WOrg. blank. hex 5%nat [0; 8; 0; 1]. eol.
  colon 6%nat. blank. op 3%nat "LDA" 18. blank. mark 1%nat "#" (TkCh 35) "". name 3%nat. sign. dec 1%nat [2]. mul. dec 1%nat [3]. blank. comment 5%nat. eol.
  name 4%nat. blank. op 3%nat "STA" 19. blank. mark 1%nat "(" (TkCh 40) "". hex 3%nat [15; 11]. mark 1%nat ")" (TkCh 41) "". mark 1%nat "," (TkCh 44) "". word 1%nat "Y" WY. eol.
  blank. word 3%nat ".IF" WIf. blank. name 1%nat. blank. mark 1%nat "<" (TkCh 60) "<=>". blank. dec 1%nat [4]. eol.
  blank. op 3%nat "DEX" 9. eol. blank. word 5%nat ".ELSE" WElse. eol. blank. word 5%nat ".BYTE" WByte. blank. dec 1%nat [1]. mark 1%nat "," (TkCh 44) "". blank. str 5%nat. eol.
  blank. word 6%nat ".ENDIF" WEndif. eol. name 1%nat. blank. mark 1%nat "=" (TkCh 61) "=". blank. dec 2%nat [1; 0]. eol.
  blank. name 3%nat. blank. dec 1%nat [7]. mark 1%nat "," (TkCh 44) "". blank. name 1%nat. eol. eol. apply LexEnd.
Qed.

Lemma fi_line x xs l k : line_of x (firstn k l) -> file_of xs (skipn k l) -> file_of (x :: xs) l.
Proof. intros H1 H2. rewrite <- (firstn_skipn k l). apply FiLine; auto. Qed.
Ltac line k := apply (fi_line _ _ _ k); [cbn [firstn]|cbn [skipn]].
(** the trees of the expressions *)
Definition t_sum : tree := TBin OPlus (TName (cs "tab") false) (TBin OMul (TInt 2) (TInt 3)).
Definition ex_lines : list sline :=
  [SrcLine (mkLine 1 None SEmpty None);
   SrcLine (mkLine 2 None (SOrg (EInt 2049)) None);
   SrcLine (mkLine 3 (Some (cs "start:")) (SOp 18 (FImm (EBin OPlus (ESym (cs "tab")) (EBin OMul (EInt 2) (EInt 3))))) None);
   SrcLine (mkLine 4 (Some (cs "loop")) (SOp 19 (FIndY (EInt 251))) None);
   SrcLine (mkLine 9 None (SIf (EBin OLt (ESym (cs "n")) (EInt 4)) [(5, SEmpty); (6, SOp 9 FImp)]
                               (Some [(7, SEmpty); (8, SData 1 [IExpr (EInt 1); IStr (cs """abc""")])])) None);
   SrcLine (mkLine 10 None (SAssign (cs "n") (EInt 10)) None);
   SrcLine (mkLine 11 (Some (cs "mac")) SBad (Some [IExpr (EInt 7); IExpr (ESym (cs "n"))]));
   SrcLine (mkLine 12 None SEmpty None)].
Lemma w_int v n : written (TInt v) [LTok (TkInt v) n]. Proof. split; [exact I|reflexivity]. Qed.
Lemma w_name s f n : written (TName s f) [LTok (TkName s f) n]. Proof. split; [exact I|reflexivity]. Qed.
Lemma ex_file : file_of ex_lines ex_tokens.
Proof.
  unfold ex_tokens, ex_lines.
  line 1%nat; [apply LnEmpty|].
  line 3%nat; [apply (LnStmt _ [kwt WOrg 1; LTok (TkInt 2049) 1]); [apply (StOrg _ (TInt 2049)), w_int|do 3 eexists; split; [reflexivity|right; eexists; reflexivity]]|].
  line 9%nat.
  { apply (LnLabel (cs "start:") true 2 _ [LTok (TkOp 18) 2; cht 35 2; LTok (TkName (cs "tab") false) 2; cht 43 2; LTok (TkInt 2) 2; cht 42 2; LTok (TkInt 3) 2]); [|do 3 eexists; split; [reflexivity|left; eexists; reflexivity]].
    apply StOp. apply (OpImm t_sum). split; [|reflexivity]. cbn. repeat split; [exists 5; repeat split|]. exists 4. split; [reflexivity|]. split; [exact I|]. exists 5. split; [reflexivity|lia]. }
  line 8%nat.
  { apply (LnLabel (cs "loop") true 3 _ [LTok (TkOp 19) 3; cht 40 3; LTok (TkInt 251) 3; cht 41 3; cht 44 3; kwt WY 3]); [|do 3 eexists; split; [reflexivity|left; eexists; reflexivity]].
    apply StOp. apply (OpIndY (TInt 251) [LTok (TkInt 251) 3]), w_int. }
  line 16%nat.
  { apply (LnStmt _ [kwt WIf 4; LTok (TkName (cs "n") false) 4; cht 60 4; LTok (TkInt 4) 4; kwt WEol 5; LTok (TkOp 9) 5; kwt WEol 6; kwt WElse 6; kwt WEol 7; kwt WByte 7; LTok (TkInt 1) 7; cht 44 7; LTok (TkStr (cs """abc""")) 7; kwt WEol 8; kwt WEndif 8]);
      [|do 3 eexists; split; [reflexivity|right; eexists; reflexivity]].
    apply (StIfElse 4 (TBin OLt (TName (cs "n") false) (TInt 4)) [LTok (TkName (cs "n") false) 4; cht 60 4; LTok (TkInt 4) 4] _ [kwt WEol 5; LTok (TkOp 9) 5; kwt WEol 6] 6 _
             [kwt WEol 7; kwt WByte 7; LTok (TkInt 1) 7; cht 44 7; LTok (TkStr (cs """abc""")) 7; kwt WEol 8] 8).
    - split; [|reflexivity]. cbn. repeat split. exists 2. repeat split.
    - apply (BoMore SEmpty [] 5 _ _ StEmpty). apply (BoLast (SOp 9 FImp) [LTok (TkOp 9) 5] 6), StOp, OpImp.
    - apply (BoMore SEmpty [] 7 _ _ StEmpty). apply (BoLast _ [kwt WByte 7; LTok (TkInt 1) 7; cht 44 7; LTok (TkStr (cs """abc""")) 7] 8), StByte.
      apply (ItMore (IExpr (EInt 1)) [IStr (cs """abc""")] [LTok (TkInt 1) 7]); [apply (ItExpr (TInt 1)), w_int|apply ItLast, ItStr]. }
  line 4%nat; [apply (LnAssign (cs "n") (LTok (TkName (cs "n") true) 9) (cht 61 9) (TInt 10) [LTok (TkInt 10) 9]); [apply NmName|exists 9; auto|apply w_int]|].
  line 5%nat; [apply (LnCall (cs "mac") true 10 _ [LTok (TkInt 7) 10; cht 44 10; LTok (TkName (cs "n") false) 10])|].
  { apply (ItMore (IExpr (EInt 7)) [IExpr (ESym (cs "n"))] [LTok (TkInt 7) 10]); [apply (ItExpr (TInt 7)), w_int|apply ItLast, (ItExpr (TName (cs "n") false)), w_name]. }
  { do 3 eexists. split; [reflexivity|left; eexists; reflexivity]. }
  line 1%nat; [apply LnEmpty|]. apply FiEnd.
Qed.

(** a whole program: instructions, a label used before and behind it, a name *)
Definition ex_prog : cstr := concat (map (fun l => (cs l ++ [10])%list) [" .org $1000"; "start lda #v"; " bne start ; again"; "v = 5"]).
Definition ex_prog_tokens : list ltok := Eval vm_compute in tokens ex_prog.
Lemma ex_prog_lexed : lexed true 0 0 ex_prog_tokens ex_prog.
Proof.
  let x := eval vm_compute in ex_prog in change ex_prog with x. unfold ex_prog_tokens.
  blank. word 4%nat ".ORG" WOrg. blank. hex 5%nat [1; 0; 0; 0]. eol.
  name 5%nat. blank. op 3%nat "LDA" 18. blank. mark 1%nat "#" (TkCh 35) "". name 1%nat. eol.
  blank. op 3%nat "BNE" 62. blank. name 5%nat. blank. comment 6%nat. eol.
  name 1%nat. blank. mark 1%nat "=" (TkCh 61) "=". blank. dec 1%nat [5]. eol. apply LexEnd.
Qed.
Definition ex_org : tline := mkLine 1 None (SOrg (EInt 4096)) None.
Definition ex_body : list tline :=
  [mkLine 2 (Some (cs "start")) (SOp 18 (FImm (ESym (cs "v")))) None; mkLine 3 None (SOp 62 (FAbs (ESym (cs "start")))) None; mkLine 4 None (SAssign (cs "v") (EInt 5)) None].
Lemma ex_prog_reads : reads_as (map SrcLine (ex_org :: ex_body)) ex_prog.
Proof.
  exists ex_prog_tokens. split; [exact ex_prog_lexed|]. unfold ex_prog_tokens, ex_org, ex_body. cbn [map].
  line 3%nat; [apply (LnStmt _ [kwt WOrg 0; LTok (TkInt 4096) 0]); [apply (StOrg _ (TInt 4096)), w_int|do 3 eexists; split; [reflexivity|right; eexists; reflexivity]]|].
  line 5%nat; [apply (LnLabel (cs "start") true 1 _ [LTok (TkOp 18) 1; cht 35 1; LTok (TkName (cs "v") false) 1]); [apply StOp, (OpImm (TName (cs "v") false)), w_name|do 3 eexists; split; [reflexivity|left; eexists; reflexivity]]|].
  line 3%nat; [apply (LnStmt _ [LTok (TkOp 62) 2; LTok (TkName (cs "start") false) 2]); [apply StOp, (OpAbs (TName (cs "start") false)); [apply w_name|discriminate|discriminate]|do 3 eexists; split; [reflexivity|left; eexists; reflexivity]]|].
  line 4%nat; [apply (LnAssign (cs "v") (LTok (TkName (cs "v") true) 3) (cht 61 3) (TInt 5) [LTok (TkInt 5) 3]); [apply NmName|exists 3; auto|apply w_int]|].
  apply FiEnd.
Qed.
