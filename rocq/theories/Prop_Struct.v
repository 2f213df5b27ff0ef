(** Properties of conditions, loops and variables: what a program of them assembles to (C70, C71). *)
From Coq Require Import String Lia.
From Verif Require Import Base BaseProofs Dict DictProofs Str Opcodes Err State Sym Machine Build Pass Prog Sem SymProofs ExprProofs ExprMore InstrProofs DataProofs FragPass IfProofs Struct StructRep StructRun StructBuild StructLine StructVar StructLabel StructProg StructEx Lexer Parser SrcText SrcProg ParseText LexProofs ExprShape TextEx.
Open Scope string_scope.
Open Scope list_scope.
Open Scope Z_scope.

(** * C70: .IF *)
(** the condition is expanded once; if it is not 0 the first body is expanded and the other one is not, if it is 0
    the other one, if there is one, and the first is not *)
Theorem C70_if : forall F n c t el s,
  s_stop s = false -> nth_error (s_nodes s) n = Some (mkNode (KOpr OIf) ([c; t] ++ el)) -> (length el <= 1)%nat ->
  forall v s', expand (S F) n s = Ok v s' <->
  v = 0 /\ exists w s1, expand F c s = Ok w s1 /\
    ((w <> 0 /\ exists u, expand F t s1 = Ok u s') \/ (w = 0 /\ exists b u, el = [b] /\ expand F b s1 = Ok u s') \/ (w = 0 /\ el = [] /\ s' = s1)).
Proof.
  intros F n c t el s St N Le v s'. rewrite (node_if F n c t el s St N). split.
  - destruct (expand F c s) as [w s1| | |]; try discriminate. destruct (Z.eqb_spec w 0) as [->|Hw].
    + destruct el as [|b [|b' el]]; cbn [hd_error length] in *; [| |lia].
      * intros X. injection X as <- <-. split; [reflexivity|]. exists 0, s1. split; [reflexivity|right; right; auto].
      * destruct (expand F b s1) as [u s2| | |] eqn:Eb; try discriminate. intros X. injection X as <- <-. split; [reflexivity|]. exists 0, s1. split; [reflexivity|]. right; left. eauto 6.
    + destruct (expand F t s1) as [u s2| | |] eqn:Eb; try discriminate. intros X. injection X as <- <-. split; [reflexivity|]. exists w, s1. split; [reflexivity|]. left. eauto.
  - intros (-> & w & s1 & -> & [(Hw & u & Et)|[(-> & b & u & -> & Eb)|(-> & -> & ->)]]).
    + destruct (Z.eqb_spec w 0) as [|_]; [contradiction|]. rewrite Et. reflexivity.
    + cbn [Z.eqb hd_error]. rewrite Eb. reflexivity.
    + reflexivity.
Qed.
Print Assumptions C70_if.

(** exit() in the condition or in the branch that is assembled is passed on, and there is no other *)
Theorem C70_exit : forall F n c t el s,
  s_stop s = false -> nth_error (s_nodes s) n = Some (mkNode (KOpr OIf) ([c; t] ++ el)) -> (length el <= 1)%nat ->
  forall k s', expand (S F) n s = Exit k s' <->
  expand F c s = Exit k s' \/ exists w s1, expand F c s = Ok w s1 /\
    ((w <> 0 /\ expand F t s1 = Exit k s') \/ (w = 0 /\ exists b, el = [b] /\ expand F b s1 = Exit k s')).
Proof.
  intros F n c t el s St N Le k s'. rewrite (node_if F n c t el s St N). split.
  - destruct (expand F c s) as [w s1|j s1| |]; try discriminate; [|left; assumption]. destruct (Z.eqb_spec w 0) as [->|Hw].
    + destruct el as [|b [|b' el]]; cbn [hd_error length] in *; [discriminate| |lia].
      destruct (expand F b s1) as [u s2|j s2| |] eqn:Eb; try discriminate. intros X. injection X as <- <-. right. exists 0, s1. split; [reflexivity|]. right. eauto.
    + destruct (expand F t s1) as [u s2|j s2| |] eqn:Eb; try discriminate. intros X. injection X as <- <-. right. exists w, s1. split; [reflexivity|]. left. auto.
  - intros [->|(w & s1 & -> & [(Hw & Et)|(-> & b & -> & Eb)])]; [reflexivity| |].
    + destruct (Z.eqb_spec w 0) as [|_]; [contradiction|]. rewrite Et. reflexivity.
    + cbn [Z.eqb hd_error]. rewrite Eb. reflexivity.
Qed.
Print Assumptions C70_exit.

Example C70_programs :
  run [" * = $1000"; " .if 2 > 1"; " .byte 1"; " .else"; " .byte 2"; " .endif"] = Some (mkSum false 0 [1] 0 1) /\
  run [" * = $1000"; " .if 2 < 1"; " .byte 1"; " .else"; " .byte 2"; " .endif"] = Some (mkSum false 0 [2] 0 1) /\
  run [" * = $1000"; " .if 2 < 1"; " .byte 1"; " .endif"; " .byte 3"] = Some (mkSum false 0 [3] 0 1) /\
  run [" * = $1000"; " .if -1"; " .byte 1"; " .if 0"; " .byte 4"; " .else"; " .byte 5"; " .endif"; " .endif"; " .byte 3"] = Some (mkSum false 0 [1; 5; 3] 0 1).
Proof. vm_compute. auto. Qed.

(** * C71: programs with variables, conditions and loops *)
(** Struct.v says what such a program does when it is run: [env] holds the values of the names, [pc] is *, [o] are the
    bytes.  A program that sets the address and then declares variables, assigns to them, emits data and instructions and
    contains .IF, .WHILE, .REPEAT, .DO and .FOR, nested in any way, assembles to the bytes it emits when it is run, behind the load
    address if that was asked for, and leaves the variables with the values they have in the end.  Lines of data or of one
    instruction, and empty lines, may begin with labels, written with a colon or without: a label stands for the address of its line in all lines below, inside
    conditions and loops too. *)
Theorem C71_program : forall cfg c02 ill c64 main base l0 ls env' pc' o L,
  g_inputs cfg = [main] -> g_files cfg main = Some (map SrcLine (l0 :: ls)) -> g_out cfg = true -> g_canwrite cfg = true ->
  t_stmt l0 = SOrg (EInt base) \/ t_stmt l0 = SPcAssign (EInt base) -> t_label l0 = None ->
  NoDup (map (map tolower) (labels (map lined ls))) -> (forall n m, In n (vars (map lined ls)) -> In m (labels (map lined ls)) -> map tolower n <> map tolower m) ->
  acts c02 ill [] [] (fun _ => 0) base (map lined ls) env' pc' o L ->
  exists F0, forall F, (F0 <= F)%nat -> exists s',
    assemble F (init_state cfg c02 ill c64) = Ok 0 s' /\ s_errs s' = 0 /\ s_pc s' = pc' /\
    rev (s_out s') = (match o with [] => [] | _ => if c64 then [base mod 256; base / 256 mod 256] else [] end) ++ map (fun v => v mod 256) o /\
    (forall l n i, In (SVar l) (map t_stmt ls) -> In (n, i) l ->
      exists a y, dict_search (s_dict s') n = Some a /\ nth_error (s_syms s') a = Some y /\ y_var y = true /\ y_value y = env' n) /\
    map fst L = labels (map lined ls) /\
    forall n v, In (n, v) L -> exists a y, dict_search (s_dict s') n = Some a /\ nth_error (s_syms s') a = Some y /\ y_var y = false /\ y_init y = true /\ y_value y = v.
Proof.
  intros cfg c02 ill c64 main base l0 ls env' pc' o L Gi Gf Go Gw Og Lb Nd Dj A.
  destruct (acts_plain _ _ _ _ _ _ _ _ _ _ _ A) as (Pv & Pl & El).
  assert (Ap : apart (vars (map lined ls)) L) by (split; [exact Pl|]; rewrite El; split; [exact Nd|exact Dj]).
  destruct (assembles c02 ill cfg c64 main base l0 ls _ _ _ _ _ Gi Gf Og Lb A Ap Go Gw) as (F0 & X).
  exists F0. intros F HF. destruct (X F HF) as (D & T & s' & E & Er & Ou & Pc & Sc & ((Ic & It) & Sk) & Lv). exists s'. split; [exact E|]. split; [exact Er|]. split; [exact Pc|].
  split; [exact Ou|]. assert (G : forall n c, plain n -> dict_search (s_dict s') n <> None -> meaning s' n = c -> c <> core None -> exists a y, dict_search (s_dict s') n = Some a /\ nth_error (s_syms s') a = Some y /\ ycore y = c).
  { intros n c _ D1 M1 Nc. unfold meaning, resolve in M1. rewrite Sc in M1. unfold dl, dlookup in M1. cbn [fst snd] in M1. destruct (dict_search (s_dict s') n) as [a|]; [|congruence].
    destruct (nth_error (s_syms s') a) as [y|] eqn:Ey; [|congruence]. exists a, y. auto. }
  split; [|split; [exact El|]].
  - intros l n i Hl Hn. assert (V : In n (vars (map lined ls))). { apply in_map_iff in Hl. destruct Hl as (x & Ex & Hx). apply in_flat_map. exists (lined x). split; [apply in_map, Hx|]. cbn [lined snd]. rewrite Ex. apply in_map_iff. exists (n, i). auto. }
    destruct (Sk n (Pv n V)) as (D1 & b & M1 & B1); [exists n; split; [apply Ic, in_or_app; left; exact V|reflexivity]|].
    rewrite (B1 (ex_intro _ n (conj (It n V) eq_refl))) in M1.
    destruct (G n _ (Pv n V) D1 M1 ltac:(discriminate)) as (a & y & G1 & G2 & G3). exists a, y. split; [exact G1|]. split; [exact G2|]. injection G3 as H1 H2 H3 H4 H5. auto.
  - intros n v Hn. assert (V : In n (labels (map lined ls))) by (rewrite <- El; apply in_map_iff; exists (n, v); auto).
    destruct (Sk n (Pl n v Hn)) as (D1 & _); [exists n; split; [apply Ic, in_or_app; right; exact V|reflexivity]|].
    destruct (G n _ (Pl n v Hn) D1 (Lv n v Hn) ltac:(discriminate)) as (a & y & G1 & G2 & G3). exists a, y. split; [exact G1|]. split; [exact G2|]. injection G3 as H1 H2 H3 H4 H5. auto.
Qed.
Print Assumptions C71_program.

(** the same for the text of the file *)
Theorem C71_text : forall cfg c02 ill c64 main base text l0 ls env' pc' o L,
  g_inputs cfg = [main] -> g_files cfg main = Some (parse_text text) -> reads_as (map SrcLine (l0 :: ls)) text -> g_out cfg = true -> g_canwrite cfg = true ->
  t_stmt l0 = SOrg (EInt base) \/ t_stmt l0 = SPcAssign (EInt base) -> t_label l0 = None ->
  NoDup (map (map tolower) (labels (map lined ls))) -> (forall n m, In n (vars (map lined ls)) -> In m (labels (map lined ls)) -> map tolower n <> map tolower m) ->
  acts c02 ill [] [] (fun _ => 0) base (map lined ls) env' pc' o L ->
  exists F0, forall F, (F0 <= F)%nat -> exists s',
    assemble F (init_state cfg c02 ill c64) = Ok 0 s' /\ s_errs s' = 0 /\ s_pc s' = pc' /\
    rev (s_out s') = (match o with [] => [] | _ => if c64 then [base mod 256; base / 256 mod 256] else [] end) ++ map (fun v => v mod 256) o.
Proof.
  intros cfg c02 ill c64 main base text l0 ls env' pc' o L Gi Gf Rd Go Gw Og Lb Nd Dj A. rewrite (text_lines _ _ Rd) in Gf.
  destruct (C71_program cfg c02 ill c64 main base l0 ls env' pc' o L Gi Gf Go Gw Og Lb Nd Dj A) as (F0 & X). exists F0. intros F HF.
  destruct (X F HF) as (s' & X1 & X2 & X3 & X4 & _). exists s'. auto.
Qed.
Print Assumptions C71_text.

(** the end of a .FOR is fixed when it begins; the word is emitted in the second turn only *)
Definition ex_text71 : cstr := lines [" * = $1000"; " .var i"; " .var n = 1+2"; " .for i = 1 .to n"; " .byte i"; " .if i == 2"; " .word $1234*i"; " .else";
  " .while n < 5"; "n = n+1"; " .byte 0"; " .wend"; " .endif"; " .next i"; " .repeat"; "N = N-1"; " .until n < i"; " .do"; " .byte n,i"; " .word *"; "i=i+1"; " .while i < 6"].
Definition ex_lines71 : list tline := Eval vm_compute in only_lines (parse_text ex_text71).
Definition ex_cfg71 : config := mkCfg (fun _ => Some (parse_text ex_text71)) (fun _ => None) [cs "m.a"] true true.
Example C71_example : g_files ex_cfg71 (cs "m.a") = Some (map SrcLine ex_lines71) /\
  (exists l0 ls, ex_lines71 = l0 :: ls /\ t_stmt l0 = SPcAssign (EInt 4096) /\ labels (map lined ls) = [] /\
    exists env', acts false false [] [] (fun _ => 0) 4096 (map lined ls) env' 4111 [1; 0; 0; 2; 9320; 36; 3; 3; 4; 4105; 16; 3; 5; 4109; 16] [] /\ env' (cs "i") = 6 /\ env' (cs "N") = 3).
Proof.
  split; [vm_compute; reflexivity|]. eexists. eexists. split; [unfold ex_lines71; reflexivity|]. split; [reflexivity|]. split; [reflexivity|].
  eexists. split; [apply (iacts_ok false false 50); vm_compute; reflexivity|]. split; reflexivity.
Qed.
Example C71_run : match assemble 100 (init_state ex_cfg71 false false true) with
  | Ok c s => c = 0 /\ s_errs s = 0 /\ rev (s_out s) = [0; 16; 1; 0; 0; 2; 104; 36; 3; 3; 4; 9; 16; 3; 5; 13; 16] | _ => False end.
Proof. vm_compute. auto. Qed.

Definition loop_text : cstr := lines [" .org $1000"; " .var i"; " .while i < 3"; " .byte i"; "i = i+1"; " .wend"].
Definition loop_tokens : list ltok := Eval vm_compute in tokens loop_text.
Definition loop_org : tline := mkLine 1 None (SOrg (EInt 4096)) None.
Definition loop_body : list tline :=
  [mkLine 2 None (SVar [(cs "i", None)]) None;
   mkLine 6 None (SWhile (EBin OLt (ESym (cs "i")) (EInt 3)) [(4, SData 1 [IExpr (ESym (cs "i"))]); (5, SAssign (cs "i") (EBin OPlus (ESym (cs "i")) (EInt 1)))]) None].
Example C71_text_example : reads_as (map SrcLine (loop_org :: loop_body)) loop_text /\
  exists env', acts false false [] [] (fun _ => 0) 4096 (map lined loop_body) env' 4099 [0; 1; 2] [] /\ env' (cs "i") = 3.
Proof.
  split; [|eexists; split; [apply (iacts_ok false false 50); vm_compute; reflexivity|reflexivity]].
  exists loop_tokens. split.
  - let x := eval vm_compute in loop_text in change loop_text with x. unfold loop_tokens.
    blank. word 4%nat ".ORG" WOrg. blank. hex 5%nat [1; 0; 0; 0]. eol. blank. word 4%nat ".VAR" WVar. blank. name 1%nat. eol.
    blank. match goal with |- lexed _ _ _ _ ?s => rewrite <- (firstn_skipn 6 s); cbn [firstn skipn] end; apply LexWhile; [reflexivity|chars|lia|]. blank. name 1%nat. blank. mark 1%nat "<" (TkCh 60) "<=>". blank. dec 1%nat [3]. eol.
    blank. word 5%nat ".BYTE" WByte. blank. name 1%nat. eol. name 1%nat. blank. mark 1%nat "=" (TkCh 61) "=". blank. name 1%nat. sign. dec 1%nat [1]. eol.
    blank. word 5%nat ".WEND" WWend. eol. apply LexEnd.
  - unfold loop_tokens, loop_org, loop_body. cbn [map].
    line 3%nat; [apply (LnStmt _ [kwt WOrg 0; LTok (TkInt 4096) 0]); [apply (StOrg _ (TInt 4096)), w_int|do 3 eexists; split; [reflexivity|right; eexists; reflexivity]]|].
    line 3%nat; [apply (LnStmt _ [kwt WVar 1; LTok (TkName (cs "i") false) 1]); [apply StVar, VaLast, VaName, NmName|do 3 eexists; split; [reflexivity|right; eexists; reflexivity]]|].
    line 16%nat.
    { apply (LnStmt _ [kwt WWhile 2; LTok (TkName (cs "i") false) 2; cht 60 2; LTok (TkInt 3) 2; kwt WEol 3; kwt WByte 3; LTok (TkName (cs "i") false) 3; kwt WEol 4;
        LTok (TkName (cs "i") true) 4; cht 61 4; LTok (TkName (cs "i") false) 4; cht 43 4; LTok (TkInt 1) 4; kwt WEol 5; kwt WWend 5]);
        [|do 3 eexists; split; [reflexivity|right; eexists; reflexivity]].
      apply (StWhile 2 (TBin OLt (TName (cs "i") false) (TInt 3)) [LTok (TkName (cs "i") false) 2; cht 60 2; LTok (TkInt 3) 2] 3 _
        [kwt WByte 3; LTok (TkName (cs "i") false) 3; kwt WEol 4; LTok (TkName (cs "i") true) 4; cht 61 4; LTok (TkName (cs "i") false) 4; cht 43 4; LTok (TkInt 1) 4; kwt WEol 5] 5).
      - split; [|reflexivity]. cbn. repeat split. exists 2. repeat split.
      - apply (BoMore _ [kwt WByte 3; LTok (TkName (cs "i") false) 3] 4); [apply StByte, ItLast, (ItExpr (TName (cs "i") false)), w_name|].
        apply (BoLast _ [LTok (TkName (cs "i") true) 4; cht 61 4; LTok (TkName (cs "i") false) 4; cht 43 4; LTok (TkInt 1) 4] 5).
        apply (StAssign (cs "i") (LTok (TkName (cs "i") true) 4) (cht 61 4) (TBin OPlus (TName (cs "i") false) (TInt 1))); [apply NmName|exists 4; auto|].
        split; [|reflexivity]. cbn. repeat split. exists 4. repeat split. }
    apply FiEnd.
Qed.

(** instructions in a loop: each turn in the mode that fits the value of that turn *)
Definition ex_text71i : cstr := lines [" * = $1000"; " .var i"; " .var p = $fe+0"; " .for i = 0 .to 2"; " lda #i*2"; " sta p"; "p = p+1"; " .if i == 2"; " rol a"; " lda (i),y"; " .else";
  " bne *-2"; " ldx p,y"; " .endif"; " .next i"; " jmp (p)"].
Definition ex_lines71i : list tline := Eval vm_compute in only_lines (parse_text ex_text71i).
Definition ex_cfg71i : config := mkCfg (fun _ => Some (parse_text ex_text71i)) (fun _ => None) [cs "m.a"] true true.
Example C71_example_code : g_files ex_cfg71i (cs "m.a") = Some (map SrcLine ex_lines71i) /\
  (exists l0 ls, ex_lines71i = l0 :: ls /\ t_stmt l0 = SPcAssign (EInt 4096) /\ labels (map lined ls) = [] /\
    exists env', acts false false [] [] (fun _ => 0) 4096 (map lined ls) env' 4124
      [169; 0; 133; 254; 208; 252; 182; 255; 169; 2; 133; 255; 208; 252; 190; 256; 1; 169; 4; 141; 256; 1; 42; 177; 2; 108; 257; 1] [] /\ env' (cs "p") = 257).
Proof.
  split; [vm_compute; reflexivity|]. eexists. eexists. split; [unfold ex_lines71i; reflexivity|]. split; [reflexivity|]. split; [reflexivity|].
  eexists. split; [apply (iacts_ok false false 50); vm_compute; reflexivity|]. reflexivity.
Qed.
Example C71_run_code : match assemble 100 (init_state ex_cfg71i false false false) with
  | Ok c s => c = 0 /\ s_errs s = 0 /\ rev (s_out s) = [169; 0; 133; 254; 208; 252; 182; 255; 169; 2; 133; 255; 208; 252; 190; 0; 1; 169; 4; 141; 0; 1; 42; 177; 2; 108; 1; 1] | _ => False end.
Proof. vm_compute. auto. Qed.

(** labels, used in lines below and in a loop *)
Definition ex_text71l : cstr := lines [" * = $1000"; " .var i"; "start ldx #3"; "loop: dex"; " bne loop"; " .for i = 1 .to 2"; " jsr start"; " .word loop+i"; " .next i"; "Table: .byte 1,2"; " lda table,x"; "done"; " .if done > table";
  " jmp done"; " .endif"].
Definition ex_lines71l : list tline := Eval vm_compute in only_lines (parse_text ex_text71l).
Definition ex_cfg71l : config := mkCfg (fun _ => Some (parse_text ex_text71l)) (fun _ => None) [cs "m.a"] true true.
Example C71_run_labels : match assemble 100 (init_state ex_cfg71l false false false) with
  | Ok c s => c = 0 /\ s_errs s = 0 /\ rev (s_out s) = [162; 3; 202; 208; 253; 32; 0; 16; 3; 16; 32; 0; 16; 4; 16; 1; 2; 189; 15; 16; 76; 20; 16] | _ => False end.
Proof. vm_compute. auto. Qed.
Example C71_example_labels : g_files ex_cfg71l (cs "m.a") = Some (map SrcLine ex_lines71l) /\
  (exists l0 ls, ex_lines71l = l0 :: ls /\ t_stmt l0 = SPcAssign (EInt 4096) /\ t_label l0 = None /\
    NoDup (map (map tolower) (labels (map lined ls))) /\ (forall n m, In n (vars (map lined ls)) -> In m (labels (map lined ls)) -> map tolower n <> map tolower m) /\
    exists env', acts false false [] [] (fun _ => 0) 4096 (map lined ls) env' 4119
      [162; 3; 202; 208; 253; 32; 4096; 16; 4099; 16; 32; 4096; 16; 4100; 16; 1; 2; 189; 4111; 16; 76; 4116; 16]
      [(cs "start", 4096); (cs "loop", 4098); (cs "Table", 4111); (cs "done", 4116)] /\ env' (cs "i") = 3).
Proof.
  split; [vm_compute; reflexivity|]. eexists. eexists. split; [unfold ex_lines71l; reflexivity|]. split; [reflexivity|]. split; [reflexivity|]. split; [|split].
  - cbn [map lined labels flat_map fst t_label app]. repeat (constructor; [vm_compute; intros X; repeat (destruct X as [X|X]; [discriminate X|]); exact X|]). constructor.
  - intros n m [<-|[]] Hm. vm_compute in Hm. repeat (destruct Hm as [<-|Hm]; [vm_compute; discriminate|]). destruct Hm.
  - eexists. split; [apply (iacts_ok false false 50); vm_compute; reflexivity|]. reflexivity.
Qed.
