(** The stack of included files (proofs for C44). *)
From Coq Require Import String Lia.
From Verif Require Import Base BaseProofs Hash Dict Str StrProofs Opcodes Err State Sym Machine Build Pass GenX Gen Inv.
Open Scope string_scope.
Open Scope list_scope.
Open Scope Z_scope.
Open Scope m_scope.

(** files opened on top of the input, each with the position it was opened at *)
Definition Rpush (s s' : state) : Prop :=
  exists news frs, s_input s' = news ++ s_input s /\ s_fstack s' = frs ++ s_fstack s /\ length news = length frs /\
    s_final s' = s_final s /\ s_opened s' = s_opened s /\ (s_org_spec s = true -> s_org_spec s' = true).
Definition Rany (s s' : state) : Prop := True.

Lemma Rpush_same s s' : s_input s' = s_input s -> s_fstack s' = s_fstack s -> s_final s' = s_final s ->
  s_opened s' = s_opened s -> (s_org_spec s = true -> s_org_spec s' = true) -> Rpush s s'.
Proof. intros. exists [], []. auto 10. Qed.
Lemma Rpush_trans a b c : Rpush a b -> Rpush b c -> Rpush a c.
Proof.
  intros (n1 & f1 & A1 & A2 & A3 & A4 & A5 & A6) (n2 & f2 & B1 & B2 & B3 & B4 & B5 & B6).
  exists (n2 ++ n1), (f2 ++ f1). rewrite B1, A1, B2, A2, !app_assoc, !app_length. repeat split; auto; lia || congruence.
Qed.
Lemma Rpush_steps : steps Rpush Rany.
Proof.
  constructor; unfold Rany; auto; try solve [intros; clo0; apply Rpush_same; auto].
  - exact Rpush_trans.
  - intros s s' (n & f & H); tauto.
  - intros s s' (n & f & H); tauto.
  - intros s s' (n & f & H); tauto.
Qed.
Lemma Rpush_build : steps_build Rpush.
Proof. constructor; intros; apply Rpush_same; auto. Qed.
Lemma Rpush_cond : steps_cond Rpush.
Proof. constructor; intros; apply Rpush_same; auto. Qed.

Lemma list_null_same s u s' : list_null s = Ok u s' ->
  s_input s' = s_input s /\ s_fstack s' = s_fstack s /\ s_file s' = s_file s /\ s_line s' = s_line s /\
  s_final s' = s_final s /\ s_opened s' = s_opened s /\ s_org_spec s' = s_org_spec s /\ s_cfg s' = s_cfg s /\
  s_msgs s' = s_msgs s /\ s_errs s' = s_errs s.
Proof.
  unfold list_null, add_list, bind, gets, when, modify, ret.
  repeat match goal with |- context [if ?b then _ else _] => destruct b end; intros H; inversion H; subst; cbn; auto 12.
Qed.
Lemma include_push file s : prs2 Rpush Rany (open_include_file file) s.
Proof.
  unfold prs2. destruct (open_include_file file s) as [u s'|c s'|x|] eqn:E; unfold Rany; auto.
  revert E. unfold open_include_file, bind, gets.
  assert (W : forall s1, match (if s_final s then list_null else ret tt) s1 with
                         | Ok _ s2 => s_input s2 = s_input s1 /\ s_fstack s2 = s_fstack s1 /\ s_final s2 = s_final s1 /\
                                      s_opened s2 = s_opened s1 /\ s_org_spec s2 = s_org_spec s1 /\ s_cfg s2 = s_cfg s1
                         | _ => True end).
  { intros s1. destruct (s_final s); [|unfold ret; auto 10].
    destruct (list_null s1) as [u2 s2|c2 s2|x2|] eqn:L; auto. apply list_null_same in L. tauto. }
  unfold when. pose proof (W s) as W1. destruct ((if s_final s then list_null else ret tt) s) as [u1 s1|c1 s1|x1|];
    try discriminate. destruct W1 as (A1 & A2 & A3 & A4 & A5 & A6).
  unfold modify. cbv beta iota.
  set (s2 := set_line 0 (set_file file (set_fstack ((s_file s1, s_line s1) :: s_fstack s1) s1))).
  pose proof (W s2) as W2. destruct ((if s_final s then list_null else ret tt) s2) as [u3 s3|c3 s3|x3|];
    try discriminate. destruct W2 as (B1 & B2 & B3 & B4 & B5 & B6). unfold s2 in *; clear s2. cbn in B1, B2, B3, B4, B5, B6.
  destruct (g_files (s_cfg s3) file) as [l|]; [|unfold err, exit_, modify; discriminate].
  intros H; inversion H; subst; clear H. exists [l], [(s_file s1, s_line s1)]. cbn.
  rewrite B1, A1, B2, A2, B3, A3, B4, A4, B5, A5. auto 10.
Qed.
Lemma Rpush_compound : compound Rpush Rany.
Proof.
  constructor.
  - exact include_push.
  - intros. apply macro_steps; auto using Rpush_steps, include_push; intros; apply Rpush_same; auto.
  - intros. apply for_reg_steps; auto using Rpush_steps, include_push; intros; apply Rpush_same; auto.
Qed.
Lemma read_line_push F l s r s' : read_line F l s = Ok r s' -> Rpush s s'.
Proof.
  intros E. pose proof (read_line_prs2 Rpush Rany Rpush_steps Rpush_compound Rpush_build Rpush_cond F l s) as H.
  unfold prs2 in H. rewrite E in H. exact H.
Qed.

(** the end of a file takes one frame off *)
Lemma end_of_file_pop s s' : end_of_file s = Ok tt s' ->
  s_input s' = tl (s_input s) /\
  match s_fstack s with
  | [] => s_fstack s' = []
  | (f, n) :: st => s_fstack s' = st /\ s_file s' = f /\ s_line s' = n
  end.
Proof.
  unfold end_of_file, bind, gets, modify, when.
  set (s0 := set_line (s_line s + 1) s).
  assert (W : forall s1, match (if s_final s then list_null else ret tt) s1 with
                         | Ok _ s2 => s_input s2 = s_input s1 /\ s_fstack s2 = s_fstack s1 /\ s_file s2 = s_file s1 /\ s_line s2 = s_line s1
                         | _ => True end).
  { intros s1. destruct (s_final s); [|unfold ret; auto 10].
    destruct (list_null s1) as [u2 s2|c2 s2|x2|] eqn:L; auto. apply list_null_same in L. tauto. }
  change (s_final s0) with (s_final s).
  pose proof (W s0) as W1. destruct ((if s_final s then list_null else ret tt) s0) as [u1 s1|c1 s1|x1|]; try discriminate.
  destruct W1 as (A1 & A2 & _). change (s_input s0) with (s_input s) in A1. change (s_fstack s0) with (s_fstack s) in A2.
  cbn [s_fstack set_input]. change (s_fstack (set_input (tl (s_input s1)) s1)) with (s_fstack s1). rewrite A2.
  destruct (s_fstack s) as [|[f n] st].
  - unfold ret. intros H; inversion H; subst. cbn. rewrite A1, A2. auto.
  - set (s2 := set_line n (set_file f (set_fstack st (set_input (tl (s_input s1)) s1)))).
    pose proof (W s2) as W2. intros H. destruct ((if s_final s then list_null else ret tt) s2) as [u3 s3|c3 s3|x3|]; try discriminate.
    inversion H; subst. destruct W2 as (B1 & B2 & B3 & B4). rewrite B1, B2, B3, B4. cbn. rewrite A1. auto.
Qed.

(** from a state with a pending include, either a syntax error ends the parse or the included text is read to its
    end and reading goes on in the including file at the position where it was left *)
Lemma returns_gen F fuel : forall s s' news rest frs f n st,
  s_input s = news ++ rest -> s_fstack s = frs ++ (f, n) :: st -> length news = S (length frs) ->
  parse_input F fuel s = Ok tt s' ->
  hd_error (s_msgs s') = Some (-1) \/
  exists k s2, (k < fuel)%nat /\ parse_input F k s2 = Ok tt s' /\ s_input s2 = rest /\ s_fstack s2 = st /\
               s_file s2 = f /\ s_line s2 = n.
Proof.
  induction fuel as [|fuel IH]; intros s s' news rest frs f n st HI HF HL HP; [discriminate|].
  destruct news as [|top news]; [discriminate|]. cbn [app] in HI. cbn [length] in HL.
  cbn [parse_input] in HP. unfold bind, gets in HP. rewrite HI in HP. destruct top as [|l ls].
  - destruct (end_of_file s) as [[] s1|c s1|x|] eqn:E; try discriminate.
    apply end_of_file_pop in E. rewrite HI, HF in E. cbn [tl] in E. destruct E as (E1 & E2).
    destruct frs as [|[f0 n0] frs]; cbn [app] in E2.
    + right. destruct news; [|discriminate]. exists fuel, s1. destruct E2 as (E2 & E3 & E4). repeat split; auto.
    + destruct E2 as (E2 & _). cbn [length] in HL. assert (HL' : length news = S (length frs)) by lia.
      destruct (IH s1 s' news rest frs f n st E1 E2 HL' HP) as [?|(k & s2 & ? & ?)]; [auto|].
      right. exists k, s2. split; [lia|auto].
  - unfold modify in HP. destruct (read_line F l (set_input (ls :: news ++ rest) s)) as [r s1|c s1|x|] eqn:E; try discriminate.
    apply read_line_push in E. destruct E as (n1 & f1 & A1 & A2 & A3 & _). cbn in A1, A2. rewrite HF in A2.
    destruct r as [u|].
    + assert (H1 : s_input s1 = (n1 ++ ls :: news) ++ rest) by (rewrite A1, <- app_assoc; reflexivity).
      assert (H2 : s_fstack s1 = (f1 ++ frs) ++ (f, n) :: st) by (rewrite A2, <- app_assoc; reflexivity).
      assert (H3 : length (n1 ++ ls :: news) = S (length (f1 ++ frs))) by (rewrite !app_length; cbn [length]; lia).
      destruct (IH s1 s' _ rest _ f n st H1 H2 H3 HP) as [?|(k & s2 & ? & ?)]; auto.
      right. exists k, s2. split; [lia|auto].
    + unfold err, modify in HP. inversion HP; subst. left. reflexivity.
Qed.

Lemma returns F fuel s s' top rest f n st :
  s_input s = top :: rest -> s_fstack s = (f, n) :: st -> parse_input F fuel s = Ok tt s' ->
  hd_error (s_msgs s') = Some (-1) \/
  exists k s2, (k < fuel)%nat /\ parse_input F k s2 = Ok tt s' /\ s_input s2 = rest /\ s_fstack s2 = st /\
               s_file s2 = f /\ s_line s2 = n.
Proof. intros HI HF HP. apply (returns_gen F fuel s s' [top] rest [] f n st); auto. Qed.

Lemma list_null_ok s : exists s', list_null s = Ok tt s'.
Proof.
  unfold list_null, add_list, bind, gets, when, modify, ret.
  repeat match goal with |- context [if ?b then _ else _] => destruct b end; eauto.
Qed.
Lemma when_null_ok b s : exists s', when b list_null s = Ok tt s' /\
  s_input s' = s_input s /\ s_fstack s' = s_fstack s /\ s_file s' = s_file s /\ s_line s' = s_line s /\ s_cfg s' = s_cfg s.
Proof.
  unfold when. destruct b; [|exists s; auto 10]. destruct (list_null_ok s) as (s' & H). exists s'. split; auto.
  apply list_null_same in H. tauto.
Qed.
Lemma open_include_ok file l s : g_files (s_cfg s) file = Some l -> exists s', open_include_file file s = Ok tt s' /\
  s_input s' = l :: s_input s /\ s_fstack s' = (s_file s, s_line s) :: s_fstack s /\ s_file s' = file /\ s_line s' = 0.
Proof.
  intros HG. unfold open_include_file, bind, gets.
  destruct (when_null_ok (s_final s) s) as (s1 & E1 & A1 & A2 & A3 & A4 & A5). rewrite E1. unfold modify at 1 2 3. cbv beta iota.
  set (s2 := set_line 0 (set_file file (set_fstack ((s_file s1, s_line s1) :: s_fstack s1) s1))).
  destruct (when_null_ok (s_final s) s2) as (s3 & E2 & B1 & B2 & B3 & B4 & B5). rewrite E2.
  unfold s2 in *. cbn in B1, B2, B3, B4, B5. rewrite B5, A5, HG. unfold modify. eexists. split; [reflexivity|].
  cbn. rewrite B1, B2, B3, B4, A1, A2, A3, A4. auto.
Qed.
Lemma inc_line F name l s ln : Forall (fun c => c <> 92 /\ c <> 0) name -> s_stop s = false -> s_skip s = false ->
  g_files (s_cfg s) name = Some l ->
  exists s', read_line (S F) (SrcLine (mkLine ln None (SInc (34 :: name ++ [34])) None)) s = Ok (Some tt) s' /\
  s_input s' = l :: s_input s /\ s_fstack s' = (s_file s, ln) :: s_fstack s /\ s_file s' = name /\ s_line s' = 0.
Proof.
  intros HN HS HK HG. unfold read_line, bind, gets. rewrite HK. unfold run_line, bind, modify.
  cbn [t_label t_line t_stmt]. unfold bindo, bind. cbn [build_stmt]. unfold some, bind, string_node.
  change ((34 =? 39) || (34 =? 34)) with true. cbv iota. rewrite removelast_last.
  rewrite sanitize_identity by (eapply Forall_impl; [|exact HN]; cbn; tauto).
  assert (HU : until_nul name = name).
  { clear -HN. induction HN as [|c r (_ & H) HF IH]; cbn; auto. rewrite IH. replace (c =? 0) with false by lia. reflexivity. }
  rewrite HU. unfold bind, ret, alloc, bind, gets, modify. cbn -[expand]. unfold bind.
  cbn [expand]. unfold bind, gets. cbn [s_stop set_line set_nodes]. 
  match goal with |- context [s_stop ?x] => change (s_stop x) with (s_stop s) end. rewrite HS.
  unfold node_get, bind, gets.
  match goal with |- context [nth_error (s_nodes ?x) ?k] =>
    replace (nth_error (s_nodes x) k) with (Some (mkNode (KOpr OInc) [length (s_nodes s)])) end.
  2:{ cbn. rewrite nth_error_app2 by lia. rewrite Nat.sub_diag. reflexivity. }
  unfold ret at 1. unfold x_node. cbn [n_kind]. unfold x_opr. unfold x_include, opn, bind. cbn [n_ops nth_error].
  unfold ret at 1. unfold str_of, node_get, bind, gets.
  match goal with |- context [nth_error (s_nodes ?x) ?k] =>
    replace (nth_error (s_nodes x) k) with (Some (mkNode (KStr name) [])) end.
  2:{ cbn. rewrite nth_error_app1 by (rewrite app_length; cbn; lia). rewrite nth_error_app2 by lia.
      rewrite Nat.sub_diag. reflexivity. }
  unfold ret at 1 2. cbn [n_kind]. unfold ret at 1.
  match goal with |- context [open_include_file name ?x] => destruct (open_include_ok name l x) as (s' & E & K) end;
    [exact HG|]. rewrite E. exists s'. split; [reflexivity|exact K].
Qed.

(** the text after an include is read with the file, line and stack of the including file *)
Lemma include_resumes F fuel s s' name l ln ls rest : Forall (fun c => c <> 92 /\ c <> 0) name ->
  s_stop s = false -> s_skip s = false -> g_files (s_cfg s) name = Some l ->
  s_input s = (SrcLine (mkLine ln None (SInc (34 :: name ++ [34])) None) :: ls) :: rest ->
  parse_input (S F) (S fuel) s = Ok tt s' ->
  hd_error (s_msgs s') = Some (-1) \/
  exists k s1 s2, parse_input (S F) fuel s1 = Ok tt s' /\
    s_input s1 = l :: ls :: rest /\ s_file s1 = name /\ s_line s1 = 0 /\
    (k < fuel)%nat /\ parse_input (S F) k s2 = Ok tt s' /\
    s_input s2 = ls :: rest /\ s_fstack s2 = s_fstack s /\ s_file s2 = s_file s /\ s_line s2 = ln.
Proof.
  intros HN HS HK HG HI HP. cbn [parse_input] in HP. unfold bind, gets in HP. rewrite HI in HP.
  unfold modify at 1 in HP.
  destruct (inc_line F name l (set_input (ls :: rest) s) ln HN HS HK HG) as (s1 & E & A1 & A2 & A3 & A4).
  cbn [s_input s_fstack set_input] in A1, A2. rewrite E in HP.
  destruct (returns (S F) fuel s1 s' l (ls :: rest) (s_file s) ln (s_fstack s) A1 A2 HP)
    as [H|(k & s2 & H1 & H2 & H3 & H4 & H5 & H6)]; [left; exact H|].
  right. exists k, s1, s2. auto 10.
Qed.
