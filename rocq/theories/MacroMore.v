(** Macro calls as they stand in the source; states for the examples of Prop_Macro.v. *)
From Coq Require Import String Lia.
From Verif Require Import Base BaseProofs Hash Dict DictProofs DictMore Str Opcodes OpcodesProofs Err State Sym Machine Build Pass Prog
  GenX Gen Inv SymProofs SymMore Sem ExprProofs ExprMore OpProofs DataProofs DefProofs MacroProofs SymEx PassProofs.
Open Scope string_scope.
Open Scope list_scope.
Open Scope Z_scope.
Open Scope m_scope.

(** ** Building the call *)
Lemma get_same a s y s' : sym_get a s = Ok y s' -> s' = s.
Proof. unfold sym_get, bind, gets. destruct (nth_error _ _); intros E; [injection E as _ <-; reflexivity|discriminate]. Qed.
Lemma look_up_dict sc n s r s' : look_up_in sc n s = Ok r s' -> s_dict s' = s_dict s.
Proof.
  assert (B : forall a s r s', (y <- sym_get a ;; sym_set a (y_times_inc y) ;;; ret (Some a)) s = Ok r s' -> s_dict s' = s_dict s).
  { intros a t x t' E. apply bind_ok in E. destruct E as (y & t1 & E1 & E2). apply get_same in E1. subst t1.
    unfold bind, sym_set, modify, ret in E2. injection E2 as _ <-. reflexivity. }
  assert (G : forall s r s', (r <- sym_search n ;; match r with Some a => y <- sym_get a ;; sym_set a (y_times_inc y) ;;; ret (Some a) | None => ret None end) s = Ok r s' ->
    s_dict s' = s_dict s).
  { intros t x t' E. apply bind_ok in E. destruct E as (y & t1 & E1 & E2). unfold sym_search, gets in E1. injection E1 as _ <-.
    destruct y; [exact (B _ _ _ _ E2)|injection E2 as _ <-; reflexivity]. }
  unfold look_up_in. destruct sc; [|apply G]. intros E. apply bind_ok in E. destruct E as (y & t1 & E1 & E2). unfold sym_search, gets in E1. injection E1 as _ <-.
  destruct y; [exact (B _ _ _ _ E2)|exact (G _ _ _ E2)].
Qed.
Lemma need_sym_dict n s t s' : need_sym n s = Ok t s' -> s_dict s' = s_dict s.
Proof.
  unfold need_sym, tok_sym. intros E. apply bind_ok in E. destruct E as (x & s1 & E1 & E2). injection E2 as _ <-.
  destruct (is_pm_name n); [injection E1 as _ <-; reflexivity|]. destruct (hd0 n =? 92).
  { unfold bind, gets, ret in E1. injection E1 as _ <-. reflexivity. }
  apply bind_ok in E1. destruct E1 as (r & s2 & E1 & E2). unfold look_up_symbol, bind, gets in E1. apply look_up_dict in E1. rewrite <- E1.
  destruct r; [|injection E2 as _ <-; reflexivity]. apply bind_ok in E2. destruct E2 as (y & s3 & E2 & E3). apply get_same in E2. subst s3.
  injection E3 as _ <-. reflexivity.
Qed.
Lemma build_dict e : forall s r s', build_expr e s = Ok r s' -> s_dict s' = s_dict s.
Proof.
  assert (A : forall k l s r s', some (alloc k l) s = Ok r s' -> s_dict s' = s_dict s).
  { intros k l s r s' E. unfold some, bind in E. rewrite alloc_eq in E. injection E as _ <-. reflexivity. }
  induction e as [v|n| |o e IH|o e1 IH1 e2 IH2]; intros s r s' E; cbn [build_expr] in E.
  - exact (A _ _ _ _ _ E).
  - unfold bindo in E. apply bind_ok in E. destruct E as (x & s1 & E1 & E2). apply need_sym_dict in E1. rewrite <- E1.
    destruct x; [exact (A _ _ _ _ _ E2)|injection E2 as _ <-; reflexivity].
  - exact (A _ _ _ _ _ E).
  - unfold bindo in E. apply bind_ok in E. destruct E as (x & s1 & E1 & E2). apply IH in E1. rewrite <- E1.
    destruct x; [exact (A _ _ _ _ _ E2)|injection E2 as _ <-; reflexivity].
  - unfold bindo at 1 in E. apply bind_ok in E. destruct E as (x & s1 & E1 & E2). apply IH1 in E1. rewrite <- E1.
    destruct x; [|injection E2 as _ <-; reflexivity].
    unfold bindo at 1 in E2. apply bind_ok in E2. destruct E2 as (x2 & s2 & E2 & E3). apply IH2 in E2. rewrite <- E2.
    destruct x2; [exact (A _ _ _ _ _ E3)|injection E3 as _ <-; reflexivity].
Qed.

(** nothing but nodes and the use counts of records *)
Definition bev (s s' : state) : Prop := evo s s' /\ s_errs s' = s_errs s /\ s_dict s' = s_dict s.
Lemma bev_trans a b c : bev a b -> bev b c -> bev a c.
Proof. intros (A1 & A2 & A3) (B1 & B2 & B3). split; [exact (evo_trans _ _ _ A1 B1)|split; congruence]. Qed.
Lemma bev_alloc k l s : cold k = true -> tab s -> bev s (set_nodes (s_nodes s ++ [mkNode k l]) s).
Proof. intros K T. split; [apply evo_alloc; auto|split; reflexivity]. Qed.
Lemma build_arg e s : tab s -> wfe e = true -> plain_expr s e ->
  exists q s', build_expr e s = Ok (Some q) s' /\ bev s s' /\ rep (meaning s) true s' q e.
Proof.
  intros T W P. destruct (build_expr_rep e s T W P) as (q & s' & E & H & Er & R & _). exists q, s'. split; [exact E|].
  split; [split; [exact H|split; [exact Er|exact (build_dict _ _ _ _ E)]]|exact R].
Qed.
Lemma rep_means C C' u s p e : (forall n, In n (names e) -> C n = C' n) -> rep C u s p e -> rep C' u s p e.
Proof.
  intros E R. induction R.
  - constructor; auto.
  - econstructor; eauto.
  - eapply RepCached; eauto. rewrite <- E; [auto|cbn; auto].
  - apply RepName; auto. rewrite <- E; [auto|cbn; auto].
  - eapply RepUn; eauto.
  - eapply RepBin; eauto; [apply IHR1|apply IHR2]; intros; apply E, in_or_app; auto.
Qed.
Lemma more_args l : forall s0 s acc done, bev s0 s -> (forall e, In e l -> wfe e = true /\ plain_expr s0 e) -> lrep (meaning s0) s acc done ->
  exists p s', more_items acc (map IExpr l) s = Ok (Some p) s' /\ bev s s' /\ lrep (meaning s0) s' p (done ++ map IExpr l).
Proof.
  induction l as [|e l IH]; intros s0 s acc done H P R; cbn [more_items map].
  - exists acc, s. rewrite app_nil_r. split; [reflexivity|]. split; [split; [apply evo_refl, (e_tab _ _ (proj1 H))|split; reflexivity]|exact R].
  - destruct (P e (or_introl eq_refl)) as [W Pe].
    destruct (build_arg e s (e_tab _ _ (proj1 H)) W (plain_expr_evo _ _ _ (proj1 H) Pe)) as (q & s1 & E1 & H1 & R1).
    apply (rep_means _ (meaning s0)) in R1; [|intros n Hn; apply (e_res _ _ (proj1 H)), Pe, Hn].
    unfold bindo, bind. cbn [build_item]. rewrite E1. rewrite alloc_eq.
    pose proof (bev_alloc (KOpr OExprList) [acc; q] s1 eq_refl (e_tab _ _ (proj1 H1))) as H2.
    pose proof (bev_trans _ _ _ H1 H2) as H12.
    destruct (IH s0 _ (length (s_nodes s1)) (done ++ [IExpr e]) (bev_trans _ _ _ H H12) ltac:(intros j Hj; apply P; right; exact Hj)
      ltac:(eapply LrepMore; [apply alloc_nth|exact (lrep_hv _ _ _ _ _ (hv0_evo _ _ (proj1 H12)) R)|exact (irep_hv _ _ _ _ _ (IExpr e) (hv0_evo _ _ (proj1 H2)) R1)])) as (p & s3 & E3 & H3 & R3).
    exists p, s3. split; [exact E3|]. split; [exact (bev_trans _ _ _ H12 H3)|].
    rewrite <- app_assoc in R3. exact R3.
Qed.
Lemma build_args l s : tab s -> l <> [] -> (forall e, In e l -> wfe e = true /\ plain_expr s e) ->
  exists p s', build_items (map IExpr l) s = Ok (Some p) s' /\ bev s s' /\ lrep (meaning s) s' p (map IExpr l).
Proof.
  intros T L P. destruct l as [|e l]; [contradiction|]. cbn [build_items map].
  destruct (P e (or_introl eq_refl)) as [W Pe]. destruct (build_arg e s T W Pe) as (q & s1 & E1 & H1 & R1).
  unfold bindo, bind. cbn [build_item]. rewrite E1. rewrite alloc_eq.
  pose proof (bev_alloc (KOpr OExprList) [q] s1 eq_refl (e_tab _ _ (proj1 H1))) as H2.
  destruct (more_args l s _ (length (s_nodes s1)) [IExpr e] (bev_trans _ _ _ H1 H2) ltac:(intros j Hj; apply P; right; exact Hj)
    ltac:(eapply LrepOne; [apply alloc_nth|exact (irep_hv _ _ _ _ _ (IExpr e) (hv0_evo _ _ (proj1 H2)) R1)])) as (p & s3 & E3 & H3 & R3).
  exists p, s3. split; [exact E3|]. split; [exact (bev_trans _ _ _ (bev_trans _ _ _ H1 H2) H3)|exact R3].
Qed.

(** an argument with value [v]: its names are in the table, the operators && and || are not used *)
Definition argument (s : state) (a : expr) (v : Z) : Prop :=
  wfe a = true /\ eager a = true /\ (forall n, In n (names a) -> plain n /\ exists y, dl s n = Some y /\ y_mname y = false) /\
  sem (value_of s) (s_pc s) a = Some (v, 0) /\ 0 <= v <= 65535.
Lemma argument_plain s a v : s_scope s = None -> argument s a v -> wfe a = true /\ plain_expr s a.
Proof.
  intros Sc (W & _ & N & _). split; [exact W|]. intros n Hn. destruct (N n Hn) as (P & y & D & M). split; [exact P|].
  rewrite meaning_none, D by exact Sc. exact M.
Qed.
Lemma argument_arg s s1 a v : s_scope s = None -> bev s s1 -> argument s a v -> arg (meaning s) s1 (IExpr a) v.
Proof.
  intros Sc (E & _ & _) (W & Eg & N & S & V). cbn [arg]. split; [|split; [|exact V]].
  - intros n Hn. destruct (N n Hn) as (P & y & D & M). split; [exact P|].
    apply (same_some yfix _ (dl s n)); [apply (e_dl _ _ E); [apply P|congruence]|congruence].
  - rewrite (evo_pc _ _ E). split; [|exact Eg]. rewrite <- S. apply sem_ext. intros n _. symmetry. apply value_of_env.
Qed.
Lemma pval_bev s s1 n : tab s -> bev s s1 -> 0 <= n -> pval s1 n = pval s n.
Proof.
  intros T (E & _ & Ed) Hn. unfold pval. pose proof (param_name_valid n Hn) as V. destruct (dl s (param_name n)) as [y|] eqn:D.
  - assert (X := e_dl _ _ E (param_name n) V ltac:(congruence)). rewrite D in X. symmetry in X.
    destruct (fix_param _ _ _ X eq_refl) as (y' & Z1 & Z2 & _). rewrite Z1. cbn. congruence.
  - apply dl_none in D; auto. unfold dl, dlookup. cbn [fst snd]. rewrite Ed, D. reflexivity.
Qed.
Lemma params_bev s s1 : tab s -> bev s s1 -> params_ok s -> params_ok s1.
Proof.
  intros T B (P1 & P2 & P3). pose proof B as (E & _ & Ed).
  assert (Mx : s_maxmp s1 = s_maxmp s) by exact (f_equal s_maxmp (e_same _ _ E)).
  split; [lia|]. split.
  - intros n Hn y Dy. pose proof (param_name_valid n Hn) as V. destruct (dl s (param_name n)) as [y0|] eqn:D.
    + assert (X := e_dl _ _ E (param_name n) V ltac:(congruence)). destruct (fix_param _ _ _ X Dy) as (y1 & Z1 & _ & _ & Z2).
      rewrite <- Z2. apply (P2 n Hn). exact Z1.
    + apply dl_none in D; auto. unfold dl, dlookup in Dy. cbn [fst snd] in Dy. rewrite Ed, D in Dy. discriminate.
  - intros n Hn. rewrite (pval_bev s s1 n T B) by lia. apply P3. lia.
Qed.

Theorem macro_call_runs name args vs ym body e n F s :
  tab s -> owned s -> s_stop s = false -> s_scope s = None -> params_ok s ->
  plain name -> dl s name = Some ym -> y_macro ym = Some (s_gen s, body) ->
  dict_search (s_mdict s) name = Some e -> nth_error (s_mvals s) e = Some n ->
  Forall2 (argument s) args vs -> (list_fuel (map IExpr args) <= S F)%nat ->
  exists q s1 s2, build_call name (map IExpr args) s = Ok (Some q) s1 /\ entered_with s s2 name n vs /\
    match expand F body s2 with
    | Ok w s3 => forall n', body_ok s s2 s3 e n' -> exists s4, expand (S (S F)) q s1 = Ok 0 s4 /\ left_with s s3 s4 e n'
    | Exit c s3 => expand (S (S F)) q s1 = Exit c s3
    | Ub u => expand (S (S F)) q s1 = Ub u
    | OutOfFuel => expand (S (S F)) q s1 = OutOfFuel
    end.
Proof.
  intros T Ow St Sc Pp Pn Dn Mn De Ne A Hf.
  assert (B : exists params s0, build_call name (map IExpr args) s = some (macro_call name params) s0 /\ bev s s0 /\
     match params with None => map IExpr args = [] | Some a => lrep (meaning s) s0 a (map IExpr args) end).
  { destruct args as [|a args].
    - exists None, s. split; [reflexivity|]. split; [split; [apply evo_refl, T|split; reflexivity]|reflexivity].
    - destruct (build_args (a :: args) s T ltac:(discriminate)) as (p & s0 & E & Bv & L).
      { intros x Hx. clear - A Hx Sc. induction A; [contradiction|]. destruct Hx as [<-|Hx]; [eapply argument_plain; eauto|auto]. }
      exists (Some p), s0. split; [|split; [exact Bv|exact L]]. unfold build_call. cbn [map]. cbn [map] in E. unfold bindo, bind. rewrite E. reflexivity. }
  destruct B as (params & s0 & E0 & B0 & L0).
  set (m := length (s_nodes s0)). set (sa := set_nodes (s_nodes s0 ++ [mkNode (KMacId name None) []]) s0).
  set (q := length (s_nodes sa)). set (s1 := set_nodes (s_nodes sa ++ [mkNode (KMacEx name m params) []]) sa).
  pose proof (bev_alloc (KMacId name None) [] s0 eq_refl (e_tab _ _ (proj1 B0))) as Ba. fold sa in Ba.
  pose proof (bev_alloc (KMacEx name m params) [] sa eq_refl (e_tab _ _ (proj1 Ba))) as Bb. fold s1 in Bb.
  pose proof (bev_trans _ _ _ Ba Bb) as Bab. pose proof (bev_trans _ _ _ B0 Bab) as B1.
  assert (E1 : build_call name (map IExpr args) s = Ok (Some q) s1).
  { rewrite E0. unfold some, macro_call, bind. rewrite alloc_eq. fold m. fold sa. rewrite alloc_eq. reflexivity. }
  pose proof (proj1 B1) as Ev.
  assert (Dn1 : option_map yfix (dl s1 name) = Some (yfix ym)).
  { assert (X := e_dl _ _ Ev name (proj1 Pn) ltac:(congruence)). rewrite Dn in X. exact X. }
  destruct (dl s1 name) as [y1|] eqn:D1; [|discriminate].
  assert (M1 : y_macro y1 = Some (s_gen s1, body)).
  { rewrite (f_equal s_gen (e_same _ _ Ev) : s_gen s1 = s_gen s). cbn in Dn1. unfold yfix in Dn1. congruence. }
  assert (Nq : nth_error (s_nodes s1) q = Some (mkNode (KMacEx name m params) [])) by apply alloc_nth.
  assert (Nm : nth_error (s_nodes s1) m = Some (mkNode (KMacId name None) [])).
  { cbn [s1 set_nodes s_nodes sa]. rewrite <- app_assoc. unfold m. rewrite nth_error_app2, Nat.sub_diag by lia. reflexivity. }
  destruct (call_runs (meaning s) name e n y1 body q m params (map IExpr args) vs F s1) as (s2 & W & R); auto.
  - apply (e_tab _ _ Ev).
  - apply (k_own _ _ (e_keep _ _ Ev)), Ow.
  - rewrite (evo_stop _ _ Ev). exact St.
  - rewrite (evo_scope _ _ Ev). exact Sc.
  - exact (params_bev s s1 T B1 Pp).
  - rewrite (f_equal s_mdict (e_same _ _ Ev) : s_mdict s1 = s_mdict s). exact De.
  - rewrite (f_equal s_mvals (e_same _ _ Ev) : s_mvals s1 = s_mvals s). exact Ne.
  - destruct params as [a|]; [|exact L0]. split; [exact (lrep_hv _ _ _ _ _ (hv0_evo _ _ (proj1 Bab)) L0)|exact Hf].
  - clear - A Sc B1. induction A; cbn [map]; constructor; auto. eapply argument_arg; eauto.
  - assert (Mx : s_maxmp s1 = s_maxmp s) by exact (f_equal s_maxmp (e_same _ _ Ev)).
    exists q, s1, s2. split; [exact E1|]. split.
    + destruct W as [W1 W2 W3 W4 W5 W6 W7 W8]. constructor; auto.
      * intros k Hk Dk Nk. assert (X := e_dl _ _ Ev k Hk Dk). rewrite <- X. apply W4; auto. exact (same_some _ _ _ X Dk).
      * rewrite <- Mx. exact W5.
      * destruct W7 as (l & Hl & H1 & H2). exists l. rewrite (f_equal s_mstack (e_same _ _ Ev) : s_mstack s1 = s_mstack s) in Hl.
        split; [exact Hl|]. split; [congruence|]. intros i Hi. rewrite <- (H2 i Hi). symmetry. apply pval_bev; auto. lia.
      * rewrite W8 at 1. rewrite (e_same _ _ Ev) at 1. destruct B1 as (_ & Er & _). rewrite Er. reflexivity.
    + destruct (expand F body s2) as [w s3|c s3|u|]; auto.
      intros n' Hb. destruct (R n') as (s4 & E4 & [L1 L2 L3 L4]).
      { unfold body_ok in *. rewrite Mx. exact Hb. }
      exists s4. split; [exact E4|]. constructor; auto.
      * intros k Hk. rewrite L1 by lia. apply pval_bev; auto. lia.
      * intros k Hk Nk. apply L2; auto. intros j Hj. apply Nk. lia.
      * rewrite L3 at 1. rewrite (f_equal s_mstack (e_same _ _ Ev) : s_mstack s1 = s_mstack s), (f_equal s_label (e_same _ _ Ev) : s_label s1 = s_label s). reflexivity.
Qed.

(** ** Deciding the hypotheses, for examples *)
Lemma lzeqb_true a b : lzeqb a b = true -> a = b.
Proof. rewrite lzeqb_dec. destruct (list_eq_dec Z.eq_dec a b); [auto|discriminate]. Qed.
Lemma search_elem s k a : table_ok s -> valids k -> dict_search (s_dict s) k = Some a ->
  exists k', In (k', a) (concat (dtable (s_dict s))) /\ fk k' = fk k.
Proof.
  intros [[T0 T1] T2] Hk S. rewrite (dict_search_stack _ _ _ T0 Hk) in S.
  destruct (stackof (s_dict s) k) as [|[k' b] t] eqn:E; [discriminate|]. injection S as ->. exists k'.
  assert (I : In (k', a) (stackof (s_dict s) k)) by (rewrite E; left; reflexivity).
  unfold stackof in I. apply filter_In in I. destruct I as [I M]. split; [exact I|]. apply lzeqb_true. exact M.
Qed.
Definition ownedb (s : state) : bool :=
  forallb (fun x : node => match n_kind x with
    | KId n (Some a) => validsb n && Nat.ltb a (length (s_syms s)) && (match dl s n with Some _ => true | None => false end) &&
        forallb (fun e : cstr * nat => negb (Nat.eqb (snd e) a) || lzeqb (fk (fst e)) (fk n)) (concat (dtable (s_dict s)))
    | _ => true end) (s_nodes s).
Lemma ownedb_ok s : table_ok s -> ownedb s = true -> owned s.
Proof.
  intros T H _ p n a l N _. unfold ownedb in H. rewrite forallb_forall in H. specialize (H _ (nth_error_In _ _ N)). cbn [n_kind] in H.
  rewrite !andb_true_iff in H. destruct H as [[[H1 H2] H3] H4]. apply Nat.ltb_lt in H2. split; [exact H2|].
  split; [destruct (dl s n); [discriminate|discriminate H3]|]. intros k Hk S. destruct (search_elem s k a T Hk S) as (k' & I & <-).
  rewrite forallb_forall in H4. specialize (H4 _ I). cbn [fst snd] in H4. rewrite Nat.eqb_refl in H4. cbn [negb orb] in H4. apply lzeqb_true. exact H4.
Qed.
Definition paramsb (s : state) : bool :=
  forallb (fun e : cstr * nat => negb (hd0 (fst e) =? 92) || match nth_error (s_syms s) (snd e) with Some y => y_mparam y | None => false end)
    (concat (dtable (s_dict s))).
Lemma paramsb_ok s : table_ok s -> paramsb s = true -> forall n, 0 <= n -> is_param s n.
Proof.
  intros T H n Hn y D. unfold dl, dlookup in D. cbn [fst snd] in D. destruct (dict_search (s_dict s) (param_name n)) as [a|] eqn:S; [|discriminate].
  destruct (search_elem s _ a T (param_name_valid n Hn) S) as (k' & I & F). unfold paramsb in H. rewrite forallb_forall in H. specialize (H _ I). cbn [fst snd] in H.
  rewrite D in H. rewrite (param_name_fk n Hn) in F. destruct k' as [|c k']; [discriminate|]. cbn [fk map] in F. injection F as F _.
  assert (c = 92) as -> by (unfold tolower in F; if_lia). exact H.
Qed.

(** in the middle of a pass: all lines of [l] have been read *)
Definition middle (l : list string) : state :=
  match (modify reset_lex ;;; c <- gets s_cfg ;; parse_files 1000 (g_inputs c)) (boot l) with Ok _ s => s | _ => boot l end.
(** a macro with a local label, called once *)
Definition mac_st : state := middle
  ["  .org $1000"; "x0=5"; "  .macro two"; "@l"; "  .byte \1,\2"; "  .word @l"; "  .endm"; "  two 3,4"; "done rts"].
Definition mac_args : list expr := [EBin OPlus (ESym (cs "x0")) (EInt 1); EUn OLo (ESym (cs "done"))].

Lemma mac_st_tab : tab mac_st.
Proof.
  split; [apply table_okb_ok; vm_compute; reflexivity|]. split; [intros k _; apply singleb_ok; vm_compute; reflexivity|].
  intros c H. vm_compute in H. discriminate.
Qed.
Lemma mac_st_owned : owned mac_st.
Proof. apply ownedb_ok; [apply mac_st_tab|vm_compute; reflexivity]. Qed.
Lemma mac_st_params : params_ok mac_st.
Proof.
  split; [vm_compute; discriminate|]. split; [apply paramsb_ok; [apply mac_st_tab|vm_compute; reflexivity]|].
  replace (s_maxmp mac_st) with 2 by (vm_compute; reflexivity). intros n Hn.
  assert (n = 1 \/ n = 2) as [->| ->] by lia; eexists; (split; [vm_compute; reflexivity|lia]).
Qed.
Lemma mac_st_args : Forall2 (argument mac_st) mac_args [6; 4].
Proof.
  assert (Nx : forall n, n = cs "x0" \/ n = cs "done" -> plain n /\ exists y, dl mac_st n = Some y /\ y_mname y = false).
  { intros n [->| ->]; (split; [plain_tac|eexists; split; [vm_compute; reflexivity|reflexivity]]). }
  assert (A : forall e v, wfe e = true -> eager e = true -> (forall n, In n (names e) -> n = cs "x0" \/ n = cs "done") ->
     sem (value_of mac_st) (s_pc mac_st) e = Some (v, 0) -> 0 <= v <= 65535 -> argument mac_st e v).
  { intros e v W Eg N S V. split; [exact W|]. split; [exact Eg|]. split; [|split; [exact S|exact V]]. intros n Hn. apply Nx, N, Hn. }
  constructor; [|constructor; [|constructor]].
  - apply A; [reflexivity|reflexivity|intros n [<-|[]]; auto|vm_compute; reflexivity|lia].
  - apply A; [reflexivity|reflexivity|intros n [<-|[]]; auto|vm_compute; reflexivity|lia].
Qed.
