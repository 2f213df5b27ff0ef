(** .VAR name = expression (pasm.y:141-150, expand.cc:1104-1166). *)
From Coq Require Import String Lia.
From Verif Require Import Base BaseProofs Hash Dict DictProofs DictMore Str Opcodes OpcodesProofs Err State Sym Machine Build Pass Prog
  GenX Gen Inv SymProofs SymEx Sem ExprProofs ExprMore OpProofs OpMore InstrProofs InstrMore DataProofs DefProofs LineProofs LineFour MacroProofs.
Open Scope string_scope.
Open Scope list_scope.
Open Scope Z_scope.
Open Scope m_scope.

Lemma need_ok n s : tab s -> plain n -> cmacro (meaning s n) = false ->
  exists s', need_sym n s = Ok (Some tt) s' /\ evo s s' /\ obs s' = obs s /\ s_dict s' = s_dict s.
Proof.
  intros T P M. unfold need_sym, tok_sym. destruct (direct_head _ (plain_direct _ P)) as [D1 D2]. rewrite D1.
  assert (D3 : (hd0 n =? 92) = false).
  { apply Z.eqb_neq. intros E. destruct P as (_ & _ & _ & _ & H & _). apply H. cbn. auto. }
  rewrite D3. unfold look_up_symbol.
  destruct (look_up_in_spec (s_scope s) n s (proj1 (proj1 T)) (proj1 P) (proj2 (proj2 T))) as (r & s1 & E & Hr).
  unfold bind, gets. cbv beta iota. rewrite E. destruct r as [a|].
  - destruct Hr as (y & Hy & Hres & ->). unfold sym_get, gets, bind. cbn [s_syms set_syms].
    rewrite nth_upd_same by (apply nth_error_Some; congruence). unfold ret.
    unfold meaning in M. rewrite Hres in M. cbn in M. change (y_mname (y_times_inc y)) with (y_mname y). rewrite M.
    eexists. split; [reflexivity|]. split; [apply evo_bump; auto|]. split; [apply obs_set_syms|reflexivity].
  - destruct Hr as [_ ->]. unfold ret. exists s. split; [reflexivity|]. split; [apply evo_refl; auto|split; reflexivity].
Qed.
(** what a declaration leaves *)
Definition vcore (c : core_t) (v : Z) : core_t := let '(_, _, p, m, _) := c in (v, true, p, m, true).
Lemma cval_vcore c v : cval (vcore c v) = v. Proof. destruct c as [[[[? ?] ?] ?] ?]. reflexivity. Qed.
Lemma declare_ok F n p sp s : tab s -> s_scope s = None -> plain n -> nth_error (s_nodes s) p = Some (mkNode (KId n None) []) ->
  exists a y s1 s2, elem_symbol (expand F) p (mkNode (KId n None) []) sp s = Ok (true, Some a) s2 /\ hv s s1 /\ obs s1 = obs s /\
    dfn n (vcore (meaning s n) 0) s1 s2 /\ obs s2 = obs s /\ hand s2 n = Some a /\ nth_error (s_syms s2) a = Some y /\ ycore y = vcore (meaning s n) 0 /\
    (forall q, q <> p -> nth_error (s_nodes s2) q = nth_error (s_nodes s) q).
Proof.
  intros T Sc P N. destruct (cache_def false n p s T P N) as (a & y & s1 & E & V & O & Hy & Ey & Hh & Np & _ & _). cbn [def_node] in *.
  set (Y := y_set_init true (y_set_value 0 (y_set_var true y))).
  set (s2 := set_syms (upd a Y (s_syms s1)) s1).
  assert (Ec : ycore Y = vcore (meaning s n) 0) by (rewrite <- Ey; destruct y; reflexivity).
  assert (La : (a < length (s_syms s1))%nat) by (apply nth_error_Some; congruence).
  exists a, Y, s1, s2. split; [|split; [exact V|split; [exact O|split; [|split; [|split; [|split; [|split; [exact Ec|]]]]]]]].
  - unfold elem_symbol. cbn [n_kind n_ops]. unfold bind in E. unfold bind at 1. unfold bind at 1.
    destruct (add_symbol n s) as [o s0| | |]; try discriminate. unfold node_set, modify, ret in E. injection E as -> <-.
    unfold bind, node_set, modify, sym_get, gets, ret, bind. cbn [s_syms set_nodes] in *. rewrite Hy. unfold sym_set, modify. cbn [s_syms set_nodes set_syms].
    rewrite nth_upd_same by exact La. cbn [s_syms set_syms set_nodes]. rewrite upd_upd. unfold s2, Y. reflexivity.
  - rewrite <- Ec. apply (dfn_upd n a y Y s1 s2); try reflexivity; auto.
    + apply V.
    + rewrite (h_scope _ _ V). exact Sc.
    + cbn. rewrite (h_scope _ _ V). exact Sc.
  - unfold s2. rewrite obs_set_syms. exact O.
  - exact Hh.
  - cbn [s2 s_syms set_syms]. apply nth_upd_same, La.
  - intros q Hq. destruct (add_plain_evo n s T P) as (b & z & t & A1 & _ & A3 & _). unfold bind, node_set, modify, ret in E. rewrite A1 in E. injection E as -> <-.
    cbn [s2 s_nodes set_syms set_nodes]. rewrite nth_upd_other by auto. rewrite A3. reflexivity.
Qed.
Definition nonname (e : expr) : Prop := match e with ESym _ => False | _ => True end.
Lemma rep_nonname C u s p e : rep C u s p e -> nonname e -> exists x, nth_error (s_nodes s) p = Some x /\ n_kind x <> KOpr OExprList /\
  (forall A (f : cstr -> option nat -> A) (g : cstr -> option nat -> A) (d : A), match n_kind x with KId a b => f a b | KLabel a b => g a b | _ => d end = d).
Proof.
  intros R H. inversion R; subst; cbn in H; try contradiction; eexists; (split; [eassumption|]); (split; [|reflexivity]); cbn [n_kind];
    try congruence; intros [= ->]; discriminate.
Qed.
(** the second element of the list, an expression *)
Lemma init_ok C u F n a e v y q s : tab s -> s_scope s = None -> s_stop s = false -> s_ety s = EtSymbol -> plain n -> nonname e -> known_names s e ->
  (height e <= F)%nat -> rep C u s q e -> known C (s_pc s) e v -> hand s n = Some a -> nth_error (s_syms s) a = Some y -> y_var y = true ->
  exists s1 s2, expr_list (expand F) [q] (Some a) s = Ok 0 s2 /\ evo s s1 /\ obs s1 = obs s /\ obs s2 = obs s /\
    (s2 = s1 /\ y_value y = v \/ exists y', ycore y' = ycore y /\ dfn n (ycore (y_set_value v y')) s1 s2).
Proof.
  intros T Sc St Et P Nn Kn HF R K Hh Hy Hv. destruct (rep_nonname _ _ _ _ _ R Nn) as (x & N & Kx & _).
  rewrite (step_one _ _ _ _ _ _ N Kx). destruct (ops_arg C u e v F s q x HF T St Sc Kn R K N) as (w & s1 & E1 & H1 & O1 & Q1).
  unfold bind at 1. rewrite E1. unfold bind at 1, gets at 1. rewrite (f_equal s_ety (e_same _ _ H1) : s_ety s1 = s_ety s), Et.
  pose proof (rep_evo _ _ _ _ _ _ H1 R) as R1. destruct (rep_nonname _ _ _ _ _ R1 Nn) as (x1 & N1 & _ & Mx).
  unfold bind at 1, node_get, bind at 1, gets at 1. rewrite N1. unfold ret at 1. unfold elem_symbol. cbv zeta. rewrite Mx.
  destruct (eval_arg C u e v F s1 q HF (e_tab _ _ H1) ltac:(rewrite (evo_stop _ _ H1); exact St) ltac:(rewrite (evo_scope _ _ H1); exact Sc)
    (known_names_evo _ _ _ H1 Kn) R1 ltac:(rewrite (evo_pc _ _ H1); exact K)) as (s2 & E2 & H2 & O2 & Q2).
  pose proof (evo_trans _ _ _ H1 H2) as H. destruct (e_rec _ _ H _ _ Hy) as (y' & Hy' & Ey').
  assert (Vr : y_var y' = true) by (revert Ey'; unfold ycore; congruence). assert (Vv : y_value y' = y_value y) by (revert Ey'; unfold ycore; congruence).
  assert (O : obs s2 = obs s) by (rewrite (obs_evo _ _ H), O2, O1, <- (obs_get_errs s); apply errs_id).
  destruct (set_symbol_value_spec a v s2 y' Hy') as (s3 & E3 & X). exists s2, s3.
  split; [unfold bind; rewrite E2, E3; reflexivity|]. split; [exact H|]. split; [exact O|].
  destruct X as [(-> & Xv)|[(_ & X & _)|(X1 & X2 & ->)]]; [split; [exact O|left; split; congruence]|congruence|]. cbv zeta. rewrite Vr, orb_true_r.
  split; [rewrite obs_set_syms; exact O|]. right. exists y'. split; [exact Ey'|].
  apply (dfn_upd n a y' (y_set_value v y') s2); try reflexivity; auto.
  - apply H.
  - rewrite (evo_scope _ _ H). exact Sc.
  - unfold hand in *. rewrite (evo_scope _ _ H), Sc in *. rewrite Q2, Q1. exact Hh.
  - cbn. rewrite (evo_scope _ _ H). exact Sc.
Qed.
Lemma expand_var F s p l q : s_stop s = false -> nth_error (s_nodes s) p = Some (mkNode (KOpr OVar) [q]) -> nth_error (s_nodes s) q = Some (mkNode (KOpr OExprList) l) ->
  expand (S (S F)) p s = expr_list (expand F) l None (set_ety EtSymbol s).
Proof. intros St N Nq. rewrite (expand_eq _ _ _ _ St N). unfold x_node. cbn [n_kind x_opr]. unfold x_variable, opn. cbn [nth_error n_ops]. unfold bind at 1, ret at 1. unfold bind at 1, modify at 1. apply expand_list; assumption. Qed.

(** nothing but the value of the names equal to [n] but for case is changed *)
Definition only_sets (n : cstr) (v : Z) (s s' : state) : Prop :=
  (forall m, plain m -> fk m = fk n -> value_of s' m = v) /\ (forall m, plain m -> fk m <> fk n -> value_of s' m = value_of s m) /\
  s_pc s' = s_pc s /\ s_out s' = s_out s /\ s_total s' = s_total s /\ s_errs s' = s_errs s /\ s_changed s' = s_changed s.
Lemma set_obs e s s' : obs s' = set_ety e (obs s) ->
  s_pc s' = s_pc s /\ s_out s' = s_out s /\ s_total s' = s_total s /\ s_errs s' = s_errs s /\ s_changed s' = s_changed s.
Proof.
  rewrite <- (obs_get_pc s'), <- (obs_get_out s'), <- (obs_get_total s'), <- (obs_get_errs s'), <- (obs_get_changed s').
  rewrite <- (obs_get_pc s), <- (obs_get_out s), <- (obs_get_total s), <- (obs_get_errs s), <- (obs_get_changed s).
  generalize (obs s) (obs s'). intros z z' ->. repeat split.
Qed.
Theorem var_ok F first n e v s : ready s -> owned s -> s_scope s = None -> plain n -> cmacro (meaning s n) = false ->
  nonname e -> (forall m, In m (names e) -> fk m <> fk n) -> operand_value s e v -> (height e <= F)%nat ->
  exists p s1 s2, build_stmt (expand (S (S F))) first (SVar [(n, Some e)]) s = Ok (Some p) s1 /\ expand (S (S F)) p s1 = Ok 0 s2 /\ only_sets n v s s2.
Proof.
  intros Rd Ow Sc P Mn Nn Ne V HF. destruct (ready_tab _ Rd) as [T St]. destruct (operand_known _ _ _ V) as (W & Pe & _ & K & _).
  assert (Kn : known_names s e). { intros m Hm. split; [apply Pe, Hm|]. destruct V as (_ & _ & _ & _ & X & _). destruct (X m Hm) as (y & Y & _). unfold resolve in Y. rewrite Sc in Y. congruence. }
  destruct (need_ok n s T P Mn) as (s1 & E1 & V1 & O1 & _).
  assert (Pe1 : plain_expr s1 e). { intros m Hm. destruct (Pe m Hm) as [A B]. split; [exact A|]. rewrite (e_res _ _ V1) by exact A. exact B. }
  destruct (build_expr_rep e s1 (e_tab _ _ V1) W Pe1) as (q & s2 & E2 & Ev2 & Er2 & Rp & Lq).
  set (i := length (s_nodes s2)). set (s3 := set_nodes (s_nodes s2 ++ [mkNode (KId n None) []]) s2).
  set (l := length (s_nodes s3)). set (s4 := set_nodes (s_nodes s3 ++ [mkNode (KOpr OExprList) [i; q]]) s3).
  set (p := length (s_nodes s4)). set (s5 := set_nodes (s_nodes s4 ++ [mkNode (KOpr OVar) [l]]) s4).
  pose proof (e_tab _ _ Ev2) as T2.
  assert (V3 : evo s2 s3) by (apply evo_alloc; [reflexivity|exact T2]). assert (V4 : evo s3 s4) by (apply evo_alloc; [reflexivity|apply V3]).
  assert (V5 : evo s4 s5) by (apply evo_alloc; [reflexivity|apply V4]).
  pose proof (evo_trans _ _ _ V1 (evo_trans _ _ _ Ev2 (evo_trans _ _ _ V3 (evo_trans _ _ _ V4 V5)))) as H5.
  assert (Ni : nth_error (s_nodes s5) i = Some (mkNode (KId n None) [])).
  { unfold s5, s4, s3. cbn [s_nodes set_nodes]. rewrite !nth_error_app1 by (rewrite ?app_length; cbn; unfold i; lia). apply alloc_nth. }
  assert (Nl : nth_error (s_nodes s5) l = Some (mkNode (KOpr OExprList) [i; q])).
  { unfold s5. cbn [s_nodes set_nodes]. rewrite nth_error_app1 by (unfold s4; cbn [s_nodes set_nodes]; rewrite app_length; cbn; unfold l; lia). apply alloc_nth. }
  assert (Np : nth_error (s_nodes s5) p = Some (mkNode (KOpr OVar) [l])) by apply alloc_nth.
  assert (R5 : rep (meaning s1) true s5 q e) by (apply (rep_evo _ _ _ _ _ _ (evo_trans _ _ _ V3 (evo_trans _ _ _ V4 V5))), Rp).
  assert (O5 : obs s5 = obs s). { unfold s5, s4, s3. rewrite !obs_set_nodes, (obs_evo _ _ Ev2), Er2, <- (obs_get_errs s1), errs_id. exact O1. }
  set (s6 := set_ety EtSymbol s5).
  assert (H6 : hv s5 s6) by (apply hv_frame; auto; apply H5).
  assert (T6 : tab s6) by apply H6.
  assert (Sc6 : s_scope s6 = None) by (change (s_scope s5 = None); rewrite (evo_scope _ _ H5); exact Sc).
  assert (St6 : s_stop s6 = false) by (change (s_stop s5 = false); rewrite (evo_stop _ _ H5); exact St).
  destruct (declare_ok F n i None s6 T6 Sc6 P Ni) as (a & y & s7 & s8 & E8 & H7 & O7 & D8 & O8 & Hh & Hy & Ey & Nd8).
  assert (R7 : rep (meaning s1) true s7 q e) by (apply (rep_hv _ _ _ _ _ _ H7), (rep_hv _ _ _ _ _ _ H6), R5).
  assert (Ow7 : owned s7) by (apply (k_own _ _ (h_keep _ _ H7)), (k_own _ _ (h_keep _ _ H6)), (k_own _ _ (e_keep _ _ H5)), Ow).
  assert (R8 : rep (meaning s1) true s8 q e).
  { apply (rep_dfn0 n _ (meaning s1) _ true s7 s8 q e D8 Ow7); auto; [rewrite (h_scope _ _ H7); exact Sc6|]. intros m Hm. split; [apply Pe, Hm|]. split; [apply Ne, Hm|reflexivity]. }
  assert (Sc8 : s_scope s8 = None) by (rewrite (d_scope _ _ _ _ D8), (h_scope _ _ H7); exact Sc6).
  assert (Me8 : forall m, plain m -> fk m <> fk n -> meaning s8 m = meaning s m).
  { intros m Pm Hm. rewrite (d_other _ _ _ _ D8) by auto. rewrite (h_res _ _ H7), (h_res _ _ H6), (e_res _ _ H5) by auto. reflexivity. }
  assert (Kn8 : known_names s8 e).
  { intros m Hm. destruct (Kn m Hm) as [Pm _]. split; [exact Pm|]. intros D. assert (X := Me8 m Pm (Ne m Hm)).
    destruct V as (_ & _ & _ & _ & Y & _). destruct (Y m Hm) as (ym & Y1 & Y2). unfold meaning, resolve in X. unfold resolve in Y1. rewrite Sc8, D in X. rewrite Sc in X, Y1. rewrite Y1 in X. cbn in X. unfold ycore in X. congruence. }
  assert (Os6 : obs s6 = set_ety EtSymbol (obs s)) by (unfold s6; rewrite obs_set_ety, O5; reflexivity).
  assert (O8' : obs s8 = set_ety EtSymbol (obs s)) by congruence.
  destruct (set_obs _ _ _ O8') as (Pc8 & _).
  assert (St8 : s_stop s8 = false) by (rewrite (obs_stop _ _ O8); exact St6).
  assert (Et8 : s_ety s8 = EtSymbol) by (rewrite (obs_field s_ety _ _ O8 obs_get_ety); reflexivity).
  destruct (init_ok (meaning s1) true F n a e v y q s8 (d_tab _ _ _ _ D8) Sc8 St8 Et8 P Nn Kn8 HF R8) as (s9 & s10 & E10 & H9 & O9 & O10 & X); auto.
  { rewrite Pc8. destruct K as [K1 K2]. split; [|exact K2].
    rewrite <- K1. apply sem_ext. intros m Hm. rewrite (e_res _ _ V1) by (apply Pe, Hm). reflexivity. }
  { revert Ey. unfold ycore, vcore. destruct (meaning s6 n) as [[[[? ?] ?] ?] ?]. congruence. }
  exists p, s5, s10. split; [|split].
  - cbn [build_stmt more_vars]. unfold bindo, bind at 1 2. rewrite E1. unfold bind at 1 2. rewrite E2. unfold ret at 1. unfold id_node, bind at 1. rewrite alloc_eq. fold i s3.
    unfold bind at 1. rewrite alloc_eq. cbn [app]. fold l s4. unfold ret at 1. unfold some, bind. rewrite alloc_eq. reflexivity.
  - rewrite (expand_var F s5 p [i; q] l ltac:(rewrite (evo_stop _ _ H5); exact St) Np Nl). fold s6.
    rewrite (step_one _ i [q] None _ s6 Ni) by discriminate. cbn [n_ops expand_all]. unfold ret at 1. unfold bind at 1. unfold bind at 1, gets at 1.
    change (s_ety s6) with EtSymbol. unfold bind at 1, node_get, bind at 1, gets at 1. change (s_nodes s6) with (s_nodes s5). rewrite Ni. unfold ret at 1. unfold bind at 1. rewrite E8. exact E10.
  - rewrite O8' in O10. destruct (set_obs _ _ _ O10) as (Z1 & Z2 & Z3 & Z4 & Z5).
    assert (Sc9 : s_scope s9 = None) by (rewrite (evo_scope _ _ H9); exact Sc8).
    unfold only_sets. split; [|split; [|auto 6]].
    + intros m Pm Fm. rewrite value_of_env. destruct X as [(-> & Xv)|(y' & Ey' & D)].
      * rewrite (e_res _ _ H9) by auto. rewrite (d_here _ _ _ _ D8 m Pm Fm), cval_vcore.
        assert (Z : ycore y = vcore (meaning s6 n) 0) by exact Ey. revert Z. unfold ycore, vcore. destruct (meaning s6 n) as [[[[? ?] ?] ?] ?]. congruence.
      * rewrite (d_here _ _ _ _ D m Pm Fm). assert (Z : ycore y' = vcore (meaning s6 n) 0) by congruence. revert Z. unfold ycore, vcore, cval. destruct (meaning s6 n) as [[[[? ?] ?] ?] ?].
        intros [= _ Zi _ _ _]. destruct y'. cbn in *. rewrite Zi. reflexivity.
    + intros m Pm Fm. rewrite !value_of_env. destruct X as [(-> & Xv)|(y' & Ey' & D)]; [|rewrite (d_other _ _ _ _ D m Pm Fm)]; rewrite (e_res _ _ H9) by auto; rewrite Me8 by auto; reflexivity.
Qed.

(** .VAR n = m, where m is a name: both are declared *)
Theorem var_name_resets F first n m s : ready s -> owned s -> s_scope s = None -> plain n -> cmacro (meaning s n) = false ->
  plain m -> cmacro (meaning s m) = false -> fk m <> fk n ->
  exists p s1 s2, build_stmt (expand (S (S F))) first (SVar [(n, Some (ESym m))]) s = Ok (Some p) s1 /\ expand (S (S F)) p s1 = Ok 0 s2 /\
    value_of s2 n = 0 /\ value_of s2 m = 0 /\ s_errs s2 = s_errs s /\ s_changed s2 = s_changed s.
Proof.
  intros Rd Ow Sc P Mn Pm Mm Ne. destruct (ready_tab _ Rd) as [T St].
  destruct (need_ok n s T P Mn) as (s1 & E1 & V1 & O1 & _).
  assert (Pe1 : plain_expr s1 (ESym m)). { intros k [<-|[]]. split; [exact Pm|]. rewrite (e_res _ _ V1) by exact Pm. exact Mm. }
  destruct (build_expr_rep (ESym m) s1 (e_tab _ _ V1) eq_refl Pe1) as (q & s2 & E2 & Ev2 & Er2 & Rp & Lq).
  assert (Nq : nth_error (s_nodes s2) q = Some (mkNode (KId m None) [])).
  { clear - E2. cbn [build_expr] in E2. unfold bindo, bind in E2. destruct (need_sym m s1) as [[u|] s0| | |]; try discriminate. unfold some, bind, id_node in E2. rewrite alloc_eq in E2.
    unfold ret in E2. injection E2 as <- <-. apply alloc_nth. }
  set (i := length (s_nodes s2)). set (s3 := set_nodes (s_nodes s2 ++ [mkNode (KId n None) []]) s2).
  set (l := length (s_nodes s3)). set (s4 := set_nodes (s_nodes s3 ++ [mkNode (KOpr OExprList) [i; q]]) s3).
  set (p := length (s_nodes s4)). set (s5 := set_nodes (s_nodes s4 ++ [mkNode (KOpr OVar) [l]]) s4).
  pose proof (e_tab _ _ Ev2) as T2.
  assert (V3 : evo s2 s3) by (apply evo_alloc; [reflexivity|exact T2]). assert (V4 : evo s3 s4) by (apply evo_alloc; [reflexivity|apply V3]).
  assert (V5 : evo s4 s5) by (apply evo_alloc; [reflexivity|apply V4]).
  pose proof (evo_trans _ _ _ V1 (evo_trans _ _ _ Ev2 (evo_trans _ _ _ V3 (evo_trans _ _ _ V4 V5)))) as H5.
  assert (Ni : nth_error (s_nodes s5) i = Some (mkNode (KId n None) [])).
  { unfold s5, s4, s3. cbn [s_nodes set_nodes]. rewrite !nth_error_app1 by (rewrite ?app_length; cbn; unfold i; lia). apply alloc_nth. }
  assert (Nl : nth_error (s_nodes s5) l = Some (mkNode (KOpr OExprList) [i; q])).
  { unfold s5. cbn [s_nodes set_nodes]. rewrite nth_error_app1 by (unfold s4; cbn [s_nodes set_nodes]; rewrite app_length; cbn; unfold l; lia). apply alloc_nth. }
  assert (Np : nth_error (s_nodes s5) p = Some (mkNode (KOpr OVar) [l])) by apply alloc_nth.
  assert (Nq5 : nth_error (s_nodes s5) q = Some (mkNode (KId m None) [])).
  { unfold s5, s4, s3. cbn [s_nodes set_nodes]. rewrite !nth_error_app1 by (rewrite ?app_length; lia). exact Nq. }
  assert (O5 : obs s5 = obs s). { unfold s5, s4, s3. rewrite !obs_set_nodes, (obs_evo _ _ Ev2), Er2, <- (obs_get_errs s1), errs_id. exact O1. }
  set (s6 := set_ety EtSymbol s5).
  assert (H6 : hv s5 s6) by (apply hv_frame; auto; apply H5).
  assert (T6 : tab s6) by apply H6.
  assert (Sc6 : s_scope s6 = None) by (change (s_scope s5 = None); rewrite (evo_scope _ _ H5); exact Sc).
  destruct (declare_ok F n i None s6 T6 Sc6 P Ni) as (a & y & s7 & s8 & E8 & H7 & O7 & D8 & O8 & Hh & Hy & Ey & Nd8).
  assert (Nq8 : nth_error (s_nodes s8) q = Some (mkNode (KId m None) [])) by (rewrite Nd8 by (unfold i; lia); exact Nq5).
  assert (Sc8 : s_scope s8 = None) by (rewrite (d_scope _ _ _ _ D8), (h_scope _ _ H7); exact Sc6).
  destruct (declare_ok F m q (Some a) s8 (d_tab _ _ _ _ D8) Sc8 Pm Nq8) as (b & z & s9 & s10 & E10 & H9 & O9 & D10 & O10 & _).
  assert (Os6 : obs s6 = set_ety EtSymbol (obs s)) by (unfold s6; rewrite obs_set_ety, O5; reflexivity).
  assert (Os : obs s10 = set_ety EtSymbol (obs s)) by congruence.
  destruct (set_obs _ _ _ Os) as (_ & _ & _ & Z4 & Z5).
  assert (Et8 : s_ety s8 = EtSymbol) by (rewrite (obs_field s_ety _ _ O8 obs_get_ety); reflexivity).
  exists p, s5, s10. split; [|split; [|split; [|split; [|auto]]]].
  - cbn [build_stmt more_vars]. unfold bindo, bind at 1 2. rewrite E1. unfold bind at 1 2. rewrite E2. unfold ret at 1. unfold id_node, bind at 1. rewrite alloc_eq. fold i s3.
    unfold bind at 1. rewrite alloc_eq. cbn [app]. fold l s4. unfold ret at 1. unfold some, bind. rewrite alloc_eq. reflexivity.
  - rewrite (expand_var F s5 p [i; q] l ltac:(rewrite (evo_stop _ _ H5); exact St) Np Nl). fold s6.
    rewrite (step_one _ i [q] None _ s6 Ni) by discriminate. cbn [n_ops expand_all]. unfold ret at 1. unfold bind at 1. unfold bind at 1, gets at 1.
    change (s_ety s6) with EtSymbol. unfold bind at 1, node_get, bind at 1, gets at 1. change (s_nodes s6) with (s_nodes s5). rewrite Ni. unfold ret at 1. unfold bind at 1. rewrite E8.
    rewrite (step_one _ q [] (Some a) _ s8 Nq8) by discriminate. cbn [n_ops expand_all]. unfold ret at 1. unfold bind at 1. unfold bind at 1, gets at 1.
    rewrite Et8. unfold bind at 1, node_get, bind at 1, gets at 1. rewrite Nq8. unfold ret at 1. unfold bind at 1. rewrite E10. reflexivity.
  - rewrite value_of_env, (d_other _ _ _ _ D10 n P) by auto. rewrite (h_res _ _ H9) by auto. rewrite (d_here _ _ _ _ D8 n P eq_refl). apply cval_vcore.
  - rewrite value_of_env, (d_here _ _ _ _ D10 m Pm eq_refl). apply cval_vcore.
Qed.
