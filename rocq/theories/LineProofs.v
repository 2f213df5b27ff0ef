(** Lines: labels, assignments, instructions and data as the parser runs them. *)
From Coq Require Import String Lia.
From Verif Require Import Base BaseProofs Hash Dict DictProofs DictMore Str Opcodes OpcodesProofs Err State Sym Machine Build Pass
  GenX Gen Inv SymProofs Sem ListRel ExprProofs ExprMore OpProofs OpMore InstrProofs InstrMore DataProofs DataMore DefProofs BadProofs DataWalk OpWalk Colon Layout.
Open Scope string_scope.
Open Scope list_scope.
Open Scope Z_scope.
Open Scope m_scope.

(** ** What no line of the fragment changes *)
Definition fr (s : state) : state :=
  set_pc 0 (set_out [] (set_total 0 (set_errs 0 (set_warns 0 (set_changed 0 (set_label None (set_line 0 (set_org_spec false
    (set_code_gen 0 (set_ety EtMacro (obs s))))))))))).
Lemma fr_set_pc v s : fr (set_pc v s) = fr s.
Proof. unfold fr. rewrite obs_set_pc. destruct (obs s). reflexivity. Qed.
Lemma fr_set_out v s : fr (set_out v s) = fr s.
Proof. unfold fr. rewrite obs_set_out. destruct (obs s). reflexivity. Qed.
Lemma fr_set_total v s : fr (set_total v s) = fr s.
Proof. unfold fr. rewrite obs_set_total. destruct (obs s). reflexivity. Qed.
Lemma fr_set_errs v s : fr (set_errs v s) = fr s.
Proof. unfold fr. rewrite obs_set_errs. destruct (obs s). reflexivity. Qed.
Lemma fr_set_warns v s : fr (set_warns v s) = fr s.
Proof. unfold fr. rewrite obs_set_warns. destruct (obs s). reflexivity. Qed.
Lemma fr_set_changed v s : fr (set_changed v s) = fr s.
Proof. unfold fr. rewrite obs_set_changed. destruct (obs s). reflexivity. Qed.
Lemma fr_set_label v s : fr (set_label v s) = fr s.
Proof. unfold fr. rewrite obs_set_label. destruct (obs s). reflexivity. Qed.
Lemma fr_set_line v s : fr (set_line v s) = fr s.
Proof. unfold fr. rewrite obs_set_line. destruct (obs s). reflexivity. Qed.
Lemma fr_set_org_spec v s : fr (set_org_spec v s) = fr s.
Proof. unfold fr. rewrite obs_set_org_spec. destruct (obs s). reflexivity. Qed.
Lemma fr_set_code_gen v s : fr (set_code_gen v s) = fr s.
Proof. unfold fr. rewrite obs_set_code_gen. destruct (obs s). reflexivity. Qed.
Lemma fr_set_ety v s : fr (set_ety v s) = fr s.
Proof. unfold fr. rewrite obs_set_ety. destruct (obs s). reflexivity. Qed.
Lemma fr_set_nodes v s : fr (set_nodes v s) = fr s.
Proof. unfold fr. rewrite obs_set_nodes. reflexivity. Qed.
Lemma fr_set_syms v s : fr (set_syms v s) = fr s.
Proof. unfold fr. rewrite obs_set_syms. reflexivity. Qed.
Lemma fr_set_dict v s : fr (set_dict v s) = fr s.
Proof. unfold fr. rewrite obs_set_dict. reflexivity. Qed.
Lemma fr_set_msgs v s : fr (set_msgs v s) = fr s.
Proof. unfold fr. rewrite obs_set_msgs. reflexivity. Qed.
Lemma fr_set_list v s : fr (set_list v s) = fr s.
Proof. unfold fr. rewrite obs_set_list. reflexivity. Qed.
Lemma fr_set_soft v s : fr (set_soft v s) = fr s.
Proof. unfold fr. rewrite obs_set_soft. reflexivity. Qed.
Lemma fr_set_dsz v s : fr (set_dsz v s) = fr s.
Proof. unfold fr. rewrite obs_set_dsz. reflexivity. Qed.
Lemma fr_set_delta v s : fr (set_delta v s) = fr s.
Proof. unfold fr. rewrite obs_set_delta. reflexivity. Qed.
Lemma fr_get_cfg s : s_cfg (fr s) = s_cfg s.
Proof. rewrite <- (obs_get_cfg s). unfold fr. destruct (obs s). reflexivity. Qed.
Lemma fr_get_c02 s : s_c02 (fr s) = s_c02 s.
Proof. rewrite <- (obs_get_c02 s). unfold fr. destruct (obs s). reflexivity. Qed.
Lemma fr_get_ill s : s_ill (fr s) = s_ill s.
Proof. rewrite <- (obs_get_ill s). unfold fr. destruct (obs s). reflexivity. Qed.
Lemma fr_get_c64 s : s_c64 (fr s) = s_c64 s.
Proof. rewrite <- (obs_get_c64 s). unfold fr. destruct (obs s). reflexivity. Qed.
Lemma fr_get_final s : s_final (fr s) = s_final s.
Proof. rewrite <- (obs_get_final s). unfold fr. destruct (obs s). reflexivity. Qed.
Lemma fr_get_pass s : s_pass (fr s) = s_pass s.
Proof. rewrite <- (obs_get_pass s). unfold fr. destruct (obs s). reflexivity. Qed.
Lemma fr_get_opened s : s_opened (fr s) = s_opened s.
Proof. rewrite <- (obs_get_opened s). unfold fr. destruct (obs s). reflexivity. Qed.
Lemma fr_get_gen s : s_gen (fr s) = s_gen s.
Proof. rewrite <- (obs_get_gen s). unfold fr. destruct (obs s). reflexivity. Qed.
Lemma fr_get_skip s : s_skip (fr s) = s_skip s.
Proof. rewrite <- (obs_get_skip s). unfold fr. destruct (obs s). reflexivity. Qed.
Lemma fr_get_fstack s : s_fstack (fr s) = s_fstack s.
Proof. rewrite <- (obs_get_fstack s). unfold fr. destruct (obs s). reflexivity. Qed.
Lemma fr_get_ifs s : s_ifs (fr s) = s_ifs s.
Proof. rewrite <- (obs_get_ifs s). unfold fr. destruct (obs s). reflexivity. Qed.
Lemma fr_get_macdef s : s_macdef (fr s) = s_macdef s.
Proof. rewrite <- (obs_get_macdef s). unfold fr. destruct (obs s). reflexivity. Qed.
Lemma fr_get_input s : s_input (fr s) = s_input s.
Proof. rewrite <- (obs_get_input s). unfold fr. destruct (obs s). reflexivity. Qed.
Lemma fr_get_file s : s_file (fr s) = s_file s.
Proof. rewrite <- (obs_get_file s). unfold fr. destruct (obs s). reflexivity. Qed.
Lemma fr_get_origin s : s_origin (fr s) = s_origin s.
Proof. rewrite <- (obs_get_origin s). unfold fr. destruct (obs s). reflexivity. Qed.
Lemma fr_get_pc_assigned s : s_pc_assigned (fr s) = s_pc_assigned s.
Proof. rewrite <- (obs_get_pc_assigned s). unfold fr. destruct (obs s). reflexivity. Qed.
Lemma fr_get_org_once s : s_org_once (fr s) = s_org_once s.
Proof. rewrite <- (obs_get_org_once s). unfold fr. destruct (obs s). reflexivity. Qed.
Lemma fr_get_stop s : s_stop (fr s) = s_stop s.
Proof. rewrite <- (obs_get_stop s). unfold fr. destruct (obs s). reflexivity. Qed.
Lemma fr_get_scope s : s_scope (fr s) = s_scope s.
Proof. rewrite <- (obs_get_scope s). unfold fr. destruct (obs s). reflexivity. Qed.
Lemma fr_obs a b : obs a = obs b -> fr a = fr b.
Proof. unfold fr. intros ->. reflexivity. Qed.
Lemma obs_obs s : obs (obs s) = obs s.
Proof.
  assert (H : forall t, obs t = set_nodes [] (set_syms [] (set_dict dict_create (set_msgs [] (set_list [] (set_soft [] (set_dsz 0 (set_delta 0 t))))))))
    by (intros t; with_strategy transparent [obs] (unfold obs); reflexivity).
  rewrite (H s) at 1. rewrite obs_set_nodes, obs_set_syms, obs_set_dict, obs_set_msgs, obs_set_list, obs_set_soft, obs_set_dsz, obs_set_delta. reflexivity.
Qed.
Lemma fr_of_obs s : fr (obs s) = fr s.
Proof. apply fr_obs, obs_obs. Qed.
Global Opaque fr.
Lemma fr_put l s : fr (put l s) = fr s.
Proof. unfold put. rewrite fr_set_out, fr_set_total. reflexivity. Qed.
Lemma fr_header s : fr (header s) = fr s.
Proof. unfold header. destruct (_ && _); [apply fr_put|reflexivity]. Qed.
Lemma fr_writes l s : fr (writes l s) = fr s.
Proof. unfold writes. destruct (_ && _); [rewrite fr_put; apply fr_header|reflexivity]. Qed.
Lemma fr_org s : fr (org s) = fr s.
Proof. unfold org. destruct (_ <? _); [apply fr_set_org_spec|reflexivity]. Qed.
Lemma fr_bump b s : fr (bump b s) = fr s.
Proof. destruct b; [apply fr_set_changed|reflexivity]. Qed.
Lemma fr_step_op l b s : fr (step_op l b s) = fr s.
Proof.
  unfold step_op. cbv zeta. rewrite fr_set_code_gen, fr_set_pc. destruct (s_final s), b; rewrite ?fr_writes, ?fr_set_errs, ?fr_org; reflexivity.
Qed.
Lemma fr_step_far a b s : fr (step_far a b s) = fr s.
Proof.
  unfold step_far. cbv zeta. rewrite fr_set_pc. destruct (s_final s); rewrite ?fr_set_warns, ?fr_writes, ?fr_set_pc, ?fr_writes, ?fr_org; reflexivity.
Qed.
Lemma fr_wout b n s : fr (wout b n s) = fr s.
Proof. unfold wout. rewrite fr_set_pc. destruct (s_final s); [apply fr_writes|reflexivity]. Qed.
Lemma fr_dstart n s : fr (dstart n s) = fr s.
Proof. unfold dstart. rewrite fr_set_ety, fr_set_org_spec. reflexivity. Qed.

(** ** The first identifier of a line *)
Lemma evo_upd a y y' s : tab s -> nth_error (s_syms s) a = Some y -> ycore y' = ycore y -> y_pm y' = y_pm y -> y_macro y' = y_macro y ->
  evo s (set_syms (upd a y' (s_syms s)) s).
Proof.
  intros (T & Sg & Hsc) H Hc Hp Hm.
  assert (L : (a < length (s_syms s))%nat) by (apply nth_error_Some; congruence).
  assert (D : forall k, core (dl (set_syms (upd a y' (s_syms s)) s) k) = core (dl s k) /\
                        (dl (set_syms (upd a y' (s_syms s)) s) k = None <-> dl s k = None)).
  { intros k. unfold dl, dlookup. cbn [fst snd s_dict s_syms set_syms]. destruct (dict_search (s_dict s) k) as [b|]; [|tauto].
    destruct (Nat.eq_dec a b) as [<-|Hn]; [|rewrite nth_upd_other by auto; tauto].
    rewrite nth_upd_same, H by exact L. cbn [core]. split; [auto|]. split; discriminate. }
  constructor; cbn [s_errs s_nodes s_syms s_msgs set_syms]; try lia; auto.
  - apply kept_nodes; auto; cbn [s_syms set_syms]; [apply upd_length|]. intros b.
    destruct (Nat.eq_dec a b) as [<-|Hn]; [|rewrite nth_upd_other by auto; reflexivity].
    rewrite nth_upd_same by exact L. rewrite H. cbn. congruence.
  - exists []. reflexivity.
  - split; [split; [apply WF_upd; apply T|apply T]|]. split; [|exact Hsc].
    intros k Hk. unfold single. rewrite recs_len_upd. apply Sg; auto.
  - intros b y0 Hb. destruct (Nat.eq_dec a b) as [<-|Hn].
    + rewrite nth_upd_same by exact L. eexists; split; [reflexivity|]. congruence.
    + rewrite nth_upd_other by auto. eauto.
  - intros n Pn. unfold meaning, resolve. cbn [s_scope set_syms].
    destruct (s_scope s) as [c|]; [|apply D].
    destruct (D (dotted c n)) as [D1 D2]. destruct (D n) as [D3 D4].
    destruct (dl s (dotted c n)), (dl (set_syms _ s) (dotted c n)); auto.
    + destruct D2 as [D2 _]. discriminate (D2 eq_refl).
    + destruct D2 as [_ D2]. discriminate (D2 eq_refl).
  - intros p x Hx. exists x. split; [auto|constructor].
  - intros k _ _. unfold dl, dlookup. cbn [fst snd s_dict s_syms set_syms]. destruct (dict_search (s_dict s) k) as [b|]; [|reflexivity].
    destruct (Nat.eq_dec a b) as [<-|Hn]; [|rewrite nth_upd_other by auto; reflexivity].
    rewrite nth_upd_same, H by exact L. unfold yfix. cbn [option_map]. congruence.
Qed.

Lemma evo_ops s s' : evo s s' -> ops_kept s s'.
Proof. intros E p i o m c l H. destruct (e_node _ _ E _ _ H) as (x' & H' & X). inversion X; subst; exact H'. Qed.
Lemma tok_first_ok n s : tab s -> plain n -> cmacro (meaning s n) = false -> s_macdef s = 0 ->
  exists s', tok_first n s = Ok TLab s' /\ hv s s' /\ obs s' = obs s /\ ops_kept s s' /\ s_list s' = s_list s.
Proof.
  intros T P M Md. unfold tok_first.
  destruct (direct_head _ (plain_direct _ P)) as [D1 D2]. rewrite D1.
  assert (D3 : (hd0 n =? 92) = false).
  { apply Z.eqb_neq. intros E. destruct P as (_ & _ & _ & _ & H & _). apply H. cbn. auto. }
  rewrite D3. unfold look_up_symbol.
  destruct (look_up_in_spec (s_scope s) n s (proj1 (proj1 T)) (proj1 P) (proj2 (proj2 T))) as (r & s1 & E & Hr).
  unfold bind, gets. cbv beta iota. rewrite E. destruct r as [a|].
  - destruct Hr as (y & Hy & Hres & ->). cbn [s_macdef set_syms]. rewrite Md.
    unfold sym_get, gets, bind. cbn [s_syms set_syms].
    rewrite nth_upd_same by (apply nth_error_Some; congruence). unfold ret at 1.
    unfold meaning in M. rewrite Hres in M. cbn in M. change (y_mname (y_times_inc y)) with (y_mname y). rewrite M.
    unfold sym_set, modify, ret. cbn [s_syms set_syms]. eexists. split; [reflexivity|].
    assert (V : evo s (set_syms (upd a (y_set_label true (y_times_inc y)) (upd a (y_times_inc y) (s_syms s)))
                         (set_syms (upd a (y_times_inc y) (s_syms s)) s))).
    { rewrite upd_upd. apply (evo_upd a y _ s T Hy); destruct y; reflexivity. }
    split; [apply hv_evo, V|]. split; [rewrite !obs_set_syms; reflexivity|split; [apply evo_ops, V|reflexivity]].
  - destruct Hr as [_ ->]. rewrite Md. unfold ret. exists s. split; [reflexivity|]. split; [apply hv_refl; auto|]. split; [reflexivity|split; [apply ops_kept_refl|reflexivity]].
Qed.

(** the same for a label written with a colon *)
Lemma tok_first_t t s : tab s -> s_scope s = None -> plain (uncolon t) -> cmacro (meaning s (uncolon t)) = false -> (forall k, valids k -> never k -> dl s k = None) -> s_macdef s = 0 ->
  exists s', tok_first t s = Ok TLab s' /\ hv s s' /\ obs s' = obs s /\ ops_kept s s' /\ s_list s' = s_list s.
Proof.
  intros T Sc P M Nv Md. destruct (uncolon_cases t) as [E|E]; [rewrite E in *; exact (tok_first_ok t s T P M Md)|].
  exists s. split; [|split; [apply hv_refl; auto|split; [reflexivity|split; [apply ops_kept_refl|reflexivity]]]].
  pose proof (uncolon_hd t P) as Hd. assert (Dr : direct t) by (unfold direct; rewrite Hd; apply plain_direct, P). destruct (direct_head _ Dr) as [D1 _].
  assert (D3 : (hd0 t =? 92) = false) by (rewrite Hd; apply Z.eqb_neq; intros X; destruct P as (_ & _ & _ & _ & H & _); apply H; cbn; auto).
  assert (Vt : valids t) by (rewrite E; apply uncolon_valids, P).
  assert (D : dict_search (s_dict s) t = None).
  { assert (Dt : dl s t = None). { apply Nv; [exact Vt|]. right. rewrite E. split; [apply in_or_app; right; left; reflexivity|]. intros X. apply in_app_or in X. destruct X as [X|[X|[]]]; [exact (proj1 (proj2 P) X)|discriminate X]. }
    destruct (dict_search (s_dict s) t) as [a|] eqn:D; [|reflexivity]. exfalso. pose proof (dl_search s t (proj1 (proj1 T)) Vt) as X. rewrite D in X. destruct X as (y & _ & X). congruence. }
  unfold tok_first. rewrite D1, D3. unfold look_up_symbol. unfold bind, gets. rewrite Sc. unfold look_up_in, sym_search, bind, gets. rewrite D. unfold ret. rewrite Md. reflexivity.
Qed.

(** ** Labels *)
Lemma hv_set_label v s : tab s -> hv s (set_label v s).
Proof. intros T. apply hv_frame; auto. Qed.
Lemma label_def_ok t s : tab s -> plain (uncolon t) ->
  exists d a c s', label_def t s = Ok d s' /\ hv s s' /\ obs s' = set_label (Some t) (obs s) /\ ops_kept s s' /\
    nth_error (s_nodes s') d = Some (mkNode (KOpr OEqu) [a; c]) /\ nth_error (s_nodes s') a = Some (mkNode (KLabel t None) []) /\
    nth_error (s_nodes s') c = Some (mkNode (KCon (s_pc s) true) []) /\ s_list s' = s_list s.
Proof.
  intros T P. unfold label_def, label_node. pose proof (uncolon_hd t P) as Hd.
  destruct P as (_ & _ & _ & _ & H & _). rewrite <- Hd in H.
  assert (H64 : (hd0 t =? 64) = false) by (apply Z.eqb_neq; intros E; apply H; rewrite E; cbn; auto).
  assert (H45 : (hd0 t =? 45) = false) by (apply Z.eqb_neq; intros E; apply H; rewrite E; cbn; auto).
  assert (H43 : (hd0 t =? 43) = false) by (apply Z.eqb_neq; intros E; apply H; rewrite E; cbn; auto).
  cbv zeta. rewrite H64, H45, H43. cbn [negb andb].
  unfold bind, modify, pc_node, gets. cbv beta iota. rewrite alloc_eq. unfold bind. cbv beta iota. rewrite alloc_eq. rewrite alloc_eq.
  set (s1 := set_label (Some t) s). set (s2 := set_nodes (s_nodes s1 ++ [mkNode (KLabel t None) []]) s1).
  set (s3 := set_nodes (s_nodes s2 ++ [mkNode (KCon (s_pc s2) true) []]) s2).
  set (s4 := set_nodes (s_nodes s3 ++ [mkNode (KOpr OEqu) [length (s_nodes s1); length (s_nodes s2)]]) s3).
  assert (V1 : hv s s1) by (apply hv_set_label; auto).
  assert (V2 : hv s1 s2) by (apply hv_alloc; [reflexivity|apply V1]).
  assert (V3 : hv s2 s3) by (apply hv_alloc; [reflexivity|apply V2]).
  assert (V4 : hv s3 s4) by (apply hv_alloc; [reflexivity|apply V3]).
  exists (length (s_nodes s3)), (length (s_nodes s1)), (length (s_nodes s2)), s4. split; [reflexivity|].
  split; [eapply hv_trans; [exact V1|]; eapply hv_trans; [exact V2|]; eapply hv_trans; [exact V3|exact V4]|].
  split; [unfold s4, s3, s2, s1; rewrite !obs_set_nodes, obs_set_label; reflexivity|].
  split.
  { eapply ops_kept_trans; [|apply ops_kept_alloc]. eapply ops_kept_trans; [|apply ops_kept_alloc].
    eapply ops_kept_trans; [|apply ops_kept_alloc]. apply ops_kept_same. reflexivity. }
  assert (N2 : nth_error (s_nodes s2) (length (s_nodes s1)) = Some (mkNode (KLabel t None) [])) by apply alloc_nth.
  assert (N3 : nth_error (s_nodes s3) (length (s_nodes s2)) = Some (mkNode (KCon (s_pc s2) true) [])) by apply alloc_nth.
  split; [apply alloc_nth|]. split; [|split; [|reflexivity]].
  - unfold s4. cbn [s_nodes set_nodes]. rewrite nth_error_app1 by (unfold s3; cbn [s_nodes set_nodes]; rewrite app_length; apply Nat.lt_lt_add_r, nth_error_Some; rewrite N2; discriminate).
    unfold s3. cbn [s_nodes set_nodes]. rewrite nth_error_app1 by (apply nth_error_Some; rewrite N2; discriminate). exact N2.
  - unfold s4. cbn [s_nodes set_nodes]. rewrite nth_error_app1 by (apply nth_error_Some; rewrite N3; discriminate). exact N3.
Qed.

(** [n] gets the value [v]: as it had before, or changed *)
Definition defines (n : cstr) (v : Z) (s s' : state) : Prop :=
  exists s1, hv s s1 /\ obs s1 = obs s /\ ops_kept s s1 /\ s_list s1 = s_list s /\
    ((meaning s n = dcore v /\ s' = s1) \/
     (meaning s n <> dcore v /\ dfn n (dcore v) s1 s' /\ obs s' = bump (negb (craw (meaning s n) =? v)) (obs s))).
Lemma expand_equ F s p a b : s_stop s = false -> nth_error (s_nodes s) p = Some (mkNode (KOpr OEqu) [a; b]) ->
  expand (S F) p s = x_equ (expand F) (mkNode (KOpr OEqu) [a; b]) s.
Proof. intros St N. rewrite (expand_eq _ _ _ _ St N). reflexivity. Qed.
Lemma label_hv s s' p n i l : hv s s' -> nth_error (s_nodes s) p = Some (mkNode (KLabel n i) l) ->
  exists j, nth_error (s_nodes s') p = Some (mkNode (KLabel n j) l).
Proof.
  intros V N. destruct (h_node _ _ V _ _ N) as (x & N' & X). inversion X as [? ? X'| |]; subst; eauto.
  inversion X'; subst; eauto.
Qed.
Lemma eval_pc F s c v : tab s -> s_stop s = false -> nth_error (s_nodes s) c = Some (mkNode (KCon v true) []) ->
  exists s', expand (S F) c s = Ok (s_pc s) s' /\ hv s s' /\ obs s' = obs s /\ ops_kept s s' /\
    s_nodes s' = upd c (mkNode (KCon (s_pc s) true) []) (s_nodes s) /\ s_list s' = s_list s.
Proof.
  intros T St N. rewrite (expand_eq _ _ _ _ St N).
  set (s' := set_nodes (upd c (mkNode (KCon (s_pc s) true) []) (s_nodes s)) s).
  assert (E : evo s s') by (eapply evo_pcnode; eauto).
  exists s'. split; [reflexivity|]. split; [apply hv_evo, E|]. split; [unfold s'; rewrite obs_set_nodes; reflexivity|].
  split; [apply evo_ops, E|split; reflexivity].
Qed.
Lemma label_step F t d a c w s (n := uncolon t) : tab s -> s_scope s = None -> s_stop s = false -> plain n -> clean (meaning s n) ->
  nth_error (s_nodes s) d = Some (mkNode (KOpr OEqu) [a; c]) -> nth_error (s_nodes s) a = Some (mkNode (KLabel t None) []) ->
  nth_error (s_nodes s) c = Some (mkNode (KCon w true) []) ->
  bad s (expand (S (S F)) d s) \/
  exists s', expand (S (S F)) d s = Ok (s_pc s) s' /\ defines n (s_pc s) s s'.
Proof.
  intros T Sc St P Cl Nd Na Nc. rewrite (expand_equ _ _ _ _ _ St Nd).
  destruct (eval_pc F s c w T St Nc) as (s1 & E1 & V1 & O1 & K1 & Nn & Q1).
  assert (Na1 : nth_error (s_nodes s1) a = Some (mkNode (def_node true t None) [])).
  { rewrite Nn, nth_upd_other; [exact Na|]. intros <-. congruence. }
  rewrite (x_equ_uncolon (S F) t a c (s_pc s) s s1 P E1 Na1).
  assert (Cl1 : clean (meaning s1 n)) by (rewrite (h_res _ _ V1) by auto; exact Cl).
  assert (Sc1 : s_scope s1 = None) by (rewrite (h_scope _ _ V1); exact Sc).
  destruct (equ_body_t true t n (s_pc s) a s1 (spells_uncolon t P) (h_tab _ _ V1) Sc1 P Cl1 Na1) as (s2 & V2 & O2 & K2 & Q2 & [(Me & E2)|[(Me & Rg & s3 & E2 & Er)|(Me & Rg & s3 & E2 & D & O3)]]).
  - right. exists s2. split; [exact E2|]. exists s2. split; [eapply hv_trans; eauto|]. split; [congruence|].
    split; [eapply ops_kept_trans; eauto|]. split; [congruence|]. left. split; auto. rewrite <- (h_res _ _ V1) by auto. exact Me.
  - left. rewrite E2. cbn. rewrite Er. rewrite (obs_errs _ _ O1). lia.
  - right. exists s3. split; [exact E2|]. exists s2. split; [eapply hv_trans; eauto|]. split; [congruence|].
    split; [eapply ops_kept_trans; eauto|]. split; [congruence|]. right. rewrite <- (h_res _ _ V1) by auto. split; [exact Me|]. split; [exact D|].
    rewrite O3, O1. reflexivity.
Qed.
