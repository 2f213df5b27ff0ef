(** Macro calls: the arguments become the values of \1, \2, ..., the body is expanded, the caller's parameters come back. *)
From Coq Require Import String Lia.
From Verif Require Import Base BaseProofs Hash Dict DictProofs DictMore Str Opcodes OpcodesProofs Err State Sym Machine Build Pass
  GenX Gen Inv SymProofs SymMore Sem ExprProofs ExprMore OpProofs DataProofs DefProofs.
Open Scope string_scope.
Open Scope list_scope.
Open Scope Z_scope.
Open Scope m_scope.

(** ** Names of parameters *)
Lemma param_chars i : 0 <= i -> Forall (fun c => 48 <= c <= 57) (dec_str i).
Proof. intros H. unfold dec_str. rewrite (proj2 (Z.ltb_ge i 0) H). apply digits_chars; auto. Qed.
Lemma param_not_in i c : 0 <= i -> c <> 92 -> ~ 48 <= c <= 57 -> ~ In c (param_name i).
Proof.
  intros H N R [X|X]; [congruence|]. pose proof (param_chars i H) as F. rewrite Forall_forall in F. apply R, F, X.
Qed.
Lemma plain_param n i : plain n -> 0 <= i -> fk n <> fk (param_name i).
Proof.
  intros (V & _ & _ & Ne & Hd & _) Hi E. rewrite (param_name_fk i Hi) in E. unfold param_name in E.
  destruct n as [|c n]; [congruence|]. unfold fk in E. cbn [map] in E. injection E as E _. apply Hd. cbn [hd0].
  assert (c = 92) by (unfold tolower in E; if_lia). subst c. cbn. auto.
Qed.
Lemma param_not_A i : 0 <= i -> stricmp (param_name i) (cs "A") <> 0.
Proof.
  intros H E. apply stricmp_0_iff in E; [|apply param_name_valid; auto|now apply validsb_ok].
  pose proof (param_name_fk i H) as K. unfold fk in E, K. rewrite K in E. unfold param_name in E. vm_compute in E. discriminate.
Qed.
Definition pfresh (n : cstr) : symbol := new_symbol true false false false None n n.
Lemma add_param_eq i s : 0 <= i -> s_scope s = None ->
  add_symbol (param_name i) s = (r <- look_up_in None (param_name i) ;;
    match r with
    | Some a => ret (Some a)
    | None => a <- sym_insert (param_name i) (pfresh (param_name i)) ;; ret (Some a)
    end) s.
Proof.
  intros H Sc. unfold add_symbol.
  rewrite (proj2 (Z.eqb_neq _ _) (param_not_A i H)).
  change (hd0 (param_name i)) with 92. cbn [orb Z.eqb Pos.eqb].
  rewrite (has_char_false 46 (param_name i)) by (apply param_not_in; lia).
  unfold bind at 1, gets at 1. rewrite Sc.
  change (match param_name i with 46 :: r => r | _ => param_name i end) with (param_name i).
  change (hd0 (param_name i)) with 92. cbn [Z.eqb Pos.eqb].
  unfold bind at 1, gets at 1.
  rewrite (strip_colon_plain (param_name i)) by (apply (param_not_in i 58); lia). reflexivity.
Qed.

(** keys that are equal but for case have the same records *)
Lemma recs_fk s k k' : fk k = fk k' -> recs s k = recs s k'.
Proof. intros E. unfold recs, stackof. f_equal. apply filter_ext. intros e. unfold matches. now rewrite E. Qed.
Lemma dl_fk s k k' : table_ok s -> valids k -> valids k' -> fk k = fk k' -> dl s k = dl s k'.
Proof. intros T V V' E. rewrite !dl_recs by auto. now rewrite (recs_fk s k k' E). Qed.
Lemma same_some {A} (f : symbol -> A) o o' : option_map f o = option_map f o' -> o' <> None -> o <> None.
Proof. intros U N E. subst o. destruct o'; [discriminate U|auto]. Qed.

(** ** Evaluating an expression whose names are in the table leaves the dictionary alone *)
Definition dsame (s : state) {A} (m : M A) : Prop :=
  match m s with Ok _ s' => evo s s' /\ s_dict s' = s_dict s | _ => True end.
Lemma dsame_bind {A B} s (m : M A) (k : A -> M B) : tab s -> dsame s m ->
  (forall a t, evo s t -> s_dict t = s_dict s -> dsame t (k a)) -> dsame s (bind m k).
Proof.
  intros T H K. unfold dsame, bind in *. destruct (m s) as [a t| | |]; auto. destruct H as [E D].
  specialize (K a t E D). destruct (k a t) as [b t'| | |]; auto. destruct K as [E' D'].
  split; [exact (evo_trans _ _ _ E E')|congruence].
Qed.
Lemma dsame_ret {A} s (a : A) : tab s -> dsame s (ret a).
Proof. intros T. split; [apply evo_refl, T|reflexivity]. Qed.
Lemma dsame_un o v s : tab s -> is_un o = true -> dsame s (un_op o v).
Proof.
  intros T U. unfold dsame. rewrite (un_op_sem o v s U). destruct (sem_un o v); [|exact I]. split; [apply evo_refl, T|reflexivity].
Qed.
Lemma dsame_ck v s : tab s -> dsame s (ck v).
Proof. intros T. unfold dsame. rewrite in_int_fits. destruct (fits v); [|exact I]. split; [apply evo_refl, T|reflexivity]. Qed.
Lemma dsame_bin o a b s : tab s -> strict o = true -> dsame s (bin_op o a b).
Proof.
  intros T U. unfold dsame. rewrite (bin_op_sem o a b s U). destruct (sem_bin o a b); [|exact I]. split; [apply evo_refl, T|reflexivity].
Qed.

Definition known_names (s : state) (e : expr) : Prop := forall n, In n (names e) -> plain n /\ dl s n <> None.
Lemma known_names_evo s t e : evo s t -> known_names s e -> known_names t e.
Proof.
  intros E H n Hn. destruct (H n Hn) as [P D]. split; [exact P|].
  exact (same_some _ _ _ (e_dl _ _ E n (proj1 P) D) D).
Qed.

(** a plain name that is there is found *)
Lemma add_found n s : tab s -> s_scope s = None -> plain n -> dl s n <> None ->
  exists a y, add_symbol n s = Ok (Some a) (set_syms (upd a (y_times_inc y) (s_syms s)) s) /\ nth_error (s_syms s) a = Some y /\
    dict_search (s_dict s) n = Some a /\ dl s n = Some y.
Proof.
  intros (T & Sg & Hsc) Sc P D. rewrite (add_plain_eq n s P), Sc. unfold look_up_in, bind at 1 2, sym_search, gets.
  pose proof (dl_search s n (proj1 T) (proj1 P)) as X. destruct (dict_search (s_dict s) n) as [a|]; [|congruence].
  destruct X as (y & Y1 & Y2). exists a, y. split; [|auto].
  unfold bind, sym_get, gets. unfold bind. rewrite Y1. unfold sym_set, modify, ret. reflexivity.
Qed.

Lemma eval_dict C u e : forall F s p, (height e <= F)%nat -> tab s -> s_stop s = false -> s_scope s = None -> known_names s e ->
  rep C u s p e -> dsame s (expand F p).
Proof.
  assert (Base : forall e F s p, (height e <= F)%nat -> tab s -> s_stop s = false -> rep C u s p e ->
     (forall v s', expand F p s = Ok v s' -> s_dict s' = s_dict s) -> dsame s (expand F p)).
  { intros e0 F s p HF T St R H. unfold dsame. pose proof (eval_rep C u e0 F s p HF T St R) as V. unfold evaluates in V.
    destruct (sem _ _ e0) as [[v k]|]; [|rewrite V; exact I]. destruct V as (s' & E & Ev & _). rewrite E. split; [exact Ev|eapply H; exact E]. }
  induction e as [v|n| |o e IH|o e1 IH1 e2 IH2]; intros F s p HF T St Sc Kn R; (destruct F as [|F]; [cbn in HF; lia|]).
  - apply (Base _ _ _ _ HF T St R). intros v' s' E. inversion R as [p0 v0 N| | | | |]; subst.
    rewrite (expand_eq _ _ _ _ St N) in E. injection E as _ <-. reflexivity.
  - apply (Base _ _ _ _ HF T St R). intros v' s' E. destruct (Kn n (or_introl eq_refl)) as [P D].
    inversion R as [| |p0 n0 a y N Dn Hy Ey|p0 n0 Eu N Pn Ey| |]; subst; rewrite (expand_eq _ _ _ _ St N) in E;
      unfold x_node in E; cbn [n_kind] in E; unfold x_id in E; destruct (direct_head _ (plain_direct _ P)) as [D1 D2]; rewrite D1, D2 in E.
    + unfold bind, ret, sym_get, gets in E. unfold bind in E. rewrite Hy in E. injection E as _ <-. reflexivity.
    + destruct (add_found n s T Sc P D) as (a & y & Ea & Hy & _). unfold bind, ret in E. rewrite Ea in E.
      unfold node_set, modify, sym_get, gets, bind in E. cbn [s_syms set_nodes set_syms] in E.
      rewrite nth_upd_same in E by (apply nth_error_Some; congruence). injection E as _ <-. reflexivity.
  - apply (Base _ _ _ _ HF T St R). intros v' s' E. inversion R as [|p0 v N| | | |]; subst.
    rewrite (expand_eq _ _ _ _ St N) in E. injection E as _ <-. reflexivity.
  - inversion R as [| | | |p0 o0 q e0 N U L R'|]; subst. cbn [height] in HF.
    unfold dsame. rewrite (expand_eq _ _ _ _ St N). unfold x_node. cbn [n_kind].
    assert (x_opr (expand F) F p (mkNode (KOpr o) [q]) o s = bind (expand F q) (fun v => un_op o v) s) as ->.
    { destruct o; try discriminate U; reflexivity. }
    change (dsame s (bind (expand F q) (fun v => un_op o v))). apply dsame_bind; [exact T|apply IH; auto; lia|].
    intros a t Et _. apply dsame_un; [apply (e_tab _ _ Et)|exact U].
  - inversion R as [| | | | |p0 o0 q1 q2 e10 e20 N U L1 L2 R1 R2]; subst. cbn [height] in HF.
    assert (K1 : known_names s e1) by (intros n Hn; apply Kn; cbn; apply in_or_app; auto).
    assert (K2 : known_names s e2) by (intros n Hn; apply Kn; cbn; apply in_or_app; auto).
    assert (H1 : forall t, evo s t -> dsame t (expand F q1)).
    { intros t Et. apply IH1; [lia|apply (e_tab _ _ Et)|rewrite (evo_stop _ _ Et); exact St|rewrite (evo_scope _ _ Et); exact Sc
        |exact (known_names_evo _ _ _ Et K1)|exact (rep_evo _ _ _ _ _ _ Et R1)]. }
    assert (H2 : forall t, evo s t -> dsame t (expand F q2)).
    { intros t Et. apply IH2; [lia|apply (e_tab _ _ Et)|rewrite (evo_stop _ _ Et); exact St|rewrite (evo_scope _ _ Et); exact Sc
        |exact (known_names_evo _ _ _ Et K2)|exact (rep_evo _ _ _ _ _ _ Et R2)]. }
    unfold dsame. rewrite (expand_eq _ _ _ _ St N). unfold x_node. cbn [n_kind].
    assert (E0 := evo_refl s T).
    destruct (strict o) eqn:So; [|destruct o; try discriminate So; try discriminate U].
    + assert (x_opr (expand F) F p (mkNode (KOpr o) [q1; q2]) o s = bind (expand F q1) (fun a => bind (expand F q2) (fun b => bin_op o a b)) s) as ->.
      { destruct o; try discriminate So; reflexivity. }
      change (dsame s (bind (expand F q1) (fun a => bind (expand F q2) (fun b => bin_op o a b)))).
      apply dsame_bind; [exact T|auto|]. intros a t Et _. apply dsame_bind; [apply (e_tab _ _ Et)|auto|].
      intros b t' Et' _. apply dsame_bin; [apply (e_tab _ _ Et')|exact So].
    + change (dsame s (bind (expand F q2) (fun b0 => if b0 =? 0 then err error_divide_by_zero ;;; ret 0
        else bind (expand F q1) (fun a => bind (expand F q2) (fun b => if b =? 0 then ub UbArith else ck (Z.quot a b)))))).
      apply dsame_bind; [exact T|auto|]. intros b0 t Et _. destruct (b0 =? 0).
      * split; [apply evo_err, (e_tab _ _ Et)|reflexivity].
      * apply dsame_bind; [apply (e_tab _ _ Et)|auto|]. intros a t1 E1 _. pose proof (evo_trans _ _ _ Et E1) as Et1.
        apply dsame_bind; [apply (e_tab _ _ Et1)|auto|]. intros b t2 E2 _. destruct (b =? 0); [exact I|apply dsame_ck, (e_tab _ _ E2)].
    + change (dsame s (bind (expand F q1) (fun a => if a =? 0 then bind (expand F q2) (fun b => ret (b2z (negb (b =? 0)))) else ret 1))).
      apply dsame_bind; [exact T|auto|]. intros a t Et _. destruct (a =? 0); [|apply dsame_ret, (e_tab _ _ Et)].
      apply dsame_bind; [apply (e_tab _ _ Et)|auto|]. intros b t' E' _. apply dsame_ret, (e_tab _ _ E').
    + change (dsame s (bind (expand F q1) (fun a => if a =? 0 then ret 0 else bind (expand F q2) (fun b => ret (b2z (negb (b =? 0))))))).
      apply dsame_bind; [exact T|auto|]. intros a t Et _. destruct (a =? 0); [apply dsame_ret, (e_tab _ _ Et)|].
      apply dsame_bind; [apply (e_tab _ _ Et)|auto|]. intros b t' E' _. apply dsame_ret, (e_tab _ _ E').
Qed.
(** ** Entering a parameter *)
Lemma add_param i s : 0 <= i -> tab s -> s_scope s = None -> (forall y, dl s (param_name i) = Some y -> y_mparam y = true) ->
  exists a y s', add_symbol (param_name i) s = Ok (Some a) s' /\ s' = set_syms (s_syms s') (set_dict (s_dict s') s) /\ tab s' /\ kept s s' /\
    dict_search (s_dict s') (param_name i) = Some a /\ nth_error (s_syms s') a = Some y /\ y_mparam y = true /\
    (forall b z, nth_error (s_syms s) b = Some z -> exists z', nth_error (s_syms s') b = Some z' /\ ycore z' = ycore z) /\
    (forall k, valids k -> fk k <> fk (param_name i) -> option_map yfix (dl s' k) = option_map yfix (dl s k)).
Proof.
  intros Hi T Sc Hp. pose proof T as (T0 & Sg & Hsc). pose proof (param_name_valid i Hi) as Vk. rewrite (add_param_eq i s Hi Sc).
  unfold look_up_in, bind at 1 2, sym_search, gets. pose proof (dl_search s (param_name i) (proj1 T0) Vk) as X.
  destruct (dict_search (s_dict s) (param_name i)) as [a|] eqn:Sa.
  - destruct X as (y & Y1 & Y2). exists a, (y_times_inc y), (set_syms (upd a (y_times_inc y) (s_syms s)) s).
    pose proof (evo_bump a y s T Y1) as Ev.
    split; [unfold bind, sym_get, gets; unfold bind; rewrite Y1; reflexivity|].
    split; [destruct s; reflexivity|]. split; [apply (e_tab _ _ Ev)|]. split; [apply (e_keep _ _ Ev)|].
    split; [exact Sa|]. cbn [s_syms set_syms]. split; [apply nth_upd_same; apply nth_error_Some; congruence|].
    split; [exact (Hp y Y2)|]. split; [exact (e_rec _ _ Ev)|].
    intros k Hk _. apply yfix_untimed. exact (dl_bump s a y k Y1).
  - unfold ret at 1.
    destruct (sym_insert_ok (param_name i) (pfresh (param_name i)) s T0 Vk) as (a & s' & E1).
    destruct (sym_insert_spec _ _ _ _ _ T0 Vk E1) as (T' & O & N).
    pose proof (recs_nil s (param_name i) T0 Vk X) as R0. destruct (N R0) as [N1 N2].
    assert (San : sanitize_symbol (pfresh (param_name i)) = pfresh (param_name i)).
    { unfold sanitize_symbol, pfresh, new_symbol. cbn [y_mparam y_scope y_name].
      rewrite split_last_none by (apply param_not_in; lia). reflexivity. }
    rewrite San in *. unfold bind. rewrite E1. unfold ret. exists a, (pfresh (param_name i)), s'. split; [reflexivity|].
    pose proof (sym_insert_inv _ _ _ _ _ E1) as (d & h & y' & I1 & I2 & I3).
    destruct (insert_prefix _ _ _ _ _ _ _ I1) as [l Hl].
    destruct (insert_keeps _ _ _ _ _ _ _ (proj1 T0) Vk I1) as (K2 & K1 & K3).
    assert (Sg' : forall k, valids k -> single s' k).
    { intros k Hk. unfold single. destruct (list_eq_dec Z.eq_dec (fk k) (fk (param_name i))) as [Ek|Ek].
      - rewrite (recs_fk s' k _ Ek), N1. cbn. lia.
      - specialize (Sg k Hk). unfold single in Sg. destruct (O k Ek) as [-> | ->]; [|rewrite rev_length]; auto. }
    assert (Oth : forall k, valids k -> fk k <> fk (param_name i) -> dl s' k = dl s k).
    { intros k Hk Ek. rewrite (dl_recs _ _ T' Hk), (dl_recs _ _ T0 Hk). specialize (Sg k Hk). unfold single in Sg.
      destruct (O k Ek) as [-> | ->]; auto. destruct (recs s k) as [|x [|]]; cbn in *; auto; lia. }
    assert (Me : forall k, valids k -> fk k = fk (param_name i) -> dl s k = None /\ dl s' k = Some (pfresh (param_name i))).
    { intros k Hk Ek. rewrite (dl_fk s k _ T0 Hk Vk Ek), (dl_fk s' k _ T' Hk Vk Ek). split; [exact X|].
      rewrite (dl_recs _ _ T' Vk), N1. reflexivity. }
    split; [rewrite I3; destruct s; reflexivity|].
    split; [split; [exact T'|split; [exact Sg'|rewrite I3; cbn [s_scope set_syms set_dict]; exact Hsc]]|].
    split; [|split; [|split; [exact N2|split; [reflexivity|split]]]].
    + constructor.
      * rewrite I3. cbn [s_syms set_syms]. rewrite upd_length. exact K1.
      * rewrite I3. cbn [s_syms s_dict set_syms set_dict]. exact K3.
      * intros k Hk Dk. f_equal. apply Oth; [exact Hk|]. intros Ek. apply Dk, (Me k Hk Ek).
      * intros k Hk Ek Dk. rewrite Oth; [exact Dk|exact Hk|]. intros Z. destruct Ek as [Ek|[Ek _]].
        2: { apply fk_has in Ek. rewrite Z, (param_name_fk i Hi) in Ek. change (tolower 58) with 58 in Ek. revert Ek. apply param_not_in; lia. }
        rewrite Ek in Z. apply (param_not_A i Hi).
        apply stricmp_0_iff; [exact Vk|now apply validsb_ok|]. symmetry. exact Z.
      * intros Ow Sc' p m b l0 Np Pm. rewrite I3 in Np. cbn [s_nodes set_syms set_dict] in Np.
        destruct (Ow Sc _ _ _ _ Np Pm) as (O1 & O3 & O2).
        split; [rewrite I3; cbn [s_syms set_syms]; rewrite upd_length; lia|]. split.
        -- rewrite (Oth m (proj1 Pm) (plain_param m i Pm Hi)). exact O3.
        -- intros k Hk Sk. apply O2; [exact Hk|]. apply K3; [exact Hk| |exact O1].
           rewrite I3 in Sk. cbn [s_dict set_syms set_dict] in Sk. exact Sk.
      * intros k y Hk Dk Dk'. destruct (list_eq_dec Z.eq_dec (fk k) (fk (param_name i))) as [Ek|Ek].
        -- rewrite (proj2 (Me k Hk Ek)) in Dk'. injection Dk' as <-. reflexivity.
        -- rewrite (Oth k Hk Ek) in Dk'. congruence.
    + rewrite I3. cbn [s_dict set_syms set_dict]. exact K2.
    + intros b z Hb. rewrite I3. cbn [s_syms set_syms].
      assert (Hb' : nth_error h b = Some z) by (rewrite Hl, nth_error_app1; [exact Hb|apply nth_error_Some; congruence]).
      destruct (Nat.eq_dec a b) as [<-|Hn].
      * rewrite nth_upd_same by (apply nth_error_Some; congruence). eexists; split; [reflexivity|]. rewrite core_sanitize. congruence.
      * rewrite nth_upd_other by auto. eauto.
    + intros k Hk Ek. f_equal. exact (Oth k Hk Ek).
Qed.

(** ** Evaluation and the setting of parameters number [lo]+1 to [hi] *)
Definition still (k : nkind) : bool := match k with KCon _ true | KId _ None => false | _ => true end.
(** the record of \i, if there is one, is that of a parameter *)
Definition is_param (s : state) (i : Z) : Prop := forall y, dl s (param_name i) = Some y -> y_mparam y = true.
Record mv (lo hi : Z) (s s' : state) : Prop := mkMv {
  v_tab : tab s';
  v_own : owned s';
  v_same : s' = set_nodes (s_nodes s') (set_syms (s_syms s') (set_dict (s_dict s') (set_msgs (s_msgs s') (set_mpi (s_mpi s') (set_maxmp (s_maxmp s') s)))));
  v_rep : forall C u p e, (forall n, In n (names e) -> plain n) -> rep C u s p e -> rep C u s' p e;
  v_node : forall p x, nth_error (s_nodes s) p = Some x -> still (n_kind x) = true -> nth_error (s_nodes s') p = Some x;
  v_dl : forall k, valids k -> dl s k <> None -> (forall i, lo < i <= hi -> fk k <> fk (param_name i)) ->
           option_map yfix (dl s' k) = option_map yfix (dl s k);
  v_par : forall i, 0 <= i -> is_param s i -> is_param s' i
}.
Lemma mv_trans a b c x y z : a <= b <= c -> mv a b x y -> mv b c y z -> mv a c x z.
Proof.
  intros L H1 H2. constructor.
  - apply (v_tab _ _ _ _ H2).
  - apply (v_own _ _ _ _ H2).
  - rewrite (v_same _ _ _ _ H2) at 1. rewrite (v_same _ _ _ _ H1) at 1. reflexivity.
  - intros. apply (v_rep _ _ _ _ H2); auto. apply (v_rep _ _ _ _ H1); auto.
  - intros. apply (v_node _ _ _ _ H2); auto. apply (v_node _ _ _ _ H1); auto.
  - intros k Hk Dk Ne. assert (E1 := v_dl _ _ _ _ H1 k Hk Dk ltac:(intros; apply Ne; lia)).
    rewrite <- E1. apply (v_dl _ _ _ _ H2); [exact Hk|exact (same_some _ _ _ E1 Dk)|intros; apply Ne; lia].
  - intros i Hi P. apply (v_par _ _ _ _ H2); auto. apply (v_par _ _ _ _ H1); auto.
Qed.
Lemma mv_weak a b c d s s' : a <= b -> c <= d -> mv b c s s' -> mv a d s s'.
Proof. intros L1 L2 H. destruct H. constructor; auto. intros k Hk Dk Ne. apply v_dl0; auto. intros; apply Ne; lia. Qed.
Lemma mv_scope a b s s' : mv a b s s' -> s_scope s' = s_scope s. Proof. intros H. exact (f_equal s_scope (v_same _ _ _ _ H)). Qed.
Lemma mv_stop a b s s' : mv a b s s' -> s_stop s' = s_stop s. Proof. intros H. exact (f_equal s_stop (v_same _ _ _ _ H)). Qed.
Lemma mv_pc a b s s' : mv a b s s' -> s_pc s' = s_pc s. Proof. intros H. exact (f_equal s_pc (v_same _ _ _ _ H)). Qed.
Lemma mv_errs a b s s' : mv a b s s' -> s_errs s' = s_errs s. Proof. intros H. exact (f_equal s_errs (v_same _ _ _ _ H)). Qed.
Lemma mv_ety a b s s' : mv a b s s' -> s_ety s' = s_ety s. Proof. intros H. exact (f_equal s_ety (v_same _ _ _ _ H)). Qed.


Lemma dl_none s k : tab s -> valids k -> dl s k = None -> dict_search (s_dict s) k = None.
Proof. intros T Hk D. pose proof (dl_search s k (proj1 (proj1 T)) Hk) as X. destruct (dict_search (s_dict s) k); [|reflexivity]. destruct X as (y & _ & X). congruence. Qed.
Lemma fix_param o o' y : option_map yfix o = option_map yfix o' -> o = Some y -> exists y', o' = Some y' /\ y_value y' = y_value y /\ y_init y' = y_init y /\ y_mparam y' = y_mparam y.
Proof. intros E ->. destruct o' as [y'|]; [|discriminate]. exists y'. cbn in E. unfold yfix, ycore in E. injection E; intros. auto. Qed.
Lemma mv_evo i s s' : tab s -> owned s -> evo s s' -> s_errs s' = s_errs s -> s_dict s' = s_dict s -> mv i i s s'.
Proof.
  intros T Ow E Er Ed. constructor.
  - apply (e_tab _ _ E).
  - apply (k_own _ _ (e_keep _ _ E)), Ow.
  - rewrite (e_same _ _ E) at 1. rewrite Er.
    replace (s_mpi s') with (s_mpi s) by (symmetry; exact (f_equal s_mpi (e_same _ _ E))).
    replace (s_maxmp s') with (s_maxmp s) by (symmetry; exact (f_equal s_maxmp (e_same _ _ E))).
    destruct s; reflexivity.
  - intros C u p e _. exact (rep_evo C u s s' p e E).
  - intros p x N K. destruct (e_node _ _ E _ _ N) as (x' & N' & X). inversion X; subst; auto; discriminate.
  - intros k Hk Dk _. exact (e_dl _ _ E k Hk Dk).
  - intros j Hj P y Dy. pose proof (param_name_valid j Hj) as Vj. destruct (dl s (param_name j)) as [y0|] eqn:D0.
    + assert (X := e_dl _ _ E (param_name j) Vj ltac:(congruence)). destruct (fix_param _ _ _ X Dy) as (y1 & Z1 & _ & _ & Z2).
      rewrite <- Z2. apply P. exact Z1.
    + apply dl_none in D0; auto. unfold dl, dlookup in Dy. cbn [fst snd] in Dy. rewrite Ed, D0 in Dy. discriminate.
Qed.
Lemma meaning_none s n : s_scope s = None -> meaning s n = core (dl s n).
Proof. intros E. unfold meaning, resolve. rewrite E. reflexivity. Qed.
Lemma core_fix o o' : option_map yfix o = option_map yfix o' -> core o = core o'.
Proof. destruct o, o'; intros H; try discriminate; auto. cbn in *. unfold yfix in H. congruence. Qed.
(** records keep what they say, or belong to no plain name *)
Lemma mv_recs lo i s s' : lo < i -> 0 <= i -> tab s' -> owned s' -> s_scope s = None -> s_nodes s' = s_nodes s ->
  s' = set_nodes (s_nodes s') (set_syms (s_syms s') (set_dict (s_dict s') (set_msgs (s_msgs s') (set_mpi (s_mpi s') (set_maxmp (s_maxmp s') s))))) ->
  (forall p n a y, nth_error (s_nodes s) p = Some (mkNode (KId n (Some a)) []) -> plain n -> nth_error (s_syms s) a = Some y ->
     exists y', nth_error (s_syms s') a = Some y' /\ ycore y' = ycore y) ->
  (forall k, valids k -> fk k <> fk (param_name i) -> option_map yfix (dl s' k) = option_map yfix (dl s k)) -> (is_param s i -> is_param s' i) -> mv lo i s s'.
Proof.
  intros L Hi T Ow Sc Nn Sm Rc D Pi. pose proof (f_equal s_scope Sm) as Sc'. cbn in Sc'. constructor; auto.
  - intros C u p e P R.
    induction R as [p v N|p v N|p n a y N Di Hy Ey|p n Eu N Pl Ey|p o q e N U Lt R IH|p o q1 q2 e1 e2 N U L1 L2 R1 IH1 R2 IH2];
      pose proof N as N'; rewrite <- Nn in N'.
    + econstructor; eauto.
    + econstructor; eauto.
    + destruct (Rc _ _ _ _ N (P n ltac:(cbn; auto)) Hy) as (y' & Y1 & Y2). eapply RepCached; eauto. congruence.
    + eapply RepName; eauto. rewrite meaning_none in Ey |- * by congruence. rewrite <- Ey. apply core_fix.
      apply D; [apply Pl|]. apply plain_param; auto.
    + eapply RepUn; eauto.
    + cbn [names] in P. eapply RepBin; eauto; [apply IH1|apply IH2]; intros; apply P, in_or_app; auto.
  - intros p x N _. congruence.
  - intros k Hk _ Ne. apply D; auto. apply Ne. lia.
  - intros j Hj P. destruct (Z.eq_dec j i) as [->|Hn]; [apply Pi, P|]. intros y Dy.
    assert (X := D (param_name j) (param_name_valid j Hj) ltac:(intros Z; apply Hn, param_name_inj; auto)).
    destruct (fix_param _ _ _ X Dy) as (y1 & Z1 & _ & _ & Z2). rewrite <- Z2. apply P. exact Z1.
Qed.

Lemma eval_arg C u e v F s p : (height e <= F)%nat -> tab s -> s_stop s = false -> s_scope s = None -> known_names s e ->
  rep C u s p e -> known C (s_pc s) e v ->
  exists s', expand F p s = Ok v s' /\ evo s s' /\ s_errs s' = s_errs s /\ s_dict s' = s_dict s.
Proof.
  intros HF T St Sc Kn R [K Eg]. pose proof (eval_rep C u e F s p HF T St R) as E. rewrite K in E. cbn [evaluates] in E.
  destruct E as (s' & E1 & E2 & E3 & _). exists s'. split; [exact E1|]. split; [exact E2|]. split; [lia|].
  pose proof (eval_dict C u e F s p HF T St Sc Kn R) as X. unfold dsame in X. rewrite E1 in X. apply X.
Qed.
Lemma evo_stop s s' : evo s s' -> s_stop s' = s_stop s. Proof. intros H. exact (f_equal s_stop (e_same _ _ H)). Qed.
Lemma evo_pc s s' : evo s s' -> s_pc s' = s_pc s. Proof. intros H. exact (f_equal s_pc (e_same _ _ H)). Qed.
Lemma evo_scope s s' : evo s s' -> s_scope s' = s_scope s. Proof. intros H. exact (f_equal s_scope (e_same _ _ H)). Qed.
Lemma ops_arg C u e v F s p x : (height e <= F)%nat -> tab s -> s_stop s = false -> s_scope s = None -> known_names s e ->
  rep C u s p e -> known C (s_pc s) e v -> nth_error (s_nodes s) p = Some x ->
  exists w s', expand_all (expand F) (n_ops x) 0 s = Ok w s' /\ evo s s' /\ s_errs s' = s_errs s /\ s_dict s' = s_dict s.
Proof.
  intros HF T St Sc Kn R K N.
  inversion R as [p0 v0 Np|p0 v0 Np|p0 n a y Np D Hy Ey|p0 n Eu Np P Ey|p0 o q e0 Np U Lt R0|p0 o q1 q2 e1 e2 Np B L1 L2 R1 R2]; subst;
    rewrite Np in N; injection N as <-; cbn [n_ops expand_all].
  1-4: exists 0, s; split; [reflexivity|]; split; [apply evo_refl, T|split; reflexivity].
  - destruct (known_un _ _ _ _ _ K) as (w & Kw). cbn [height] in HF.
    destruct (eval_arg C u e0 w F s q ltac:(lia) T St Sc Kn R0 Kw) as (s1 & E1 & H1 & O1 & Q1).
    exists w, s1. unfold bind. rewrite E1. auto.
  - destruct (known_bin _ _ _ _ _ _ K) as (w1 & w2 & K1 & K2). cbn [height] in HF.
    assert (Kn1 : known_names s e1) by (intros n Hn; apply Kn; cbn [names]; apply in_or_app; auto).
    assert (Kn2 : known_names s e2) by (intros n Hn; apply Kn; cbn [names]; apply in_or_app; auto).
    destruct (eval_arg C u e1 w1 F s q1 ltac:(lia) T St Sc Kn1 R1 K1) as (s1 & E1 & H1 & O1 & Q1).
    destruct (eval_arg C u e2 w2 F s1 q2 ltac:(lia) (e_tab _ _ H1) ltac:(rewrite (evo_stop _ _ H1); exact St) ltac:(rewrite (evo_scope _ _ H1); exact Sc)
       (known_names_evo _ _ _ H1 Kn2) (rep_evo _ _ _ _ _ _ H1 R2) ltac:(rewrite (evo_pc _ _ H1); exact K2)) as (s2 & E2 & H2 & O2 & Q2).
    exists w2, s2. unfold bind. rewrite E1, E2. split; [reflexivity|]. split; [exact (evo_trans _ _ _ H1 H2)|split; congruence].
Qed.
Lemma rep_kind C u s p e x : rep C u s p e -> nth_error (s_nodes s) p = Some x ->
  is_kind_con_id_lab_opr (n_kind x) = true /\ (forall o, n_kind x = KOpr o -> is_un o || is_bin o = true).
Proof. intros R N. inversion R; subst; match goal with H : nth_error _ p = Some _ |- _ => rewrite H in N; injection N as <- end; cbn; (split; [reflexivity|]); intros o0 E; try discriminate; injection E as <-; rewrite ?H0, ?orb_true_r; auto. Qed.

(** writing the record of a parameter *)
Lemma mv_set lo i a y Y s : lo < i -> 0 <= i -> tab s -> owned s -> s_scope s = None -> dict_search (s_dict s) (param_name i) = Some a ->
  nth_error (s_syms s) a = Some y -> y_mparam y = true -> y_mparam Y = true ->
  mv lo i s (set_syms (upd a Y (s_syms s)) s) /\ dl (set_syms (upd a Y (s_syms s)) s) (param_name i) = Some Y.
Proof.
  intros L Hi T Ow Sc Sa Ya My MY. pose proof (param_name_valid i Hi) as Vi.
  assert (La : (a < length (s_syms s))%nat) by (apply nth_error_Some; congruence).
  pose proof (dl_upd s (param_name i) a Y (proj1 T) Vi Sa La) as D. cbv zeta in D.
  split.
  - destruct T as (T0 & Sg & Hsc). apply mv_recs; auto.
    + split; [split; [apply WF_upd; apply T0|apply T0]|]. split; [|exact Hsc].
      intros k Hk. unfold single. rewrite recs_len_upd. apply Sg; auto.
    + intros _ p n b l N P. cbn [s_nodes set_syms] in N. destruct (Ow Sc p n b l N P) as (O1 & O2 & O3).
      cbn [s_syms s_dict set_syms]. rewrite upd_length. split; [exact O1|]. split; [|exact O3].
      rewrite D by apply P. destruct (list_eq_dec Z.eq_dec (fk n) (fk (param_name i))); [discriminate|exact O2].
    + intros p n b z N P Hb. cbn [s_syms set_syms]. assert (a <> b).
      { intros <-. destruct (Ow Sc p n a _ N P) as (_ & _ & O3). apply (plain_param n i P Hi). symmetry. apply O3; auto. }
      rewrite nth_upd_other by auto. eauto.
    + intros k Hk Ek. rewrite D by auto. destruct (list_eq_dec Z.eq_dec (fk k) (fk (param_name i))); [contradiction|reflexivity].
    + intros _ z Dz. rewrite D in Dz by auto. destruct (list_eq_dec Z.eq_dec (fk (param_name i)) (fk (param_name i))); [congruence|contradiction].
  - rewrite D by auto. destruct (list_eq_dec Z.eq_dec (fk (param_name i)) (fk (param_name i))); [reflexivity|contradiction].
Qed.
Lemma write_param a v y s : nth_error (s_syms s) a = Some y -> y_mparam y = true -> 0 <= v <= 65535 ->
  (set_symbol_value a v ;;; y <- sym_get a ;; sym_set a (y_set_init true y)) s =
    Ok tt (set_syms (upd a (y_set_init true (y_set_value v y)) (s_syms s)) s).
Proof.
  intros Ya My V. destruct (set_symbol_value_spec a v s y Ya) as (s' & E & C). unfold bind at 1. rewrite E.
  assert (La : (a < length (s_syms s))%nat) by (apply nth_error_Some; congruence).
  destruct C as [(-> & C)|[(_ & C1 & C2)|(C1 & C2 & ->)]]; [|tauto|].
  - unfold sym_get, gets, bind. rewrite Ya. unfold ret, sym_set, modify. subst v. destruct y; reflexivity.
  - rewrite My. cbn [orb]. cbv zeta. unfold sym_get, gets, bind. cbn [s_syms set_syms]. rewrite nth_upd_same by exact La.
    unfold ret, sym_set, modify. cbn [s_syms set_syms]. rewrite upd_upd. destruct s; reflexivity.
Qed.

Definition passed (s : state) (i v : Z) : Prop :=
  exists y, dl s (param_name i) = Some y /\ y_value y = v /\ y_init y = true /\ y_mparam y = true.
Lemma elem_bind C u e v F s p i l sp : (height e <= F)%nat -> tab s -> owned s -> s_stop s = false -> s_scope s = None -> s_ety s = EtMacro ->
  s_mpi s = i -> 0 <= i -> known_names s e -> rep C u s p e -> known C (s_pc s) e v -> 0 <= v <= 65535 ->
  is_param s (i + 1) ->
  exists a s', expr_list (expand F) (p :: l) sp s = expr_list (expand F) l (Some a) s' /\ mv i (i + 1) s s' /\
    s_mpi s' = i + 1 /\ s_maxmp s' = Z.max (s_maxmp s) (i + 1) /\ passed s' (i + 1) v.
Proof.
  intros HF T Ow St Sc Et Mi Hi Kn R K V Hp.
  assert (Nx : exists x, nth_error (s_nodes s) p = Some x) by (inversion R; eauto). destruct Nx as [x N].
  destruct (rep_kind _ _ _ _ _ _ R N) as [Kx Ko].
  rewrite (step_one _ _ _ _ _ _ N) by (intros E; specialize (Ko _ E); discriminate).
  destruct (ops_arg C u e v F s p x HF T St Sc Kn R K N) as (w & s1 & E1 & H1 & O1 & Q1).
  unfold bind at 1. rewrite E1. unfold bind at 1, gets at 1. rewrite (f_equal s_ety (e_same _ _ H1) : s_ety s1 = s_ety s), Et.
  destruct (e_node _ _ H1 _ _ N) as (x1 & N1 & _). unfold bind at 1, node_get, bind at 1, gets at 1. rewrite N1. unfold ret at 1.
  pose proof (rep_evo _ _ _ _ _ _ H1 R) as R1. destruct (rep_kind _ _ _ _ _ _ R1 N1) as [Kx1 _].
  unfold elem_macro. rewrite Kx1.
  pose proof (mv_evo i _ _ T Ow H1 O1 Q1) as V1.
  set (s2 := set_maxmp (Z.max (s_maxmp s) (i + 1)) (set_mpi (i + 1) s1)).
  assert (V2 : mv i (i + 1) s1 s2).
  { apply mv_recs; try lia; try reflexivity.
    - apply (v_tab _ _ _ _ V1).
    - intros S0 p0 n a l0 N0 P0. exact (v_own _ _ _ _ V1 S0 p0 n a l0 N0 P0).
    - rewrite (mv_scope _ _ _ _ V1). exact Sc.
    - intros. eexists. split; [eassumption|reflexivity].
    - exact (fun H => H). }
  assert (V12 : mv i (i + 1) s s2) by (eapply mv_trans; [|exact V1|exact V2]; lia).
  assert (A1 : forall B (k : Z -> Z -> M B), (modify (fun s0 => set_mpi (s_mpi s0 + 1) s0) ;;; i0 <- gets s_mpi ;; mx <- gets s_maxmp ;;
            when (mx <? i0) (modify (set_maxmp i0)) ;;; k i0 mx) s1 = k (i + 1) (s_maxmp s) s2).
  { intros B k. unfold bind, modify, gets, when, ret. cbn [s_mpi set_mpi s_maxmp].
    rewrite (f_equal s_mpi (e_same _ _ H1) : s_mpi s1 = s_mpi s), Mi, (f_equal s_maxmp (e_same _ _ H1) : s_maxmp s1 = s_maxmp s).
    destruct (s_maxmp s <? i + 1) eqn:Lm.
    - unfold s2. rewrite Z.max_r by lia. reflexivity.
    - f_equal. unfold s2. rewrite Z.max_l by lia.
      rewrite <- (f_equal s_maxmp (e_same _ _ H1) : s_maxmp s1 = s_maxmp s). destruct s1; reflexivity. }
  destruct (add_param (i + 1) s2) as (a & y & s3 & E3 & S3 & T3 & K3 & D3 & Y3 & M3 & Rc3 & Dl3); try lia.
  { apply (v_tab _ _ _ _ V2). }
  { rewrite (mv_scope _ _ _ _ V12). exact Sc. }
  { intros z Dz. exact (v_par _ _ _ _ V1 (i + 1) ltac:(lia) Hp z Dz). }
  assert (Sc3 : s_scope s3 = None) by (rewrite S3; cbn; rewrite (f_equal s_scope (e_same _ _ H1) : s_scope s1 = s_scope s); exact Sc).
  assert (V3 : mv i (i + 1) s2 s3).
  { apply mv_recs; auto; try lia.
    - apply (k_own _ _ K3), (v_own _ _ _ _ V2).
    - rewrite (mv_scope _ _ _ _ V12). exact Sc.
    - rewrite S3. reflexivity.
    - rewrite S3 at 1. rewrite (f_equal s_nodes S3 : s_nodes s3 = s_nodes s2), (f_equal s_msgs S3 : s_msgs s3 = s_msgs s2),
        (f_equal s_mpi S3 : s_mpi s3 = s_mpi s2), (f_equal s_maxmp S3 : s_maxmp s3 = s_maxmp s2). destruct s2; reflexivity.
    - intros _ z Dz. unfold dl, dlookup in Dz. cbn [fst snd] in Dz. rewrite D3, Y3 in Dz. congruence. }
  pose proof (v_rep _ _ _ _ V3 _ _ _ _ (fun n Hn => proj1 (Kn n Hn)) (v_rep _ _ _ _ V2 _ _ _ _ (fun n Hn => proj1 (Kn n Hn)) R1)) as R3.
  assert (Kn3 : known_names s3 e).
  { intros n Hn. destruct (known_names_evo _ _ _ H1 Kn n Hn) as [P D]. split; [exact P|].
    apply (same_some yfix _ (dl s2 n)); [apply Dl3; [apply P|apply plain_param; [exact P|lia]]|exact D]. }
  assert (Pc3 : s_pc s3 = s_pc s) by (rewrite (mv_pc _ _ _ _ V3), (mv_pc _ _ _ _ V12); reflexivity).
  assert (St3 : s_stop s3 = false) by (rewrite (mv_stop _ _ _ _ V3), (mv_stop _ _ _ _ V12); exact St).
  destruct (eval_arg C u e v F s3 p HF T3 St3 Sc3 Kn3 R3 ltac:(rewrite Pc3; exact K)) as (s4 & E4 & H4 & O4 & Q4).
  assert (Y4 : exists y4, nth_error (s_syms s4) a = Some y4 /\ y_mparam y4 = true).
  { destruct (e_rec _ _ H4 _ _ Y3) as (y4 & Z1 & Z2). exists y4. split; [exact Z1|]. unfold ycore in Z2. congruence. }
  destruct Y4 as (y4 & Y4 & M4).
  pose proof (mv_evo (i + 1) _ _ T3 (v_own _ _ _ _ V3) H4 O4 Q4) as V4.
  destruct (mv_set i (i + 1) a y4 (y_set_init true (y_set_value v y4)) s4) as [V5 D5]; auto; try lia.
  { apply (v_tab _ _ _ _ V4). } { apply (v_own _ _ _ _ V4). } { rewrite (evo_scope _ _ H4). exact Sc3. } { rewrite Q4. exact D3. }

  set (s5 := set_syms (upd a (y_set_init true (y_set_value v y4)) (s_syms s4)) s4) in *.
  exists a, s5. split.
  { unfold bind at 1. rewrite (A1 (bool * option nat)%type). unfold bind at 1. rewrite E3. unfold bind at 1. rewrite E4.
    pose proof (write_param a v y4 s4 Y4 M4 V) as W. fold s5 in W. unfold bind at 1 in W. unfold bind at 1.
    destruct (set_symbol_value a v s4) as [[] s6| | |]; try discriminate. unfold bind at 1 in W. unfold bind at 1.
    destruct (sym_get a s6) as [y6 s7| | |]; try discriminate. unfold bind at 1. rewrite W. reflexivity. }
  split.
  { apply (mv_weak i i (i + 1) (i + 1)); try lia.
    constructor.
    - apply (v_tab _ _ _ _ V5).
    - apply (v_own _ _ _ _ V5).
    - rewrite (v_same _ _ _ _ V5) at 1. rewrite (v_same _ _ _ _ V4) at 1. rewrite (v_same _ _ _ _ V3) at 1. rewrite (v_same _ _ _ _ V12) at 1. reflexivity.
    - intros. apply (v_rep _ _ _ _ V5); auto. apply (v_rep _ _ _ _ V4); auto. apply (v_rep _ _ _ _ V3); auto. apply (v_rep _ _ _ _ V12); auto.
    - intros. apply (v_node _ _ _ _ V5); auto. apply (v_node _ _ _ _ V4); auto. apply (v_node _ _ _ _ V3); auto. apply (v_node _ _ _ _ V12); auto.
    - intros k Hk Dk Ne. pose proof (v_dl _ _ _ _ V12 k Hk Dk Ne) as Z1. assert (Dk2 := same_some _ _ _ Z1 Dk).
      pose proof (v_dl _ _ _ _ V3 k Hk Dk2 Ne) as Z2. assert (Dk3 := same_some _ _ _ Z2 Dk2).
      pose proof (v_dl _ _ _ _ V4 k Hk Dk3 ltac:(intros; lia)) as Z3. assert (Dk4 := same_some _ _ _ Z3 Dk3).
      rewrite (v_dl _ _ _ _ V5 k Hk Dk4 Ne). congruence.
    - intros. apply (v_par _ _ _ _ V5); auto. apply (v_par _ _ _ _ V4); auto. apply (v_par _ _ _ _ V3); auto. apply (v_par _ _ _ _ V12); auto. }
  assert (Mp : s_mpi s5 = i + 1 /\ s_maxmp s5 = Z.max (s_maxmp s) (i + 1)).
  { change (s_mpi s4 = i + 1 /\ s_maxmp s4 = Z.max (s_maxmp s) (i + 1)).
    rewrite (f_equal s_mpi (e_same _ _ H4) : s_mpi s4 = s_mpi s3), (f_equal s_maxmp (e_same _ _ H4) : s_maxmp s4 = s_maxmp s3).
    rewrite (f_equal s_mpi S3 : s_mpi s3 = s_mpi s2), (f_equal s_maxmp S3 : s_maxmp s3 = s_maxmp s2). split; reflexivity. }
  split; [apply Mp|]. split; [apply Mp|]. eexists. split; [exact D5|]. destruct y4; cbn in *. auto.
Qed.
(** ** The argument list *)
Definition arg (C : cstr -> core_t) (s : state) (i : item) (v : Z) : Prop :=
  match i with IExpr e => known_names s e /\ known C (s_pc s) e v /\ 0 <= v <= 65535 | IStr _ => False end.
Lemma arg_mv C a b s s' i v : 0 <= a -> mv a b s s' -> arg C s i v -> arg C s' i v.
Proof.
  intros Ha H. destruct i as [e|]; [|auto]. cbn [arg]. rewrite (mv_pc _ _ _ _ H). intros (K & R). split; [|exact R].
  intros n Hn. destruct (K n Hn) as [P D]. split; [exact P|].
  apply (same_some yfix _ (dl s n)); [|exact D]. apply (v_dl _ _ _ _ H); [apply P|exact D|]. intros i Hi. apply plain_param; auto. lia.
Qed.
Lemma irep_mv C a b s s' q i v : mv a b s s' -> arg C s i v -> irep C true s q i -> irep C true s' q i.
Proof.
  intros H A R. destruct i as [e|]; [|contradiction]. cbn [irep] in *. apply (v_rep _ _ _ _ H); [|exact R].
  intros n Hn. apply (proj1 A n Hn).
Qed.
Lemma passed_mv a b s s' i v : 0 <= i <= a -> mv a b s s' -> passed s i v -> passed s' i v.
Proof.
  intros Hi H (y & D & Y1 & Y2 & Y3).
  assert (X := v_dl _ _ _ _ H (param_name i) (param_name_valid i ltac:(lia)) ltac:(congruence)
     ltac:(intros j Hj Z; apply param_name_inj in Z; lia)). symmetry in X.
  destruct (fix_param _ _ _ X D) as (y' & Z1 & Z2 & Z3 & Z4). exists y'. repeat split; congruence.
Qed.
Lemma bind_args C l p : forall F s vs, lrep C s p l -> (list_fuel l <= F)%nat -> tab s -> owned s -> s_stop s = false -> s_scope s = None ->
  s_ety s = EtMacro -> s_mpi s = 0 -> Forall2 (arg C s) l vs -> (forall n, 1 <= n <= Z.of_nat (length l) -> is_param s n) ->
  exists s', expand F p s = Ok 0 s' /\ mv 0 (Z.of_nat (length l)) s s' /\ s_mpi s' = Z.of_nat (length l) /\
    s_maxmp s' = Z.max (s_maxmp s) (Z.of_nat (length l)) /\ forall i v, nth_error vs i = Some v -> passed s' (1 + Z.of_nat i) v.
Proof.
  intros F s vs L. revert F vs.
  induction L as [p q i N I|p a q l i N L IH I]; intros F vs HF T Ow St Sc Et Mi A Hp.
  - destruct F as [|F]; [unfold list_fuel in HF; cbn in HF; lia|]. rewrite (expand_list F s p [q] St N).
    inversion A as [|? v ? vs' A1 A2]; subst. inversion A2; subst. destruct i as [e|]; [|contradiction]. cbn [irep] in I.
    destruct A1 as (Kn & K & V).
    assert (HF' : (height e <= F)%nat) by (unfold list_fuel in HF; cbn in HF; lia).
    destruct (elem_bind C true e v F s q 0 [] None HF' T Ow St Sc Et Mi ltac:(lia) Kn I K V (Hp 1 ltac:(cbn; lia))) as (h & s' & E & M & P1 & P2 & P3).
    exists s'. rewrite E. split; [reflexivity|]. split; [exact M|]. split; [exact P1|]. split; [exact P2|].
    intros [|j] w Hw; [|destruct j; discriminate]. injection Hw as <-. exact P3.
  - destruct (list_fuel_snoc l i) as [F1 F2]. destruct F as [|F]; [lia|].
    rewrite (expand_list F s p [a; q] St N). destruct (lrep_node _ _ _ _ L) as [x Nx]. rewrite (expr_list_sub _ _ _ _ _ _ Nx).
    apply Forall2_app_inv_l in A. destruct A as (vs1 & vs2 & A1 & A2 & ->). inversion A2 as [|? v ? vs' A3 A4]; subst. inversion A4; subst.
    rewrite app_length in Hp |- *. cbn [length] in *.
    destruct (IH F vs1 ltac:(lia) T Ow St Sc Et Mi A1 ltac:(intros; apply Hp; lia)) as (s1 & E1 & M1 & P1 & P2 & P3).
    unfold bind. rewrite E1.
    pose proof (irep_mv _ _ _ _ _ _ _ _ M1 A3 I) as I1.
    destruct i as [e|]; [|contradiction]. cbn [irep] in I1.
    destruct (arg_mv C _ _ _ _ _ _ (Z.le_refl 0) M1 A3) as (Kn & K & V).
    assert (HF' : (height e <= F)%nat) by (cbn in F2; lia).
    destruct (elem_bind C true e v F s1 q (Z.of_nat (length l)) [] None HF' (v_tab _ _ _ _ M1) (v_own _ _ _ _ M1)
      ltac:(rewrite (mv_stop _ _ _ _ M1); exact St) ltac:(rewrite (mv_scope _ _ _ _ M1); exact Sc) ltac:(rewrite (mv_ety _ _ _ _ M1); exact Et) P1
      ltac:(lia) Kn I1 K V ltac:(apply (v_par _ _ _ _ M1); [lia|apply Hp; lia])) as (h & s' & E & M & Q1 & Q2 & Q3).
    exists s'. rewrite E. split; [reflexivity|]. replace (Z.of_nat (length l + 1)) with (Z.of_nat (length l) + 1) by lia.
    split; [eapply mv_trans; [|exact M1|exact M]; lia|]. split; [exact Q1|]. split; [lia|].
    assert (Ln : length l = length vs1) by (clear - A1; induction A1; cbn; congruence). intros j w Hw. destruct (Nat.lt_ge_cases j (length vs1)) as [Lj|Lj].
    + rewrite nth_error_app1 in Hw by exact Lj. eapply passed_mv; [|exact M|apply P3, Hw]. lia.
    + rewrite nth_error_app2 in Hw by exact Lj. destruct (j - length vs1)%nat as [|k] eqn:Ej; [|destruct k; discriminate].
      injection Hw as <-. replace (1 + Z.of_nat j) with (Z.of_nat (length l) + 1) by lia. exact Q3.
Qed.

(** ** The heap of records only grows *)
Definition Rheap (s s' : state) : Prop := (length (s_syms s) <= length (s_syms s'))%nat /\
  s_final s' = s_final s /\ s_opened s' = s_opened s /\ (s_org_spec s = true -> s_org_spec s' = true).
Lemma Rheap_closed : closed Rheap.
Proof.
  constructor; unfold Rheap; intros; cbn [s_syms s_final s_opened s_org_spec set_syms set_nodes]; rewrite ?upd_length; auto 6; try tauto.
  - intuition (try congruence; lia).
  - apply sym_insert_inv in H. destruct H as (d & h & y' & E & _ & ->). destruct (insert_prefix _ _ _ _ _ _ _ E) as [l ->].
    cbn [s_syms s_final s_opened s_org_spec set_syms set_dict]. rewrite upd_length, app_length. repeat split; auto. lia.
  - destruct (nth_error (s_syms s) a) as [y|] eqn:Y; [|unfold set_symbol_value, sym_get, gets, bind in H; rewrite Y in H; discriminate].
    destruct (set_symbol_value_spec a v s y Y) as (s1 & E & D). rewrite E in H. injection H as <-.
    destruct D as [(-> & _)|[(-> & _)|(_ & _ & ->)]]; auto. cbv zeta.
    destruct (y_mparam y || y_var y); cbn [s_syms s_final s_opened s_org_spec set_syms set_changed]; rewrite upd_length; auto.
  - destruct m; cbn; auto.
Qed.
Lemma heap_grows F p s w s' : expand F p s = Ok w s' -> (length (s_syms s) <= length (s_syms s'))%nat.
Proof. intros E. pose proof (expand_prs Rheap Rheap_closed F p s) as X. unfold prs2 in X. rewrite E in X. apply X. Qed.

(** ** Restoring the parameters changes records only *)
Lemma restore_frame l : forall n s s', (forall i, n <= i < n + Z.of_nat (length l) -> param_ok s i) -> table_ok s -> 0 <= n ->
  Forall (fun v => 0 <= v <= 65535) l -> restore_params l n s = Ok tt s' -> s' = set_syms (s_syms s') s.
Proof.
  induction l as [|v l IH]; intros n s s' P T Hn Fl E; cbn [restore_params] in E.
  - injection E as <-. destruct s; reflexivity.
  - inversion Fl as [|? ? Fv Fl']; subst. cbn [length] in P. destruct (P n ltac:(lia)) as (y & Py & My).
    unfold sym_search, bind, gets in E. pose proof (dl_search s (param_name n) (proj1 T) (param_name_valid n Hn)) as D.
    destruct (dict_search (s_dict s) (param_name n)) as [a|] eqn:Sa; [|congruence].
    destruct D as (y0 & D1 & D2). assert (y0 = y) by congruence. subst y0.
    destruct (set_param n v s a y T Hn Sa D1 My Fv) as (s1 & E1 & T1 & _ & _ & _ & _ & X1 & X2). rewrite E1 in E.
    assert (S1 : s1 = set_syms (s_syms s1) s).
    { destruct (set_symbol_value_spec a v s y D1) as (s2 & E2 & C). rewrite E1 in E2. injection E2 as <-.
      destruct C as [(-> & _)|[(_ & _ & C)|(_ & _ & ->)]]; [destruct s; reflexivity|tauto|]. rewrite My. reflexivity. }
    assert (P1 : forall i, n + 1 <= i < n + 1 + Z.of_nat (length l) -> param_ok s1 i).
    { intros i Hi. destruct (P i ltac:(lia)) as (z & Z1 & Z2). exists z. split; [|exact Z2].
      rewrite X2; [exact Z1|apply param_name_valid; lia|]. intros Z. apply param_name_inj in Z; lia. }
    rewrite (IH (n + 1) s1 s' P1 T1 ltac:(lia) Fl' E). cbn [s_syms set_syms]. rewrite S1 at 1. reflexivity.
Qed.

(** ** The call *)
Lemma found_entry name e s : dict_search (s_mdict s) name = Some e -> create_macro_entry name s = Ok e s.
Proof. intros D. unfold create_macro_entry, bind, gets. rewrite D. reflexivity. Qed.

(** what the parameters held before the call *)
Definition held (s : state) (l : list Z) : Prop := length l = Z.to_nat (s_maxmp s) /\
  forall i, (i < length l)%nat -> pval s (1 + Z.of_nat i) = nth_error l i.
Lemma push_ok s : table_ok s -> 0 <= s_maxmp s -> (forall n, 1 <= n <= s_maxmp s -> exists v, pval s n = Some v /\ 0 <= v <= 65535) ->
  exists l, push_macro_params s = Ok tt (set_mstack (l :: s_mstack s) s) /\ held s l /\ Forall (fun v => 0 <= v <= 65535) l.
Proof.
  intros T Hm P. unfold push_macro_params, bind, gets.
  destruct (param_values_spec (Z.to_nat (s_maxmp s)) 1 s T) as (l & E & L & V); [lia| |].
  { intros i Hi. destruct (P i) as (v & Pv & _); [lia|]. unfold pval in Pv. destruct (dl s (param_name i)); [discriminate|discriminate Pv]. }
  rewrite E. exists l. split; [reflexivity|]. split; [split; [exact L|intros; apply V; lia]|].
  apply Forall_forall. intros v Hv. apply In_nth_error in Hv. destruct Hv as (i & Hi).
  assert ((i < length l)%nat) by (apply nth_error_Some; congruence).
  destruct (P (1 + Z.of_nat i)) as (w & Pw & Rw); [lia|]. rewrite V in Pw by lia. congruence.
Qed.
Lemma pop_ok s l ms s3 : 0 <= s_maxmp s -> held s l -> Forall (fun v => 0 <= v <= 65535) l -> table_ok s3 -> s_mstack s3 = l :: ms ->
  (forall n, 1 <= n <= s_maxmp s -> param_ok s3 n) ->
  exists s4, pop_macro_params s3 = Ok tt s4 /\ s4 = set_syms (s_syms s4) (set_mstack ms s3) /\ table_ok s4 /\
    (forall n, 1 <= n <= s_maxmp s -> pval s4 n = pval s n) /\
    (forall k, valids k -> (forall n, 1 <= n <= s_maxmp s -> fk k <> fk (param_name n)) -> dl s4 k = dl s3 k).
Proof.
  intros Hm [L V] F T M P. unfold pop_macro_params, bind, gets, modify. rewrite M.
  destruct (restore_spec l 1 (set_mstack ms s3)) as (s4 & E & T4 & _ & _ & _ & V4 & O4); auto; try lia.
  { intros i Hi. apply P. lia. }
  exists s4. split; [exact E|]. split.
  { apply (restore_frame l 1 (set_mstack ms s3) s4); auto; try lia. intros i Hi. apply P. lia. }
  split; [exact T4|]. split.
  - intros n Hn. replace n with (1 + Z.of_nat (Z.to_nat (n - 1))) by lia. rewrite V4, V by lia. reflexivity.
  - intros k Hk Hne. rewrite O4; auto. intros i Hi. apply Hne. lia.
Qed.

(** the parameters a call finds *)
Definition params_ok (s : state) : Prop := 0 <= s_maxmp s /\ (forall n, 0 <= n -> is_param s n) /\
  forall n, 1 <= n <= s_maxmp s -> exists v, pval s n = Some v /\ 0 <= v <= 65535.
(** the state in which the body of macro [name], called the [n]th time, is expanded *)
Record entered_with (s s2 : state) (name : cstr) (n : Z) (vs : list Z) : Prop := mkEntered {
  w_tab : tab s2;
  w_own : owned s2;
  w_args : forall i v, nth_error vs i = Some v -> passed s2 (1 + Z.of_nat i) v;
  w_rest : forall k, valids k -> dl s k <> None -> (forall i, 1 <= i <= Z.of_nat (length vs) -> fk k <> fk (param_name i)) ->
             option_map yfix (dl s2 k) = option_map yfix (dl s k);
  w_max : s_maxmp s2 = Z.max (s_maxmp s) (Z.of_nat (length vs));
  w_label : s_label s2 = Some (macro_label name 8 n);
  w_stack : exists l, s_mstack s2 = l :: s_mstack s /\ held s l;
  w_same : s2 = set_nodes (s_nodes s2) (set_syms (s_syms s2) (set_dict (s_dict s2) (set_msgs (s_msgs s2) (set_mpi (s_mpi s2)
             (set_maxmp (s_maxmp s2) (set_ety (s_ety s2) (set_label (s_label s2) (set_mstack (s_mstack s2) s))))))))
}.
(** the body leaves the stack of parameters, the parameters and the counter of calls in order *)
Definition body_ok (s s2 s3 : state) (e : nat) (n' : Z) : Prop :=
  table_ok s3 /\ s_mstack s3 = s_mstack s2 /\ (forall k, 1 <= k <= s_maxmp s -> param_ok s3 k) /\ nth_error (s_mvals s3) e = Some n'.
(** the state after the call *)
Record left_with (s s3 s4 : state) (e : nat) (n' : Z) : Prop := mkLeft {
  l_params : forall k, 1 <= k <= s_maxmp s -> pval s4 k = pval s k;
  l_rest : forall k, valids k -> (forall n, 1 <= n <= s_maxmp s -> fk k <> fk (param_name n)) -> dl s4 k = dl s3 k;
  l_same : s4 = set_syms (s_syms s4) (set_mstack (s_mstack s) (set_label (s_label s) (set_mvals (upd e (n' + 1) (s_mvals s3)) s3)));
  l_tab : table_ok s4
}.

Theorem call_runs C name e n ym body q m params l vs F s :
  tab s -> owned s -> s_stop s = false -> s_scope s = None -> params_ok s ->
  plain name -> dl s name = Some ym -> y_macro ym = Some (s_gen s, body) ->
  dict_search (s_mdict s) name = Some e -> nth_error (s_mvals s) e = Some n ->
  nth_error (s_nodes s) q = Some (mkNode (KMacEx name m params) []) -> nth_error (s_nodes s) m = Some (mkNode (KMacId name None) []) ->
  match params with None => l = [] | Some a => lrep C s a l /\ (list_fuel l <= S F)%nat end -> Forall2 (arg C s) l vs ->
  exists s2, entered_with s s2 name n vs /\
    match expand F body s2 with
    | Ok w s3 => forall n', body_ok s s2 s3 e n' -> exists s4, expand (S (S F)) q s = Ok 0 s4 /\ left_with s s3 s4 e n'
    | Exit c s3 => expand (S (S F)) q s = Exit c s3
    | Ub u => expand (S (S F)) q s = Ub u
    | OutOfFuel => expand (S (S F)) q s = OutOfFuel
    end.
Proof.
  intros T Ow St Sc (Hm & Hip & Hpv) Pn Dn Mn De Ne Nq Nm Hl A.
  destruct (push_ok s (proj1 T) Hm Hpv) as (old & Ep & Hh & Hf).
  set (s0 := set_mpi 0 (set_ety EtMacro (set_mstack (old :: s_mstack s) s))).
  assert (T0 : tab s0) by exact T. assert (Ow0 : owned s0) by exact Ow.
  assert (H0 : hv0 s s0) by (apply hv0_frame; auto).
  assert (Len : length l = length vs) by (clear - A; induction A; cbn; congruence).
  assert (B : exists s1, match params with Some n => _ <- expand (S F) n ;; ret tt | None => ret tt end s0 = Ok tt s1 /\
     mv 0 (Z.of_nat (length vs)) s0 s1 /\ s_maxmp s1 = Z.max (s_maxmp s) (Z.of_nat (length vs)) /\
     forall i v, nth_error vs i = Some v -> passed s1 (1 + Z.of_nat i) v).
  { destruct params as [a|].
    - destruct Hl as [Lr Lf]. destruct (bind_args C l a (S F) s0 vs (lrep_hv _ _ _ _ _ H0 Lr) Lf T0 Ow0 St Sc eq_refl eq_refl) as (s1 & E1 & V1 & _ & P2 & P3).
      { clear - A. induction A; constructor; auto. }
      { intros; apply Hip; lia. }
      exists s1. unfold bind. rewrite E1. rewrite Len in V1, P2. auto.
    - subst l. cbn [length] in Len. destruct vs; [|discriminate]. exists s0. split; [reflexivity|].
      split; [apply mv_evo; auto; apply evo_refl; auto|]. split; [cbn; lia|]. intros [|]; discriminate. }
  destruct B as (s1 & E1 & V1 & X1 & P1).
  assert (St1 : s_stop s1 = false) by (rewrite (mv_stop _ _ _ _ V1); exact St).
  assert (Sc1 : s_scope s1 = None) by (rewrite (mv_scope _ _ _ _ V1); exact Sc).
  set (lab4 := Some (macro_label name 4 n)). set (lab8 := Some (macro_label name 8 n)).
  set (s1' := set_label lab8 s1).
  assert (Nm1 : nth_error (s_nodes s1) m = Some (mkNode (KMacId name None) [])) by (apply (v_node _ _ _ _ V1); auto).
  assert (Md : dict_search (s_mdict s1) name = Some e) by (rewrite (f_equal s_mdict (v_same _ _ _ _ V1) : s_mdict s1 = s_mdict s0); exact De).
  assert (Mv : nth_error (s_mvals s1) e = Some n) by (rewrite (f_equal s_mvals (v_same _ _ _ _ V1) : s_mvals s1 = s_mvals s0); exact Ne).
  assert (Dn1 : option_map yfix (dl s1 name) = option_map yfix (Some ym)).
  { rewrite <- Dn. apply (v_dl _ _ _ _ V1); [apply Pn|change (dl s name <> None); congruence|]. intros i Hi. apply plain_param; [exact Pn|lia]. }
  destruct (add_found name s1' (v_tab _ _ _ _ V1) Sc1 Pn) as (a & y & Ea & Ya & Sa & Da).
  { change (dl s1 name <> None). apply (same_some yfix _ (Some ym)); [exact Dn1|discriminate]. }
  change (dl s1 name = Some y) in Da. change (s_syms s1') with (s_syms s1) in *.
  assert (My : y_macro y = Some (s_gen s, body)) by (rewrite Da in Dn1; cbn in Dn1; unfold yfix in Dn1; congruence).
  assert (La : (a < length (s_syms s1))%nat) by (apply nth_error_Some; congruence).
  set (x2 := mkNode (KMacId name (Some a)) []).
  set (s2 := set_nodes (upd m x2 (s_nodes s1)) (set_syms (upd a (y_times_inc y) (s_syms s1)) s1')).
  destruct (direct_head _ (plain_direct _ Pn)) as [D1 D2].
  assert (N2 : nth_error (s_nodes s2) m = Some x2).
  { cbn [s_nodes set_nodes s2]. apply nth_upd_same. apply nth_error_Some. congruence. }
  (* the part of the call after the arguments *)
  assert (R : forall k : M Z, (_ <- expand (S F) m ;; k) (set_label lab4 s1) =
     match expand F body s2 with Ok w s3 => k (set_label lab4 s3) | Exit c s3 => Exit c s3 | Ub u => Ub u | OutOfFuel => OutOfFuel end).
  { intros k. unfold bind at 1. rewrite (expand_eq F m (set_label lab4 s1) _ St1 Nm1). cbn [x_node n_kind].
    unfold x_macro_id. unfold bind at 1. rewrite (found_entry name e (set_label lab4 s1) Md).
    unfold bind at 1, gets at 1. cbn [s_label set_label]. unfold bind at 1. unfold mval_get at 1, bind at 1, gets at 1. cbn [s_mvals set_label].
    rewrite Mv. unfold ret at 1. unfold bind at 1, modify at 1. change (set_label (Some (macro_label name 8 n)) (set_label lab4 s1)) with s1'.
    unfold bind at 1. unfold x_id. rewrite D1, D2. unfold bind at 1, ret at 1. unfold bind at 1 2. rewrite Ea.
    unfold bind at 1. unfold node_set at 1, modify at 1. cbn [n_ops s_nodes set_syms]. fold x2. change (s_nodes s1') with (s_nodes s1).
    fold s2. unfold ret at 1. unfold bind at 1, sym_get at 1, bind at 1, gets at 1.
    assert (Y2 : nth_error (s_syms s2) a = Some (y_times_inc y)) by (apply nth_upd_same, La).
    rewrite Y2. unfold ret at 1 2. unfold bind at 1, node_get at 1, bind at 1, gets at 1. rewrite N2. unfold ret at 1.
    cbn [n_kind x2]. unfold bind at 1, sym_get at 1, bind at 1, gets at 1. rewrite Y2. unfold ret at 1.
    change (y_macro (y_times_inc y)) with (y_macro y). rewrite My. unfold bind at 1, gets at 1.
    assert (G : s_gen s2 = s_gen s) by (change (s_gen s1 = s_gen s0); exact (f_equal s_gen (v_same _ _ _ _ V1))).
    rewrite G, Nat.eqb_refl. unfold bind at 1. destruct (expand F body s2) as [w s3|c s3|u|] eqn:Eb; try reflexivity.
    pose proof (heap_grows _ _ _ _ _ Eb) as Hg. unfold bind at 1, modify at 1. unfold bind at 1, sym_get at 1, bind at 1, gets at 1.
    cbn [s_syms set_label]. destruct (nth_error (s_syms s3) a) eqn:Z; [reflexivity|].
    apply nth_error_None in Z. cbn [s_syms s2 set_nodes set_syms] in Hg. rewrite upd_length in Hg. lia. }
  assert (Z : expand (S (S F)) q s = (_ <- expand (S F) m ;; n0 <- mval_get e ;; modify (fun s => set_mvals (upd e (n0 + 1) (s_mvals s)) s) ;;;
     modify (set_label (s_label s)) ;;; pop_macro_params ;;; ret 0) (set_label lab4 s1)).
  { rewrite (expand_eq (S F) q s _ St Nq). cbn [x_node n_kind]. unfold x_macro_ex. unfold bind at 1. rewrite (found_entry name e s De).
    unfold bind at 1. rewrite Ep. unfold bind at 1, modify at 1. unfold bind at 1, modify at 1. fold s0.
    unfold bind at 1. rewrite E1. unfold bind at 1, gets at 1. unfold bind at 1. unfold mval_get at 1, bind at 1, gets at 1. rewrite Mv. unfold ret at 1.
    unfold bind at 1, modify at 1. fold lab4.
    rewrite (f_equal s_label (v_same _ _ _ _ V1) : s_label s1 = s_label s0). reflexivity. }
  exists s2. split.
  - assert (Ev : mv (Z.of_nat (length vs)) (Z.of_nat (length vs)) s1' (set_syms (upd a (y_times_inc y) (s_syms s1)) s1')).
    { apply mv_evo; auto; [exact (v_tab _ _ _ _ V1)|exact (v_own _ _ _ _ V1)|]. apply (evo_bump a y s1' (v_tab _ _ _ _ V1) Ya). }
    constructor.
    + exact (v_tab _ _ _ _ Ev).
    + intros S2 p0 n0 a0 l0 N0 P0. apply (v_own _ _ _ _ Ev S2 p0 n0 a0 l0); [|exact P0]. cbn [s_nodes set_syms s2 set_nodes] in N0 |- *.
      destruct (Nat.eq_dec m p0) as [<-|Hn]; [rewrite nth_upd_same in N0; [discriminate|apply nth_error_Some; congruence]|].
      rewrite nth_upd_other in N0 by auto. exact N0.
    + intros i v Hv. assert (Lv : (i < length vs)%nat) by (apply nth_error_Some; congruence).
      exact (passed_mv (Z.of_nat (length vs)) (Z.of_nat (length vs)) _ _ (1 + Z.of_nat i) v ltac:(lia) Ev (P1 i v Hv)).
    + intros k Hk Dk Nk. assert (W1 := v_dl _ _ _ _ V1 k Hk Dk ltac:(intros; apply Nk; lia)).
      change (dl s0 k) with (dl s k) in W1. rewrite <- W1. apply (v_dl _ _ _ _ Ev k Hk); [|intros; lia].
      exact (same_some _ _ _ W1 Dk).
    + exact X1.
    + reflexivity.
    + exists old. split; [|exact Hh]. change (s_mstack s1 = old :: s_mstack s). rewrite (f_equal s_mstack (v_same _ _ _ _ V1) : s_mstack s1 = s_mstack s0). reflexivity.
    + replace (s_mstack s2) with (old :: s_mstack s) by (symmetry; exact (f_equal s_mstack (v_same _ _ _ _ V1))).
      replace (s_ety s2) with EtMacro by (symmetry; exact (f_equal s_ety (v_same _ _ _ _ V1))).
      unfold s2 at 1, s1'. rewrite (v_same _ _ _ _ V1) at 3. reflexivity.
  - destruct (expand F body s2) as [w s3|c s3|u|] eqn:Eb; try (rewrite Z, R; reflexivity).
    intros n' (T3 & M3 & P3 & V3). rewrite Z, R. unfold mval_get, bind at 1 2, gets. cbn [s_mvals set_label]. rewrite V3. unfold ret at 1.
    unfold bind at 1, modify at 1. unfold bind at 1, modify at 1. cbn [s_mvals set_label].
    set (s3' := set_label (s_label s) (set_mvals (upd e (n' + 1) (s_mvals s3)) (set_label lab4 s3))).
    assert (Ms : s_mstack s3' = old :: s_mstack s).
    { change (s_mstack s3 = old :: s_mstack s). rewrite M3. change (s_mstack s1 = old :: s_mstack s).
      rewrite (f_equal s_mstack (v_same _ _ _ _ V1) : s_mstack s1 = s_mstack s0). reflexivity. }
    destruct (pop_ok s old (s_mstack s) s3' Hm Hh Hf T3 Ms P3) as (s4 & E4 & S4 & T4 & Pv4 & D4).
    exists s4. split; [unfold bind; rewrite E4; reflexivity|]. constructor; auto.
Qed.
