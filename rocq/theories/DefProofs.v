(** Definitions: what "name = expression" and labels do to the symbol table. *)
From Coq Require Import String Lia.
From Verif Require Import Base BaseProofs Hash Dict DictProofs DictMore Str Opcodes OpcodesProofs Err State Sym Machine Build Pass
  GenX Gen Inv SymProofs Sem ExprProofs ListRel ExprMore OpProofs OpMore InstrProofs Colon.
Open Scope string_scope.
Open Scope list_scope.
Open Scope Z_scope.
Open Scope m_scope.

(** ** Changing one record *)
Lemma upd_upd {A} (x y : A) l : forall a, upd a x (upd a y l) = upd a x l.
Proof. induction l as [|z l IH]; intros [|a]; cbn; auto. f_equal. apply IH. Qed.
Lemma dl_upd s n a y : table_ok s -> valids n -> dict_search (s_dict s) n = Some a -> (a < length (s_syms s))%nat ->
  let s' := set_syms (upd a y (s_syms s)) s in
  forall k, valids k -> dl s' k = if list_eq_dec Z.eq_dec (fk k) (fk n) then Some y else dl s k.
Proof.
  intros T Vn Sn L s' k Vk. unfold dl, dlookup. cbn [fst snd s_dict s_syms set_syms s'].
  destruct (list_eq_dec Z.eq_dec (fk k) (fk n)) as [E|E].
  - assert (dict_search (s_dict s) k = Some a) as ->.
    { destruct T as [[T0 T1] T2]. rewrite (dict_search_stack _ _ _ T0 Vk). rewrite (dict_search_stack _ _ _ T0 Vn) in Sn.
      replace (stackof (s_dict s) k) with (stackof (s_dict s) n); auto.
      unfold stackof. apply filter_ext. intros x. unfold matches. rewrite E. reflexivity. }
    apply nth_upd_same; auto.
  - destruct (dict_search (s_dict s) k) as [b|] eqn:Sb; auto. apply nth_upd_other. intros <-. apply E.
    eapply addr_unique; eauto.
Qed.

(** the name [l] now means [c], nothing else changed *)
Record dfn (l : cstr) (c : core_t) (s s' : state) : Prop := mkDfn {
  d_keep : kept s s';
  d_view : lview s' = lview s;
  d_tab : tab s';
  d_scope : s_scope s' = s_scope s;
  d_nodes : s_nodes s' = s_nodes s;
  d_other : forall n, plain n -> fk n <> fk l -> meaning s' n = meaning s n;
  d_here : forall n, plain n -> fk n = fk l -> meaning s' n = c;
  d_rec : exists a, hand s l = Some a /\ (forall b, b <> a -> nth_error (s_syms s') b = nth_error (s_syms s) b) /\
            exists y', nth_error (s_syms s') a = Some y' /\ ycore y' = c
}.
Lemma dfn_upd l a y y' s s' : tab s -> s_scope s = None -> plain l -> hand s l = Some a -> nth_error (s_syms s) a = Some y ->
  y_pm y' = y_pm y -> s_syms s' = upd a y' (s_syms s) -> s_dict s' = s_dict s -> s_nodes s' = s_nodes s -> s_scope s' = None ->
  lview s' = lview s -> dfn l (ycore y') s s'.
Proof.
  intros T Sc P H Y Pm E1 E2 E3 E4 E5. pose proof T as (T1 & T2 & T3).
  assert (L : (a < length (s_syms s))%nat) by (apply nth_error_Some; congruence).
  assert (Hs : dict_search (s_dict s) l = Some a) by (unfold hand in H; rewrite Sc in H; exact H).
  assert (D : forall k, valids k -> dl s' k = if list_eq_dec Z.eq_dec (fk k) (fk l) then Some y' else dl s k).
  { intros k Vk. rewrite <- (dl_upd s l a y' T1 (proj1 P) Hs L k Vk). unfold dl. rewrite E1, E2. reflexivity. }
  constructor.
  - apply kept_nodes; auto; try congruence.
    + rewrite E1. apply upd_length.
    + intros b. rewrite E1. destruct (Nat.eq_dec a b) as [<-|Hn]; [rewrite nth_upd_same, Y by auto; cbn; congruence|].
      rewrite nth_upd_other by auto. reflexivity.
    + intros p n b l0 N. rewrite E3 in N. auto.
  - exact E5.
  - split; [|split].
    + split; [rewrite E1, E2; apply WF_upd, T1|rewrite E2; apply T1].
    + intros k Vk. unfold single, recs. rewrite E1, E2. change (length (recs (set_syms (upd a y' (s_syms s)) s) k) <= 1)%nat.
      rewrite recs_len_upd. apply T2, Vk.
    + rewrite E4. discriminate.
  - congruence.
  - exact E3.
  - intros n Pn Hn. unfold meaning, resolve. rewrite Sc, E4. rewrite (D n (proj1 Pn)). destruct (list_eq_dec _ _ _); [contradiction|reflexivity].
  - intros n Pn Hn. unfold meaning, resolve. rewrite E4. rewrite (D n (proj1 Pn)). destruct (list_eq_dec _ _ _); [reflexivity|contradiction].
  - exists a. split; auto. rewrite E1. split; [intros b Hb; apply nth_upd_other; auto|]. exists y'. split; auto. apply nth_upd_same; auto.
Qed.

(** ** Trees after a definition *)
Definition own (l n : cstr) : bool := if list_eq_dec Z.eq_dec (fk n) (fk l) then true else false.
Lemma own_eq l n : own l n = true <-> fk n = fk l.
Proof. unfold own. destruct (list_eq_dec _ _ _); split; congruence. Qed.
Lemma own_neq l n : own l n = false <-> fk n <> fk l.
Proof. unfold own. destruct (list_eq_dec _ _ _); split; congruence. Qed.
Definition owns (l : cstr) (ns : list cstr) : nat := length (filter (own l) ns).
Lemma owns_0 l ns : owns l ns = 0%nat -> forall n, In n ns -> fk n <> fk l.
Proof.
  unfold owns. induction ns as [|m ns IH]; cbn [filter]; intros H n Hn; [destruct Hn|].
  destruct (own l m) eqn:E; [discriminate|]. destruct Hn as [<-|Hn]; [apply own_neq, E|auto].
Qed.
Lemma owns_app l a b : owns l (a ++ b) = (owns l a + owns l b)%nat.
Proof. unfold owns. rewrite filter_app, app_length. reflexivity. Qed.

(** the name [l] need not occur: no record of another name changes *)
Lemma rep_dfn0 l c C C' u s s' p e : dfn l c s s' -> owned s -> s_scope s = None -> plain l ->
  (forall n, In n (names e) -> plain n /\ fk n <> fk l /\ C' n = C n) -> rep C u s p e -> rep C' u s' p e.
Proof.
  intros D O Sc Pl Hn R. destruct (d_rec _ _ _ _ D) as (a & Ha & Hb & y' & Y & Yc).
  assert (Hs : dict_search (s_dict s) l = Some a) by (unfold hand in Ha; rewrite Sc in Ha; exact Ha).
  induction R as [p v N|p v N|p n b y N Dr Hy Ey|p n Eu N P Ey|p o q e N U L R IH|p o q1 q2 e1 e2 N U L1 L2 R1 IH1 R2 IH2];
    rewrite <- (d_nodes _ _ _ _ D) in N.
  - eapply RepInt; eauto.
  - eapply RepPc; eauto.
  - destruct (Hn n (or_introl eq_refl)) as (P & F & E). eapply RepCached; [exact N|exact Dr| |rewrite E; exact Ey].
    rewrite Hb; [exact Hy|]. intros ->. rewrite (d_nodes _ _ _ _ D) in N. destruct (O Sc _ _ _ _ N P) as (_ & _ & Ho).
    apply F. symmetry. apply (Ho l (proj1 Pl) Hs).
  - destruct (Hn n (or_introl eq_refl)) as (_ & F & E). eapply RepName; eauto. rewrite E, <- Ey. apply (d_other _ _ _ _ D); auto.
  - eapply RepUn; eauto.
  - eapply RepBin; eauto; [apply IH1|apply IH2]; intros n Hi; apply Hn; cbn [names]; apply in_or_app; auto.
Qed.
(** the name [l] occurs at most once *)
Lemma rep_dfn1 l c C u s s' p e : dfn l c s s' -> owned s -> s_scope s = None -> plain l ->
  (forall n, In n (names e) -> plain n) -> (owns l (names e) <= 1)%nat -> rep C u s p e ->
  exists c', forall C', (forall n, In n (names e) -> fk n <> fk l -> C' n = C n) -> (forall n, In n (names e) -> fk n = fk l -> C' n = c') ->
    rep C' u s' p e.
Proof.
  intros D O Sc Pl Hn Hc R. destruct (d_rec _ _ _ _ D) as (a & Ha & Hb & y' & Y & Yc).
  assert (Hs : dict_search (s_dict s) l = Some a) by (unfold hand in Ha; rewrite Sc in Ha; exact Ha).
  revert Hn Hc.
  induction R as [p v N|p v N|p n b y N Dr Hy Ey|p n Eu N P Ey|p o q e N U L R IH|p o q1 q2 e1 e2 N U L1 L2 R1 IH1 R2 IH2]; intros Hn Hc;
    rewrite <- (d_nodes _ _ _ _ D) in N.
  - exists c. intros. eapply RepInt; eauto.
  - exists c. intros. eapply RepPc; eauto.
  - assert (Hb' : exists z, nth_error (s_syms s') b = Some z /\ (fk n <> fk l -> z = y)).
    { destruct (Nat.eq_dec b a) as [->|Hne]; [|rewrite Hb by auto; eauto].
      exists y'. split; auto. intros F. exfalso. apply F. symmetry. rewrite (d_nodes _ _ _ _ D) in N.
      destruct (O Sc _ _ _ _ N (Hn n (or_introl eq_refl))) as (_ & _ & Ho). apply (Ho l (proj1 Pl) Hs). }
    destruct Hb' as (z & Hz & Hzy). exists (ycore z). intros C' H1 H2. eapply RepCached; [exact N|exact Dr|exact Hz|].
    destruct (list_eq_dec Z.eq_dec (fk n) (fk l)) as [E|E].
    + rewrite (H2 n); auto. left; auto.
    + rewrite (H1 n); auto; [|left; auto]. rewrite (Hzy E). exact Ey.
  - exists (meaning s' n). intros C' H1 H2. eapply RepName; eauto.
    destruct (list_eq_dec Z.eq_dec (fk n) (fk l)) as [E|E].
    + rewrite (H2 n); auto. left; auto.
    + rewrite (H1 n); auto; [|left; auto]. rewrite <- Ey. apply (d_other _ _ _ _ D); auto.
  - destruct (IH Hn Hc) as (c' & H). exists c'. intros C' H1 H2. eapply RepUn; eauto.
  - cbn [names] in Hn, Hc. rewrite owns_app in Hc.
    destruct (Nat.eq_dec (owns l (names e1)) 0) as [Z|Z].
    + destruct IH2 as (c' & H); [intros n Hi; apply Hn, in_or_app; auto|lia|].
      exists c'. intros C' H1 H2. eapply RepBin; eauto.
      * eapply rep_dfn0; eauto. intros n Hi. split; [apply Hn, in_or_app; auto|]. pose proof (owns_0 _ _ Z n Hi) as F. split; auto.
        apply H1; auto. apply in_or_app; auto.
      * apply H; intros n Hi; [apply H1|apply H2]; apply in_or_app; auto.
    + destruct IH1 as (c' & H); [intros n Hi; apply Hn, in_or_app; auto|lia|].
      exists c'. intros C' H1 H2. eapply RepBin; eauto.
      * apply H; intros n Hi; [apply H1|apply H2]; apply in_or_app; auto.
      * eapply rep_dfn0; eauto. intros n Hi. split; [apply Hn, in_or_app; auto|].
        assert (Z2 : owns l (names e2) = 0%nat) by lia. pose proof (owns_0 _ _ Z2 n Hi) as F. split; auto.
        apply H1; auto. apply in_or_app; auto.
Qed.

(** ** The record of a defined name, cached in its node *)
Lemma hv_id p n a y l s : tab s -> plain n -> nth_error (s_nodes s) p = Some (mkNode (KId n None) l) -> hand s n = Some a ->
  nth_error (s_syms s) a = Some y -> ycore y = meaning s n ->
  hv s (set_nodes (upd p (mkNode (KId n (Some a)) l) (s_nodes s)) s).
Proof.
  intros T P N H Y Yc. assert (L : (p < length (s_nodes s))%nat) by (apply nth_error_Some; congruence).
  split; [|apply lk_same; reflexivity]. constructor; cbn [s_nodes s_syms s_dict s_scope set_nodes]; auto.
  - apply kept_nodes; auto. intros q m b l0 N0 Pm. cbn [s_nodes set_nodes] in N0.
    destruct (Nat.eq_dec p q) as [<-|Hn].
    + rewrite nth_upd_same in N0 by auto. injection N0 as -> -> _. right. split; [apply nth_error_Some; congruence|].
      intros Sc. unfold hand in H. rewrite Sc in H. split.
      { unfold dl, dlookup. cbn [fst snd]. rewrite H. congruence. }
      intros k Vk Hk. eapply addr_unique; [exact (proj1 T)|exact Vk|apply Pm|exact Hk|exact H].
    + rewrite nth_upd_other in N0 by auto. auto.
  - intros b z Hz. exists z. split; auto.
  - rewrite upd_length. auto.
  - intros q x Hq. destruct (Nat.eq_dec p q) as [<-|Hn].
    + rewrite nth_upd_same by auto. eexists; split; [reflexivity|]. assert (x = mkNode (KId n None) l) as -> by congruence.
      constructor. econstructor; eauto.
    + rewrite nth_upd_other by auto. exists x. split; auto. constructor. constructor.
Qed.
Definition def_node (lab : bool) (n : cstr) (i : option nat) : nkind := if lab then KLabel n i else KId n i.
(** [t] is the name [n], or for a label, [n] and a colon *)
Definition spells (lab : bool) (t n : cstr) : Prop := add_symbol t = add_symbol n /\ (lab = false -> t = n).
Lemma spells_refl lab n : spells lab n n. Proof. split; reflexivity. Qed.
Lemma spells_uncolon t : plain (uncolon t) -> spells true t (uncolon t). Proof. intros P. split; [exact (add_uncolon t P)|discriminate]. Qed.
Lemma cache_def_t lab t n p s : spells lab t n -> tab s -> plain n -> nth_error (s_nodes s) p = Some (mkNode (def_node lab t None) []) ->
  exists a y s', (a <- add_symbol t ;; node_set p (mkNode (def_node lab t a) []) ;;; ret a) s = Ok (Some a) s' /\ hv s s' /\ obs s' = obs s /\
    nth_error (s_syms s') a = Some y /\ ycore y = meaning s n /\ hand s' n = Some a /\
    nth_error (s_nodes s') p = Some (mkNode (def_node lab t (Some a)) []) /\ ops_kept s s' /\ s_list s' = s_list s.
Proof.
  intros [Sp1 Sp2] T P N. destruct (add_plain_evo n s T P) as (a & y & s1 & E1 & E2 & Nn & Er & Hy & Ec & Hh).
  assert (N1 : nth_error (s_nodes s1) p = Some (mkNode (def_node lab t None) [])) by (rewrite Nn; exact N).
  assert (T1 : tab s1) by apply (e_tab _ _ E2).
  exists a, y, (set_nodes (upd p (mkNode (def_node lab t (Some a)) []) (s_nodes s1)) s1).
  split; [unfold bind; rewrite Sp1, E1; reflexivity|]. split; [|split; [|split; [exact Hy|split; [exact Ec|split; [|split; [|split]]]]]].
  - eapply hv_trans; [apply hv_evo, E2|]. destruct lab; cbn [def_node] in *.
    + apply (hv_node p (KLabel t None) []); auto. apply N2lab.
    + rewrite (Sp2 eq_refl) in *. eapply hv_id; eauto. rewrite Ec. symmetry. apply (e_res _ _ E2); auto.
  - rewrite obs_set_nodes. rewrite (obs_evo _ _ E2), Er, <- (obs_get_errs s). apply errs_id.
  - unfold hand in *. exact Hh.
  - cbn [s_nodes set_nodes]. apply nth_upd_same. apply nth_error_Some. congruence.
  - intros p' i o m c l H. cbn [s_nodes set_nodes]. rewrite nth_upd_other; [rewrite Nn; exact H|].
    intros <-. rewrite N in H. destruct lab; discriminate H.
  - exact (f_equal s_list (e_same _ _ E2)).
Qed.
Lemma cache_def lab n p s : tab s -> plain n -> nth_error (s_nodes s) p = Some (mkNode (def_node lab n None) []) ->
  exists a y s', (a <- add_symbol n ;; node_set p (mkNode (def_node lab n a) []) ;;; ret a) s = Ok (Some a) s' /\ hv s s' /\ obs s' = obs s /\
    nth_error (s_syms s') a = Some y /\ ycore y = meaning s n /\ hand s' n = Some a /\
    nth_error (s_nodes s') p = Some (mkNode (def_node lab n (Some a)) []) /\ ops_kept s s' /\ s_list s' = s_list s.
Proof. apply (cache_def_t lab n n), spells_refl. Qed.
Lemma plain_pm n : plain n -> (stricmp n (cs "-") =? 0) = false /\ (stricmp n (cs "+") =? 0) = false.
Proof.
  intros P. destruct P as (V & _ & _ & _ & H & _).
  assert (G : forall c, In c [43; 45] -> tolower c = c -> (stricmp n [c] =? 0) = false).
  { intros c Hc Ec. apply Z.eqb_neq. rewrite (stricmp_0_iff n [c]).
    - intros E. apply H. destruct n as [|x [|x1 n]]; try discriminate E. cbn in E. injection E as E. rewrite Ec in E.
      cbn [hd0]. assert (x = c) as ->; [|cbn; cbn in Hc; tauto].
      clear - E Hc. unfold tolower in E. cbn in Hc. if_lia.
    - exact V.
    - constructor; [|constructor]. cbn in Hc. unfold validc. lia. }
  split; apply G; cbn; auto.
Qed.
Definition clean (c : core_t) : Prop := exists v i, c = (v, i, false, false, false).

(** ** name = expression *)
Definition equ_body (lab : bool) (name : cstr) (op : Z) (n0 : nat) : M Z :=
  r <- (a <- add_symbol name ;; node_set n0 (mkNode (def_node lab name a) []) ;;; ret a) ;;
  match r with
  | None => err error_out_of_memory ;;; exit_ (-1)
  | Some a =>
      y <- sym_get a ;;
      if negb (y_init y) || negb (y_value y =? op) then
        sc <- gets s_scope ;;
        r <- match y_scope y, sc with
             | None, Some c => add_symbol (dotted c (y_name y))
             | _, _ => ret (Some a)
             end ;;
        match r with
        | None => ub UbNull
        | Some a =>
            set_symbol_value a op ;;;
            y <- sym_get a ;;
            sym_set a (y_set_init true (if lab then y_set_label true y else y)) ;;;
            ret op
        end
      else ret op
  end.
Lemma x_equ_eq F lab n n0 n1 v s s1 : plain n -> expand F n1 s = Ok v s1 -> nth_error (s_nodes s1) n0 = Some (mkNode (def_node lab n None) []) ->
  x_equ (expand F) (mkNode (KOpr OEqu) [n0; n1]) s = equ_body lab n v n0 s1.
Proof.
  intros P E N. destruct (plain_pm n P) as [P1 P2]. unfold x_equ, opn. cbn [nth_error n_ops]. unfold bind at 1, ret at 1. unfold bind at 1. rewrite E.
  unfold bind at 1, ret at 1. unfold bind at 1. unfold node_get at 1. unfold bind at 1, gets at 1. rewrite N. unfold ret at 1. cbn [n_kind n_ops].
  destruct lab; cbn [def_node]; rewrite P1, P2; reflexivity.
Qed.
Lemma uncolon_pm t : plain (uncolon t) -> (stricmp t (cs "-") =? 0) = false /\ (stricmp t (cs "+") =? 0) = false.
Proof.
  intros P. destruct (uncolon_cases t) as [E|E]; [rewrite E in P; apply plain_pm, P|]. assert (G : forall c, tolower c = c -> validc c -> (stricmp t [c] =? 0) = false); [|split; apply G; first [reflexivity | unfold validc, cs; cbn; lia | idtac]].
  intros c Ec Vc. apply Z.eqb_neq. rewrite E. intros X. apply stricmp_0_iff in X; [|apply uncolon_valids, P|constructor; [exact Vc|constructor]].
  apply (f_equal (@List.length Z)) in X. rewrite !map_length, app_length in X. cbn in X. assert (NE : uncolon t <> []) by apply P. destruct (uncolon t); [congruence|cbn in X; lia].
Qed.
Lemma x_equ_uncolon F t n0 n1 v s s1 : plain (uncolon t) -> expand F n1 s = Ok v s1 -> nth_error (s_nodes s1) n0 = Some (mkNode (KLabel t None) []) ->
  x_equ (expand F) (mkNode (KOpr OEqu) [n0; n1]) s = equ_body true t v n0 s1.
Proof.
  intros P E N. destruct (uncolon_pm t P) as [P1 P2]. unfold x_equ, opn. cbn [nth_error n_ops]. unfold bind at 1, ret at 1. unfold bind at 1. rewrite E.
  unfold bind at 1, ret at 1. unfold bind at 1. unfold node_get at 1. unfold bind at 1, gets at 1. rewrite N. unfold ret at 1. cbn [n_kind n_ops].
  rewrite P1, P2. reflexivity.
Qed.
Definition cinit (c : core_t) : bool := let '(_, i, _, _, _) := c in i.
Definition craw (c : core_t) : Z := let '(v, _, _, _, _) := c in v.
Definition bump (b : bool) (s : state) : state := if b then set_changed (s_changed s + 1) s else s.
Lemma sym_get_eq a y s : nth_error (s_syms s) a = Some y -> sym_get a s = Ok y s.
Proof. intros H. unfold sym_get, bind, gets. rewrite H. reflexivity. Qed.

Definition dcore (v : Z) : core_t := (v, true, false, false, false).
Lemma equ_body_t lab t n v n0 s : spells lab t n -> tab s -> s_scope s = None -> plain n -> clean (meaning s n) ->
  nth_error (s_nodes s) n0 = Some (mkNode (def_node lab t None) []) ->
  exists s1, hv s s1 /\ obs s1 = obs s /\ ops_kept s s1 /\ s_list s1 = s_list s /\
    ((meaning s n = dcore v /\ equ_body lab t v n0 s = Ok v s1) \/
     (craw (meaning s n) <> v /\ ~ 0 <= v <= 65535 /\ exists s2, equ_body lab t v n0 s = Ok v s2 /\ s_errs s2 = s_errs s + 1) \/
     (meaning s n <> dcore v /\ (craw (meaning s n) = v \/ 0 <= v <= 65535) /\
      exists s2, equ_body lab t v n0 s = Ok v s2 /\ dfn n (dcore v) s1 s2 /\ obs s2 = bump (negb (craw (meaning s n) =? v)) (obs s))).
Proof.
  intros Sp T Sc P Cl N. destruct (cache_def_t lab t n n0 s Sp T P N) as (a & y & s1 & E & H & O & Y & Yc & Hh & N1 & Ok1 & Ql).
  exists s1. split; [exact H|]. split; [exact O|]. split; [exact Ok1|]. split; [exact Ql|]. destruct Cl as (w & i & Cl). rewrite Cl in *.
  unfold ycore in Yc. injection Yc as Yv Yi Ymp Ymn Yva.
  assert (Sc1 : s_scope s1 = None) by (rewrite (h_scope _ _ H); exact Sc).
  assert (T1 : tab s1) by apply (h_tab _ _ H).
  assert (La : (a < length (s_syms s1))%nat) by (apply nth_error_Some; congruence).
  remember (equ_body lab t v n0 s) as R eqn:ER. unfold equ_body in ER. unfold bind at 1 in ER. rewrite E in ER. unfold bind at 1 in ER.
  rewrite (sym_get_eq _ _ _ Y) in ER. rewrite Yi, Yv in ER. cbn [craw].
  destruct (negb i || negb (w =? v)) eqn:B.
  2:{ apply orb_false_elim in B. destruct B as [B1 B2]. apply negb_false_iff in B1, B2. apply Z.eqb_eq in B2.
      left. split; [rewrite B1, B2; reflexivity|exact ER]. }
  unfold bind at 1, gets at 1 in ER. rewrite Sc1 in ER.
  assert (M : (match y_scope y, @None cstr with None, Some c => add_symbol (dotted c (y_name y)) | _, _ => ret (Some a) end) = ret (Some a))
    by (destruct (y_scope y); reflexivity).
  rewrite M in ER. unfold bind at 1, ret at 1 in ER.
  destruct (set_symbol_value_spec a v s1 y Y) as (s2 & E2 & C).
  unfold bind at 1 in ER. rewrite E2 in ER.
  destruct C as [(-> & C)|[(-> & C1 & C2)|(C1 & C2 & Es)]].
  - right. right. split; [|split; [left; congruence|]].
    { intros X. injection X as X1 X2. rewrite X1, X2 in B. rewrite Z.eqb_refl in B. discriminate. }
    unfold bind at 1 in ER. rewrite (sym_get_eq _ _ _ Y) in ER. eexists. split; [exact ER|].
    assert (Cw : (w =? v) = true) by (apply Z.eqb_eq; congruence). rewrite Cw. cbn [negb bump]. split.
    + assert (Ey : dcore v = ycore (y_set_init true (if lab then y_set_label true y else y))).
      { unfold dcore, ycore. destruct y, lab; cbn in *; congruence. }
      rewrite Ey. eapply dfn_upd; eauto. destruct y, lab; reflexivity.
    + rewrite obs_set_syms. exact O.
  - right. left.
    assert (Hw : w <> v \/ w = v) by lia. destruct Hw as [Hw|Hw].
    + split; auto. split; auto. unfold bind at 1 in ER.
      rewrite (sym_get_eq a y) in ER by exact Y. eexists. split; [exact ER|]. cbn [s_errs set_syms set_errs].
      rewrite <- (obs_get_errs s1), O, obs_get_errs. reflexivity.
    + exfalso. unfold set_symbol_value in E2. unfold bind at 1 in E2. rewrite (sym_get_eq _ _ _ Y) in E2.
      rewrite Yv, Hw, Z.eqb_refl in E2. injection E2 as E2. apply (f_equal s_errs) in E2. cbn in E2. lia.
  - right. right. split; [|split; [|]].
    { intros X. injection X as X1 X2. apply C1. congruence. }
    { destruct C2 as [C2|C2]; [auto|congruence]. }
    rewrite Ymp, Yva in Es. cbn [orb] in Es. cbv zeta in Es.
    assert (Y2 : nth_error (s_syms s2) a = Some (y_set_value v y)) by (rewrite Es; cbn; apply nth_upd_same; exact La).
    unfold bind at 1 in ER. rewrite (sym_get_eq _ _ _ Y2) in ER. eexists. split; [exact ER|].
    assert (Hv : (w =? v) = false) by (apply Z.eqb_neq; congruence). rewrite Hv. cbn [negb bump]. split.
    + assert (Ey : dcore v = ycore (y_set_init true (if lab then y_set_label true (y_set_value v y) else y_set_value v y))).
      { unfold dcore, ycore. destruct y, lab; cbn in *; congruence. }
      rewrite Ey. rewrite Es. eapply dfn_upd; eauto; cbn [s_syms set_syms set_changed s_dict s_nodes s_scope]; auto.
      * destruct y, lab; reflexivity.
      * apply upd_upd.
    + rewrite obs_set_syms, Es, obs_set_changed, obs_set_syms, O. rewrite <- (obs_get_changed s1), O, obs_get_changed. reflexivity.
Qed.
Lemma equ_body_ok lab n v n0 s : tab s -> s_scope s = None -> plain n -> clean (meaning s n) ->
  nth_error (s_nodes s) n0 = Some (mkNode (def_node lab n None) []) ->
  exists s1, hv s s1 /\ obs s1 = obs s /\ ops_kept s s1 /\ s_list s1 = s_list s /\
    ((meaning s n = dcore v /\ equ_body lab n v n0 s = Ok v s1) \/
     (craw (meaning s n) <> v /\ ~ 0 <= v <= 65535 /\ exists s2, equ_body lab n v n0 s = Ok v s2 /\ s_errs s2 = s_errs s + 1) \/
     (meaning s n <> dcore v /\ (craw (meaning s n) = v \/ 0 <= v <= 65535) /\
      exists s2, equ_body lab n v n0 s = Ok v s2 /\ dfn n (dcore v) s1 s2 /\ obs s2 = bump (negb (craw (meaning s n) =? v)) (obs s))).
Proof. apply (equ_body_t lab n n), spells_refl. Qed.
