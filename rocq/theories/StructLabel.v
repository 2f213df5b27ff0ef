(** Labels in front of statements that mention no name. *)
From Coq Require Import String Lia.
From Verif Require Import Base BaseProofs Hash Dict DictProofs DictMore Str Opcodes OpcodesProofs Err State Sym Machine Build Pass
  GenX Gen Inv SymProofs Sem ExprProofs ListRel ExprMore OpProofs OpMore InstrProofs InstrMore DataProofs DataMore Colon DefProofs BadProofs DataWalk MacroProofs VarProofs LoopProofs IfProofs Layout LineTwo LineProofs Struct StructRep StructOp StructRun StructExec StructBuild StructLine StructVar.
Open Scope string_scope.
Open Scope list_scope.
Open Scope Z_scope.
Open Scope m_scope.

(** ** Nodes without names are not touched *)
Definition gw (s s' : state) : Prop := forall p k l, nth_error (s_nodes s) p = Some (mkNode k l) -> (match k with KLabel _ _ => False | _ => True end) -> nth_error (s_nodes s') p = Some (mkNode k l).
Lemma tied_gw s s' p e : gw s s' -> tied s p e -> names e = [] -> tied s' p e.
Proof.
  intros G T. induction T as [p v N|p v N|p n i a N P D I|p o q e N U L T IH|p o q1 q2 e1 e2 N U L1 L2 T1 IH1 T2 IH2]; cbn [names]; intros E.
  - apply TInt, G; auto.
  - eapply TPc, G; [exact N|exact I].
  - discriminate E.
  - exact (TUn s' p o q e (G _ _ _ N I) U L (IH E)).
  - apply app_eq_nil in E. destruct E as [E1 E2]. exact (TBin s' p o q1 q2 e1 e2 (G _ _ _ N I) U L1 L2 (IH1 E1) (IH2 E2)).
Qed.
Lemma ctied_gw s s' p e : gw s s' -> ctied s p e -> names e = [] -> ctied s' p e.
Proof.
  intros G T. induction T as [p v N|p v N|p n a N P D|p o q e N U L T IH|p o q1 q2 e1 e2 N U L1 L2 T1 IH1 T2 IH2]; cbn [names]; intros E.
  - apply CInt, G; auto.
  - eapply CPc, G; [exact N|exact I].
  - discriminate E.
  - exact (CUn s' p o q e (G _ _ _ N I) U L (IH E)).
  - apply app_eq_nil in E. destruct E as [E1 E2]. exact (CBin s' p o q1 q2 e1 e2 (G _ _ _ N I) U L1 L2 (IH1 E1) (IH2 E2)).
Qed.
Lemma itied_gw s s' q i : gw s s' -> itied s q i -> item_uses i = [] -> itied s' q i.
Proof.
  intros G. destruct i as [e|raw]; cbn [itied]; [intros T E; apply (tied_gw s); auto|]. intros (t & E & N) _. exists t. split; [exact E|]. apply G; [exact N|exact I].
Qed.
Lemma ltied_gw s s' p l : gw s s' -> ltied s p l -> flat_map item_uses l = [] -> ltied s' p l.
Proof.
  intros G R. induction R as [p q i N It|p a q l i N R IH It]; intros E.
  - cbn in E. rewrite app_nil_r in E. eapply LtOne; [apply G; [exact N|exact I]|eapply itied_gw; eauto].
  - rewrite flat_map_app in E. apply app_eq_nil in E. destruct E as [E1 E2]. cbn in E2. rewrite app_nil_r in E2.
    eapply LtMore; [apply G; [exact N|exact I]|auto|eapply itied_gw; eauto].
Qed.
(** the statements that may stand behind a label *)
Definition behind (st : stmt) : Prop := match st with SEmpty | SData _ _ | SOp _ _ => uses st = [] | _ => False end.
Lemma stied_gw c02 ill s s' p st : gw s s' -> behind st -> stied c02 ill s p st -> stied c02 ill s' p st.
Proof.
  intros G B T. destruct T; cbn [behind uses] in B; try contradiction.
  - apply StEmpty, G; auto.
  - eapply StData; [apply G; [eassumption|exact I]|eapply ltied_gw; eauto].
  - eapply StImp; [eassumption|apply G; [eassumption|exact I]].
  - assert (E : operand_of f = [e]) by (unfold operand_of; match goal with H : form f = _ |- _ => rewrite H end; reflexivity). rewrite E in B. cbn in B. rewrite app_nil_r in B.
    eapply StOp; [eassumption|eapply ctied_gw; eauto|apply G; [eassumption|exact I]].
Qed.
Lemma behind_first ex st : behind st -> build_stmt ex false st = build_stmt ex true st.
Proof. destruct st; cbn [behind]; try contradiction; reflexivity. Qed.

(** ** Defining the label *)
Lemma equ_at n v n0 s r s' a t : tab s -> plain n -> s_scope t = None -> add_symbol n s = Ok (Some a) t -> equ_body true n v n0 s = Ok r s' ->
  s_dict s' = s_dict t /\ (forall c, c <> a -> nth_error (s_syms s') c = nth_error (s_syms t) c) /\ s_nodes s' = upd n0 (mkNode (KLabel n (Some a)) []) (s_nodes t).
Proof.
  intros T P Sc Ea E. unfold equ_body in E. unfold bind at 1 2 in E. rewrite Ea in E. unfold bind at 1, node_set, modify, ret at 1 in E. cbn [def_node] in E.
  set (t1 := set_nodes (upd n0 (mkNode (KLabel n (Some a)) []) (s_nodes t)) t) in *.
  assert (Sc1 : s_scope t1 = None) by exact Sc. assert (X : s_dict t1 = s_dict t /\ s_syms t1 = s_syms t /\ s_nodes t1 = upd n0 (mkNode (KLabel n (Some a)) []) (s_nodes t)) by (repeat split).
  clearbody t1. destruct X as (X1 & X2 & X3). unfold bind at 1 in E. destruct (nth_error (s_syms t1) a) as [y|] eqn:Y.
  2:{ unfold sym_get, bind, gets in E. rewrite Y in E. discriminate E. }
  rewrite (sym_get_eq _ _ _ Y) in E. destruct (negb (y_init y) || negb (y_value y =? v)).
  - unfold bind at 1, gets at 1 in E. rewrite Sc1 in E.
    assert (M : (match y_scope y, @None cstr with None, Some c => add_symbol (dotted c (y_name y)) | _, _ => ret (Some a) end) = ret (Some a)) by (destruct (y_scope y); reflexivity).
    rewrite M in E. unfold bind at 1, ret at 1 in E. destruct (set_symbol_value_spec a v t1 y Y) as (s2 & E2 & C). unfold bind at 1 in E. rewrite E2 in E.
    assert (Z : s_dict s2 = s_dict t1 /\ s_nodes s2 = s_nodes t1 /\ forall c, c <> a -> nth_error (s_syms s2) c = nth_error (s_syms t1) c).
    { destruct C as [(-> & _)|[(-> & _)|(_ & _ & ->)]]; [auto|auto|]. cbv zeta. destruct (y_mparam y || y_var y); (split; [reflexivity|split; [reflexivity|]]); intros c Hc; cbn [s_syms set_syms set_changed]; apply nth_upd_other; auto. }
    destruct Z as (Z1 & Z2 & Z3). unfold bind at 1 in E. unfold sym_get, bind at 1, gets in E. destruct (nth_error (s_syms s2) a) as [y2|]; [|discriminate E]. unfold ret at 1, sym_set, modify, bind, ret in E. injection E as _ <-.
    cbn [s_dict s_nodes s_syms set_syms]. split; [congruence|]. split; [|congruence]. intros c Hc. rewrite nth_upd_other by auto. rewrite (Z3 c Hc), X2. reflexivity.
  - unfold ret in E. injection E as _ <-. rewrite X1, X2, X3. auto.
Qed.
(** ** A label written with a colon *)
(** *** Steps that do not look at the trees *)
Definition on_nodes {A} (ns : list node) (r : res A) : res A := match r with Ok a s => Ok a (set_nodes ns s) | Exit c s => Exit c (set_nodes ns s) | Ub u => Ub u | OutOfFuel => OutOfFuel end.
Definition blind {A} (m : M A) : Prop := forall ns s, m (set_nodes ns s) = on_nodes ns (m s).
Lemma blind_ret {A} (a : A) : blind (ret a). Proof. intros ns s. reflexivity. Qed.
Lemma blind_bind {A B} (m : M A) (f : A -> M B) : blind m -> (forall a, blind (f a)) -> blind (bind m f).
Proof. intros Hm Hf ns s. unfold bind. rewrite Hm. destruct (m s) as [a s1|c s1| |]; cbn [on_nodes]; [apply Hf|reflexivity|reflexivity|reflexivity]. Qed.
Lemma blind_gets {A} (f : state -> A) : (forall ns s, f (set_nodes ns s) = f s) -> blind (gets f). Proof. intros H ns s. unfold gets. rewrite H. reflexivity. Qed.
Lemma blind_modify f : (forall ns s, f (set_nodes ns s) = set_nodes ns (f s)) -> blind (modify f). Proof. intros H ns s. unfold modify. rewrite H. reflexivity. Qed.
Lemma blind_ub {A} u : blind (@ub A u). Proof. intros ns s. reflexivity. Qed.
Lemma blind_when b m : blind m -> blind (when b m). Proof. intros H. destruct b; [exact H|apply blind_ret]. Qed.
Lemma blind_sym_get a : blind (sym_get a).
Proof. unfold sym_get. apply blind_bind; [apply blind_gets; reflexivity|]. intros l. destruct (nth_error l a); [apply blind_ret|apply blind_ub]. Qed.
Lemma blind_sym_set a y : blind (sym_set a y). Proof. apply blind_modify. reflexivity. Qed.
Lemma blind_err n : blind (err n). Proof. unfold err. apply blind_modify. reflexivity. Qed.
Lemma blind_look sc n : blind (look_up_in sc n).
Proof.
  assert (B : forall a, blind (y <- sym_get a ;; sym_set a (y_times_inc y) ;;; ret (Some a))) by (intros a; apply blind_bind; [apply blind_sym_get|intros y; apply blind_bind; [apply blind_sym_set|intros _; apply blind_ret]]).
  assert (G : blind (r <- sym_search n ;; match r with Some a => y <- sym_get a ;; sym_set a (y_times_inc y) ;;; ret (Some a) | None => ret None end)).
  { apply blind_bind; [apply blind_gets; reflexivity|]. intros [a|]; [apply B|apply blind_ret]. }
  unfold look_up_in. destruct sc as [c|]; [|exact G]. apply blind_bind; [apply blind_gets; reflexivity|]. intros [a|]; [apply B|exact G].
Qed.
Lemma blind_insert k y : blind (sym_insert k y).
Proof.
  unfold sym_insert. apply blind_bind; [apply blind_gets; reflexivity|]. intros [[d h] [a|]]; (apply blind_bind; [apply blind_modify; reflexivity|intros _]); [|apply blind_ub].
  apply blind_bind; [apply blind_sym_get|]. intros y'. apply blind_bind; [apply blind_sym_set|]. intros _. apply blind_ret.
Qed.
Lemma blind_add n : blind (add_symbol n).
Proof.
  unfold add_symbol. destruct (_ =? 0); [apply blind_ret|]. destruct (_ || _).
  - apply blind_bind; [|intros a; apply blind_ret]. unfold add_plus_minus_sym. apply blind_bind; [apply blind_gets; reflexivity|]. intros l. apply blind_bind; [apply blind_modify; reflexivity|]. intros _.
    apply blind_bind; [apply blind_gets; reflexivity|]. intros line. apply blind_bind; [apply blind_gets; reflexivity|]. intros sc. apply blind_insert.
  - apply blind_bind; [apply blind_gets; reflexivity|]. intros cur. cbv zeta. apply blind_bind; [apply blind_gets; reflexivity|]. intros l.
    match goal with |- blind (match ?x with _ => _ end) => destruct x; [apply blind_ub|] end. apply blind_bind; [apply blind_look|]. intros [a|]; [apply blind_ret|]. apply blind_bind; [apply blind_insert|]. intros a. apply blind_ret.
Qed.
Lemma blind_set_value a v : blind (set_symbol_value a v).
Proof.
  unfold set_symbol_value. apply blind_bind; [apply blind_sym_get|]. intros y. destruct (_ =? _); [apply blind_ret|]. destruct (_ && _); [apply blind_err|].
  apply blind_bind; [apply blind_sym_set|]. intros _. apply blind_when, blind_modify. reflexivity.
Qed.
Definition equ_rest (op : Z) (a : nat) : M Z :=
  y <- sym_get a ;;
  if negb (y_init y) || negb (y_value y =? op) then
    sc <- gets s_scope ;;
    r <- match y_scope y, sc with None, Some c => add_symbol (dotted c (y_name y)) | _, _ => ret (Some a) end ;;
    match r with
    | None => ub UbNull
    | Some a => set_symbol_value a op ;;; y <- sym_get a ;; sym_set a (y_set_init true (y_set_label true y)) ;;; ret op
    end
  else ret op.
Lemma blind_rest op a : blind (equ_rest op a).
Proof.
  unfold equ_rest. apply blind_bind; [apply blind_sym_get|]. intros y. destruct (_ || _); [|apply blind_ret]. apply blind_bind; [apply blind_gets; reflexivity|]. intros sc.
  apply blind_bind; [destruct (y_scope y), sc; try apply blind_ret; apply blind_add|]. intros [b|]; [|apply blind_ub]. apply blind_bind; [apply blind_set_value|]. intros _.
  apply blind_bind; [apply blind_sym_get|]. intros y'. apply blind_bind; [apply blind_sym_set|]. intros _. apply blind_ret.
Qed.
Lemma set_nodes_twice a b s : set_nodes a (set_nodes b s) = set_nodes a s. Proof. destruct s; reflexivity. Qed.
Lemma set_nodes_id s : set_nodes (s_nodes s) s = s. Proof. destruct s; reflexivity. Qed.
Lemma equ_split n v n0 s : equ_body true n v n0 s = match add_symbol n s with
  | Ok (Some a) t => equ_rest v a (set_nodes (upd n0 (mkNode (KLabel n (Some a)) []) (s_nodes t)) t)
  | Ok None t => (err error_out_of_memory ;;; exit_ (-1)) (set_nodes (upd n0 (mkNode (KLabel n None) []) (s_nodes t)) t)
  | Exit c t => Exit c t | Ub u => Ub u | OutOfFuel => OutOfFuel end.
Proof. unfold equ_body. unfold bind at 1 2. destruct (add_symbol n s) as [[a|] t|c t| |]; reflexivity. Qed.
(** the label with the colon defines the name without *)
Lemma equ_uncolon t v n0 ns s w s2 a t1 : plain (uncolon t) -> add_symbol (uncolon t) s = Ok (Some a) t1 -> equ_body true (uncolon t) v n0 (set_nodes ns s) = Ok w s2 ->
  equ_body true t v n0 s = Ok w (set_nodes (upd n0 (mkNode (KLabel t (Some a)) []) (s_nodes s)) s2).
Proof.
  intros P Ea. rewrite !equ_split, (add_uncolon t P), (blind_add (uncolon t) ns s), Ea. cbn [on_nodes]. rewrite !blind_rest.
  assert (N : s_nodes t1 = s_nodes s). { pose proof (blind_add (uncolon t) (s_nodes s) s) as X. rewrite set_nodes_id, Ea in X. cbn [on_nodes] in X. injection X as X. rewrite X. reflexivity. }
  rewrite N. destruct (equ_rest v a t1) as [r x|c x| |]; cbn [on_nodes]; try discriminate. intros E. injection E as <- <-. rewrite !set_nodes_twice. reflexivity.
Qed.
(** ** The steps before *)
Definition near (s s' : state) : Prop := qt s s' /\ mo s' = mo s /\ (forall k, plain k -> meaning s' k = meaning s k) /\ s_input s' = s_input s /\ s_changed s' = s_changed s.
Lemma near_trans a b c : near a b -> near b c -> near a c.
Proof. intros (A1 & A2 & A3 & A4 & A5) (B1 & B2 & B3 & B4 & B5). split; [exact (qt_trans _ _ _ A1 B1)|]. split; [congruence|]. split; [|split; congruence]. intros k P. rewrite (B3 k P). auto. Qed.
Lemma near_sl s s' : sl s s' -> near s s'.
Proof. intros Ls. split; [apply (sl_qt _ _ Ls)|]. split; [apply mo_sl, Ls|]. split; [apply (sl_mean _ _ Ls)|]. split; [apply sl_input, Ls|apply sl_changed, Ls]. Qed.
Lemma stock_near D T env s s' : near s s' -> stock D T env s -> stock D T env s'.
Proof. intros (Q & _ & M & _) S n P X. destruct (S n P X) as [A B]. rewrite (q_dict _ _ Q), (M n P). auto. Qed.
Lemma label_changed v z : s_changed (set_label v z) = s_changed z. Proof. reflexivity. Qed.
Lemma label_input v z : s_input (set_label v z) = s_input z. Proof. reflexivity. Qed.
Lemma label_def_q t s : calm s -> plain (uncolon t) ->
  exists d a c s', label_def t s = Ok d s' /\ near s s' /\ nth_error (s_nodes s') d = Some (mkNode (KOpr OEqu) [a; c]) /\ nth_error (s_nodes s') a = Some (mkNode (KLabel t None) []) /\
    nth_error (s_nodes s') c = Some (mkNode (KCon (s_pc s) true) []).
Proof.
  intros Cm P. unfold label_def, label_node. pose proof (uncolon_hd t P) as Hd. destruct P as (_ & _ & _ & _ & H & _). rewrite <- Hd in H.
  assert (H64 : (hd0 t =? 64) = false) by (apply Z.eqb_neq; intros X; apply H; rewrite X; cbn; auto).
  assert (H45 : (hd0 t =? 45) = false) by (apply Z.eqb_neq; intros X; apply H; rewrite X; cbn; auto).
  assert (H43 : (hd0 t =? 43) = false) by (apply Z.eqb_neq; intros X; apply H; rewrite X; cbn; auto).
  cbv zeta. rewrite H64, H45, H43. cbn [negb andb]. unfold bind, modify, pc_node, gets. cbv beta iota. rewrite alloc_eq. unfold bind. cbv beta iota. rewrite !alloc_eq.
  set (x1 := mkNode (KLabel t None) []). set (x2 := mkNode (KCon (s_pc s) true) []). set (x3 := mkNode (KOpr OEqu) [length (s_nodes s); S (length (s_nodes s))]).
  assert (Es : set_nodes (s_nodes s ++ [x1; x2; x3]) (set_label (Some t) s) =
    set_nodes (s_nodes (set_nodes (s_nodes (set_nodes (s_nodes (set_label (Some t) s) ++ [x1]) (set_label (Some t) s)) ++ [x2]) (set_nodes (s_nodes (set_label (Some t) s) ++ [x1]) (set_label (Some t) s))) ++ [x3])
      (set_nodes (s_nodes (set_nodes (s_nodes (set_label (Some t) s) ++ [x1]) (set_label (Some t) s)) ++ [x2]) (set_nodes (s_nodes (set_label (Some t) s) ++ [x1]) (set_label (Some t) s)))).
  { rewrite !set_nodes_twice. cbn [s_nodes set_nodes set_label]. rewrite <- !app_assoc. reflexivity. }
  exists (S (S (length (s_nodes s)))), (length (s_nodes s)), (S (length (s_nodes s))), (set_nodes (s_nodes s ++ [x1; x2; x3]) (set_label (Some t) s)). split; [|split; [|split; [|split]]].
  - rewrite Es. cbn [s_nodes set_nodes set_label s_pc]. rewrite !app_length. cbn [length]. rewrite !Nat.add_1_r. reflexivity.
  - split; [|split; [|split; [|split]]].
    + apply (qt_nodes _ _ [x1; x2; x3]); reflexivity.
    + unfold mo. rewrite obs_set_nodes, obs_set_label. apply free_set_label.
    + intros k Pk. reflexivity.
    + reflexivity.
    + reflexivity.
  - cbn [s_nodes set_nodes]. rewrite nth_error_app2 by lia. replace (S (S (length (s_nodes s))) - length (s_nodes s))%nat with 2%nat by lia. reflexivity.
  - cbn [s_nodes set_nodes]. rewrite nth_error_app2 by lia. rewrite Nat.sub_diag. reflexivity.
  - cbn [s_nodes set_nodes]. rewrite nth_error_app2 by lia. replace (S (length (s_nodes s)) - length (s_nodes s))%nat with 1%nat by lia. reflexivity.
Qed.
Lemma pc_near F c w s : calm s -> nth_error (s_nodes s) c = Some (mkNode (KCon w true) []) ->
  exists s', expand (S F) c s = Ok (s_pc s) s' /\ near s s' /\ (forall q, q <> c -> nth_error (s_nodes s') q = nth_error (s_nodes s) q).
Proof.
  intros (T & Sc & St) N. rewrite (expand_eq _ _ _ _ St N). unfold x_node. cbn [n_kind]. unfold x_constant, bind, gets, node_set, modify, ret. eexists. split; [reflexivity|]. split.
  - split; [|split; [apply mo_eq, obs_set_nodes|split; [reflexivity|split; reflexivity]]]. constructor; auto; [apply keeps_same; reflexivity|]. intros q x H. cbn [s_nodes set_nodes n_ops]. destruct (Nat.eq_dec c q) as [<-|Hn].
    + rewrite nth_upd_same by (apply nth_error_Some; congruence). eexists. split; [reflexivity|]. rewrite N in H. injection H as <-. constructor.
    + rewrite nth_upd_other by auto. exists x. split; [exact H|constructor].
  - intros q Hq. cbn [s_nodes set_nodes]. apply nth_upd_other. auto.
Qed.
Section Line.
Variables (V : list cstr) (L : list (cstr * Z)).
Hypothesis Ap : apart V L.
Local Notation shape := (shape V L).
Local Notation sound := (sound V L).
(** what a label is before its line *)
Lemma label_was n v s : calm s -> shape s -> In (n, v) L -> meaning s n = (0, false, false, false, false) \/ meaning s n = dcore v.
Proof.
  intros (T & Sc & _) A I. pose proof (proj1 Ap n v I) as P. rewrite (meaning_dl _ _ Sc). destruct (dl s n) as [y|] eqn:D; [|left; reflexivity].
  right. change (ycore y = dcore v). destruct (A n y (proj1 P) D) as [(_ & m & Im & Em)|(m & w & Im & Em & C)].
  - exfalso. apply (proj2 (proj2 Ap) m n Im); [change n with (fst (n, v)); apply in_map, I|exact Em].
  - rewrite (one_value V L n v w m Ap I Im (eq_sym Em)). exact C.
Qed.
Lemma label_v n v n0 s : calm s -> shape s -> In (n, v) L -> 0 <= v <= 65535 -> nth_error (s_nodes s) n0 = Some (mkNode (KLabel n None) []) ->
  exists s2 b, equ_body true n v n0 s = Ok v s2 /\ calm s2 /\ shape s2 /\ dict_search (s_dict s2) n <> None /\
    (forall k, plain k -> meaning s2 k = if list_eq_dec Z.eq_dec (fk k) (fk n) then dcore v else meaning s k) /\
    (forall k, valids k -> dl s k <> None -> dl s2 k <> None) /\ obs s2 = bump b (obs s) /\ (meaning s n = dcore v -> b = false) /\ gw s s2.
Proof.
  intros Cm A I Rv N. pose proof Cm as (T & Sc & St). pose proof (proj1 Ap n v I) as P. pose proof (label_was n v s Cm A I) as W.
  destruct (equ_body_ok true n v n0 s T Sc P ltac:(destruct W as [->| ->]; unfold clean, dcore; eauto) N) as (s1 & H & O & _ & _ & C).
  assert (X : exists s2 b, equ_body true n v n0 s = Ok v s2 /\ tab s2 /\ s_scope s2 = None /\ obs s2 = bump b (obs s) /\ (meaning s n = dcore v -> b = false) /\
    (forall k, plain k -> meaning s2 k = if list_eq_dec Z.eq_dec (fk k) (fk n) then dcore v else meaning s k)).
  { destruct C as [(M & E)|[(_ & Bad & _)|(M & _ & s2 & E & D & O2)]]; [|contradiction|].
    - exists s1, false. split; [exact E|]. split; [apply (h_tab _ _ H)|]. split; [rewrite (h_scope _ _ H); exact Sc|]. split; [exact O|]. split; [auto|].
      intros k Pk. rewrite (h_res _ _ H k Pk). destruct (list_eq_dec _ _ _) as [Ek|_]; [|reflexivity]. rewrite <- M. apply meaning_fk; auto.
    - exists s2, (negb (craw (meaning s n) =? v)). split; [exact E|]. split; [apply (d_tab _ _ _ _ D)|]. split; [rewrite (d_scope _ _ _ _ D), (h_scope _ _ H); exact Sc|]. split; [exact O2|]. split; [contradiction|].
      intros k Pk. destruct (list_eq_dec _ _ _) as [Ek|Ek]; [apply (d_here _ _ _ _ D k Pk Ek)|]. rewrite (d_other _ _ _ _ D k Pk Ek). apply (h_res _ _ H k Pk). }
  clear C H O s1. destruct X as (s2 & b & E & T2 & Sc2 & O2 & B2 & M2).
  destruct (add_plain_spec n s (proj1 T) P (proj2 (proj2 T))) as (a & t & Ea & Tt & Sct & _ & Ha). rewrite Sc in Sct.
  destruct (add_plain_evo n s T P) as (a' & y' & t' & Ea' & _ & Nt & _ & _ & _ & Hh). rewrite Ea in Ea'. injection Ea' as <- <-.
  destruct (equ_at n v n0 s v s2 a t T P Sct Ea E) as (Xd & Xs & Xn). rewrite Nt in Xn.
  assert (Da : dict_search (s_dict s2) n = Some a) by (unfold hand in Hh; rewrite Sct in Hh; rewrite Xd; exact Hh).
  pose proof (others n s a t s2 T Sc P Ea T2 Xd Da Xs) as Same.
  assert (St2 : s_stop s2 = false) by (rewrite <- (obs_get_stop s2), O2, (proj1 (bump_same b (obs s))), obs_get_stop; exact St).
  exists s2, b. split; [exact E|]. split; [split; [exact T2|split; [exact Sc2|exact St2]]|]. split; [|split; [congruence|split; [exact M2|split; [|split; [exact O2|split; [exact B2|]]]]]].
  - intros k z Vk Dk. destruct (list_eq_dec Z.eq_dec (fk k) (fk n)) as [Ek|Ek].
    + right. exists n, v. split; [exact I|]. split; [auto|]. assert (Dn : dl s2 n = Some z) by (unfold dl, dlookup in *; cbn [fst snd] in *; rewrite <- (search_fk s2 k n T2 Vk (proj1 P) Ek); exact Dk).
      pose proof (M2 n P) as Mn. destruct (list_eq_dec _ _ _) as [_|X]; [|congruence]. rewrite (meaning_dl _ _ Sc2), Dn in Mn. exact Mn.
    + pose proof (Same k Vk Ek) as X. rewrite Dk in X. symmetry in X. destruct (isvar_untimed _ _ X) as (w & Dw & Ew). destruct (A k w Vk Dw) as [((u & Ev) & Y)|(m & u & Im & Em & Ev)]; [left; split; [exists u; congruence|exact Y]|right; exists m, u; split; [exact Im|split; [exact Em|congruence]]].
  - intros k Vk Dk. destruct (list_eq_dec Z.eq_dec (fk k) (fk n)) as [Ek|Ek].
    + apply (dl_some _ _ T2 Vk). rewrite (search_fk s2 k n T2 Vk (proj1 P) Ek), Da. discriminate.
    + pose proof (Same k Vk Ek) as X. intros Y. rewrite Y in X. destruct (dl s k); [discriminate X|contradiction].
  - intros q k l Nq Hk. rewrite Xn. destruct (Nat.eq_dec n0 q) as [<-|Hq]; [|rewrite nth_upd_other by auto; exact Nq]. rewrite N in Nq. injection Nq as <- <-. contradiction.
Qed.
(** the same for a label written with or without a colon *)
Lemma label_vt t v n0 s : calm s -> shape s -> In (uncolon t, v) L -> 0 <= v <= 65535 -> nth_error (s_nodes s) n0 = Some (mkNode (KLabel t None) []) ->
  exists s2 b, equ_body true t v n0 s = Ok v s2 /\ calm s2 /\ shape s2 /\ dict_search (s_dict s2) (uncolon t) <> None /\
    (forall k, plain k -> meaning s2 k = if list_eq_dec Z.eq_dec (fk k) (fk (uncolon t)) then dcore v else meaning s k) /\
    (forall k, valids k -> dl s k <> None -> dl s2 k <> None) /\ obs s2 = bump b (obs s) /\ (meaning s (uncolon t) = dcore v -> b = false) /\ gw s s2.
Proof.
  intros Cm A I Rv N. pose proof Cm as (T & Sc & St). pose proof (proj1 Ap _ v I) as P.
  destruct (add_plain_spec (uncolon t) s (proj1 T) P (proj2 (proj2 T))) as (a & t1 & Ea & _).
  set (ns := upd n0 (mkNode (KLabel (uncolon t) None) []) (s_nodes s)).
  assert (Cm0 : calm (set_nodes ns s)) by (split; [apply (tab_same s); auto|split; [exact Sc|exact St]]).
  assert (A0 : shape (set_nodes ns s)) by (apply (shape_keeps _ _ s); [apply keeps_same; reflexivity|exact A]).
  assert (N0 : nth_error (s_nodes (set_nodes ns s)) n0 = Some (mkNode (KLabel (uncolon t) None) [])) by (cbn [s_nodes set_nodes]; apply nth_upd_same, nth_error_Some; congruence).
  destruct (label_v (uncolon t) v n0 (set_nodes ns s) Cm0 A0 I Rv N0) as (s2 & b & E2 & (T2 & Sc2 & St2) & A2 & D2 & M2 & K2 & O2 & B2 & _).
  pose proof (equ_uncolon t v n0 ns s v s2 a t1 P Ea E2) as E3. set (s3 := set_nodes (upd n0 (mkNode (KLabel t (Some a)) []) (s_nodes s)) s2) in *.
  assert (X1 : s_dict s3 = s_dict s2) by reflexivity. assert (X2 : s_syms s3 = s_syms s2) by reflexivity. assert (X3 : s_scope s3 = s_scope s2) by reflexivity. assert (X4 : s_stop s3 = s_stop s2) by reflexivity.
  assert (X5 : obs s3 = obs s2) by apply obs_set_nodes. assert (X6 : s_nodes s3 = upd n0 (mkNode (KLabel t (Some a)) []) (s_nodes s)) by reflexivity. clearbody s3.
  rewrite obs_set_nodes in O2.
  assert (Me : forall k, meaning s3 k = meaning s2 k) by (intros k; unfold meaning, resolve, dl; rewrite X1, X2, X3; reflexivity).
  exists s3, b. split; [exact E3|]. split; [split; [apply (tab_same s2); auto|split; congruence]|]. split; [apply (shape_keeps _ _ s2); [apply keeps_same; auto|exact A2]|]. split; [rewrite X1; exact D2|].
  split; [intros k Pk; rewrite Me; exact (M2 k Pk)|]. split; [intros k Vk Dk; unfold dl in *; rewrite X1, X2; exact (K2 k Vk Dk)|]. split; [congruence|]. split; [exact B2|].
  intros q k l Nq Hk. rewrite X6. destruct (Nat.eq_dec n0 q) as [<-|Hq]; [|rewrite nth_upd_other by auto; exact Nq]. rewrite N in Nq. injection Nq as <- <-. contradiction.
Qed.
Lemma first_any t s : (forall n, In n V -> plain n) -> calm s -> shape s -> plain (uncolon t) -> s_macdef s = 0 -> exists s', tok_first t s = Ok TLab s' /\ sl s s'.
Proof.
  intros Pv Cm A P Md. pose proof Cm as (T & Sc & St). pose proof (uncolon_hd t P) as Hd.
  assert (Vt : valids t) by (destruct (uncolon_cases t) as [E|E]; [rewrite <- E; apply P|rewrite E; apply uncolon_valids, P]).
  destruct (dict_search (s_dict s) t) as [a|] eqn:D.
  - assert (E : uncolon t = t).
    { destruct (uncolon_cases t) as [E|E]; [exact E|exfalso]. destruct (dl s t) as [y|] eqn:Dt; [|apply (dl_some s t T Vt) in Dt; [exact Dt|congruence]].
      assert (G : forall m, plain m -> fk m <> fk t). { intros m Pm X. apply (proj1 (proj2 (proj2 Pm))), (fk_keeps 58); [reflexivity|apply low_only; auto|]. rewrite X, E. unfold fk. rewrite map_app. apply in_or_app. right. left. reflexivity. }
      destruct (A t y Vt Dt) as [(_ & m & Im & Em)|(m & v & Im & Em & _)]; [exact (G m (Pv m Im) Em)|exact (G m (proj1 Ap m v Im) Em)]. }
    rewrite E in P. destruct (first_found t s Cm) as (s' & E1 & Ls & _); [|exact Md|eauto]. intros m [<-|[]]. split; [exact P|]. split; [congruence|].
    destruct (found _ _ _ T Sc P D) as (y & Y & E1 & R). rewrite <- E1. destruct (A t y (proj1 P) R) as [((v & W) & _)|(m & v & _ & _ & W)]; rewrite W; reflexivity.
  - exists s. split; [|apply sl_refl]. assert (Dr : direct t) by (unfold direct; rewrite Hd; apply plain_direct, P). destruct (direct_head _ Dr) as [D1 D2].
    unfold tok_first. rewrite D1, Hd, (plain_92 _ P). unfold look_up_symbol. unfold bind, gets. rewrite Sc. unfold look_up_in, sym_search, bind, gets. rewrite D. unfold ret. rewrite Md. reflexivity.
Qed.
Lemma bump_free b z : free (bump b z) = free z. Proof. destruct b; [apply free_set_changed|reflexivity]. Qed.
Lemma bump_input b z : s_input (bump b z) = s_input z. Proof. destruct b; reflexivity. Qed.
Lemma stock_label D T env n v s s2 : tab s -> tab s2 -> plain n -> (forall m, In m T -> fk m <> fk n) -> stock D T env s -> dict_search (s_dict s2) n <> None ->
  (forall k, plain k -> meaning s2 k = if list_eq_dec Z.eq_dec (fk k) (fk n) then dcore v else meaning s k) -> (forall k, valids k -> dl s k <> None -> dl s2 k <> None) ->
  stock (n :: D) T (with_value env n v) s2.
Proof.
  intros Ts T2 P Nt S Dn M Dk k Pk (m & Im & Em). rewrite (M k Pk). unfold with_value. fold (fk k) (fk n). destruct (list_eq_dec Z.eq_dec (fk k) (fk n)) as [E|E].
  - split; [rewrite (search_fk s2 k n T2 (proj1 Pk) (proj1 P) E); exact Dn|]. exists false. split; [reflexivity|]. intros (x & Ix & Ex). exfalso. apply (Nt x Ix). unfold fk in *. congruence.
  - destruct Im as [<-|Im]; [exfalso; apply E; symmetry; exact Em|]. destruct (S k Pk (ex_intro _ m (conj Im Em))) as (A & b & B & C). split; [|exists b; split; [exact B|exact C]].
    apply (dl_some _ _ T2 (proj1 Pk)), Dk; [apply Pk|]. apply (dl_some _ _ Ts (proj1 Pk)), A.
Qed.
(** the label's own line, up to the statement behind it *)
Lemma label_head F t d a c w D T env s (n := uncolon t) : calm s -> shape s -> In (n, s_pc s) L -> 0 <= s_pc s <= 65535 -> incl T V -> stock D T env s ->
  nth_error (s_nodes s) d = Some (mkNode (KOpr OEqu) [a; c]) -> nth_error (s_nodes s) a = Some (mkNode (KLabel t None) []) -> nth_error (s_nodes s) c = Some (mkNode (KCon w true) []) ->
  exists s1 s2, expand (S (S F)) d s = Ok (s_pc s) s2 /\ near s s1 /\ gw s1 s2 /\ sound (n :: D) T (with_value env n (s_pc s)) s2 /\ mo s2 = mo s /\ s_input s2 = s_input s /\
    (meaning s n = dcore (s_pc s) -> s_changed s2 = s_changed s) /\ (forall k, plain k -> meaning s2 k = if list_eq_dec Z.eq_dec (fk k) (fk n) then dcore (s_pc s) else meaning s k).
Proof.
  intros Cm A I Rv It Sk Nd Na Nc. pose proof (proj1 Ap n _ I) as P. rewrite (expand_equ _ _ _ _ _ (proj2 (proj2 Cm)) Nd).
  destruct (pc_near F c w s Cm Nc) as (s1 & E1 & Nr & Nn). pose proof Nr as (Q1 & M1 & Me1 & I1 & C1).
  assert (Na1 : nth_error (s_nodes s1) a = Some (mkNode (KLabel t None) [])) by (rewrite Nn; [exact Na|intros ->; congruence]).
  rewrite (x_equ_uncolon (S F) t a c (s_pc s) s s1 P E1 Na1).
  destruct (label_vt t (s_pc s) a s1 (calm_qt _ _ Q1 Cm) (shape_qt _ _ _ _ Q1 A) I Rv Na1) as (s2 & b & E2 & Cm2 & A2 & D2 & M2 & K2 & O2 & B2 & G2).
  exists s1, s2. split; [exact E2|]. split; [exact Nr|]. split; [exact G2|]. split; [|split; [|split; [|split]]].
  - split; [exact Cm2|]. split; [exact A2|]. apply (stock_label D T env n (s_pc s) s1 s2); auto; [apply (calm_qt _ _ Q1 Cm)|apply Cm2| |exact (stock_near _ _ _ _ _ Nr Sk)].
    intros m Im. apply (proj2 (proj2 Ap) m n (It m Im)). change n with (fst (n, s_pc s)). apply in_map, I.
  - rewrite <- M1. unfold mo. rewrite O2. apply bump_free.
  - rewrite <- I1, <- (obs_get_input s2), O2, bump_input. apply obs_get_input.
  - intros Mn. rewrite <- C1, <- (obs_get_changed s2), O2, B2 by (rewrite Me1 by exact P; exact Mn). apply obs_get_changed.
  - intros k Pk. rewrite (M2 k Pk). destruct (list_eq_dec _ _ _); [reflexivity|apply Me1, Pk].
Qed.
End Line.
