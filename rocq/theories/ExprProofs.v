(** Evaluation of expression trees in the machine. *)
From Coq Require Import String Lia.
From Verif Require Import Base BaseProofs Hash Dict DictProofs DictMore Str Opcodes Err State Sym Machine Build Pass
  Gen Inv SymProofs Sem.
Open Scope string_scope.
Open Scope list_scope.
Open Scope Z_scope.
Open Scope m_scope.
Ltac Zify.zify_post_hook ::= Z.div_mod_to_equations.

(** ** What evaluation sees of a symbol: value, initialised, parameter, macro name, variable *)
Definition core_t := (Z * bool * bool * bool * bool)%type.
Definition ycore (y : symbol) : core_t := (y_value y, y_init y, y_mparam y, y_mname y, y_var y).
(** what stays of a record while expressions are evaluated *)
Definition yfix (y : symbol) : core_t * option (nat * nat) := (ycore y, y_macro y).
Definition core (o : option symbol) : core_t := match o with Some y => ycore y | None => (0, false, false, false, false) end.
Definition cval (c : core_t) : Z := let '(v, i, _, _, _) := c in if i then v else 0.
Definition cmacro (c : core_t) : bool := let '(_, _, _, m, _) := c in m.
Definition cuninit (c : core_t) : bool := let '(_, i, p, m, _) := c in if p || m then false else negb i.
(** what a plain name means in the current scope *)
Definition meaning (s : state) (n : cstr) : core_t := core (resolve s (s_scope s) n).
Definition env (s : state) (n : cstr) : Z := cval (meaning s n).

Lemma core_untimed o o' : untimed o = untimed o' -> core o = core o'.
Proof.
  destruct o as [[]|], o' as [[]|]; cbn; intros H; try discriminate; auto. injection H; intros; subst. reflexivity.
Qed.
Lemma yfix_untimed o o' : untimed o = untimed o' -> option_map yfix o = option_map yfix o'.
Proof. destruct o, o'; intros H; try discriminate; auto. cbn in *. unfold yfix, ycore. congruence. Qed.
Lemma core_sanitize y : ycore (sanitize_symbol y) = ycore y.
Proof.
  unfold sanitize_symbol. destruct (y_mparam y) eqn:E, (y_scope y); try reflexivity;
    destruct (split_last (y_name y)) as [[]|]; reflexivity.
Qed.
Lemma core_times y : ycore (y_times_inc y) = ycore y.
Proof. reflexivity. Qed.

(** the symbol table is well formed, every key has one record, the scope is a proper string *)
Definition tab (s : state) : Prop :=
  table_ok s /\ (forall k, valids k -> single s k) /\ (forall c, s_scope s = Some c -> valids c).

Lemma reinsert_prefix es : forall (d : dict) (h : list symbol) d' h', reinsert es d h = (d', h') -> exists l, h' = h ++ l.
Proof.
  induction es as [|[k a] es IH]; intros d h d' h' E; cbn [reinsert] in E.
  - injection E as <- <-. exists []. now rewrite app_nil_r.
  - destruct (nth_error h a) as [v|]; [|eauto]. unfold dict_insert_raw in E. apply IH in E. destruct E as [l ->].
    exists (v :: l). rewrite <- app_assoc. reflexivity.
Qed.
Lemma insert_prefix (d : dict) (h : list symbol) k v d' h' a : dict_insert d h k v = (d', h', a) -> exists l, h' = h ++ l.
Proof.
  intros E. destruct (dict_insert_handle _ _ _ _ _ _ _ E) as (d1 & _ & [(_ & _ & ->)|(_ & G)]); [eauto|].
  apply reinsert_prefix in G. destruct G as [l ->]. exists (v :: l). rewrite <- app_assoc. reflexivity.
Qed.

(** ** The effect of evaluating an expression *)
Inductive nx (s s' : state) : node -> node -> Prop :=
| NxSame x : nx s s' x x
| NxPc v w l : nx s s' (mkNode (KCon v true) l) (mkNode (KCon w true) l)
| NxId n a y l : plain n -> nth_error (s_syms s') a = Some y -> ycore y = meaning s n ->
    nx s s' (mkNode (KId n None) l) (mkNode (KId n (Some a)) l).

(** ** Handles *)
(** the record a plain name refers to in the current scope *)
Definition hand (s : state) (n : cstr) : option nat :=
  match s_scope s with
  | None => dict_search (s_dict s) n
  | Some c => match dict_search (s_dict s) (dotted c n) with Some a => Some a | None => dict_search (s_dict s) n end
  end.
(** outside sections, a record cached in a node belongs to no other name, and the name is in the table *)
Definition owned (s : state) : Prop := s_scope s = None ->
  forall p n a l, nth_error (s_nodes s) p = Some (mkNode (KId n (Some a)) l) -> plain n ->
    (a < length (s_syms s))%nat /\ dl s n <> None /\ forall k, valids k -> dict_search (s_dict s) k = Some a -> fk k = fk n.
(** names that never get into the table by the names of labels and variables: A, and names with a colon and without a dot *)
Definition never (k : cstr) : Prop := fk k = fk (cs "A") \/ (In 58 k /\ ~ In 46 k).
Lemma fk_keeps c k : tolower c = c -> (forall x, tolower x = c -> x = c) -> In c (fk k) -> In c k.
Proof. intros _ H I. apply in_map_iff in I. destruct I as (x & E & Hx). apply H in E. subst. exact Hx. Qed.
Lemma low_only c : c = 46 \/ c = 58 -> forall x, tolower x = c -> x = c.
Proof. intros H x. unfold tolower. destruct ((65 <=? x) && (x <=? 90)) eqn:U; [|auto]. rewrite andb_true_iff, !Z.leb_le in U. lia. Qed.
Lemma fk_has c k : In c k -> In (tolower c) (fk k).
Proof. apply in_map. Qed.
(** records are never reused for other names, names stay in the table *)
Record kept (s s' : state) : Prop := mkKept {
  k_len : (length (s_syms s) <= length (s_syms s'))%nat;
  k_old : forall k a, valids k -> dict_search (s_dict s') k = Some a -> (a < length (s_syms s))%nat -> dict_search (s_dict s) k = Some a;
  k_pm : forall k, valids k -> dl s k <> None -> option_map y_pm (dl s' k) = option_map y_pm (dl s k);
  k_acc : forall k, valids k -> never k -> dl s k = None -> dl s' k = None;
  k_own : owned s -> owned s';
  k_new : forall k y, valids k -> dl s k = None -> dl s' k = Some y -> y_pm y = false
}.
Definition cold (k : nkind) : bool := match k with KId _ (Some _) => false | _ => true end.
Lemma kept_refl s : kept s s.
Proof. constructor; auto. intros; congruence. Qed.
Lemma kept_trans a b c : kept a b -> kept b c -> kept a c.
Proof.
  intros [A1 A2 A3 A4 A5 A6] [B1 B2 B3 B4 B5 B6]. constructor.
  - lia.
  - intros k x Vk H L. apply A2; auto. apply B2; auto. lia.
  - intros k Vk H. pose proof (A3 k Vk H) as E. rewrite B3; auto. intros X. rewrite X in E.
    destruct (dl a k); [discriminate|auto].
  - auto.
  - auto.
  - intros k y Vk H1 H2. destruct (dl b k) as [y1|] eqn:E; [|eauto].
    pose proof (A6 k y1 Vk H1 E). pose proof (B3 k Vk ltac:(congruence)) as X. rewrite H2, E in X. cbn in X. congruence.
Qed.
(** the same dictionary, the same records but for their counters, and the nodes changed at one place *)
Lemma kept_nodes s s' : s_dict s' = s_dict s -> s_scope s' = s_scope s -> length (s_syms s') = length (s_syms s) ->
  (forall b, option_map y_pm (nth_error (s_syms s') b) = option_map y_pm (nth_error (s_syms s) b)) ->
  (forall p n a l, nth_error (s_nodes s') p = Some (mkNode (KId n (Some a)) l) -> plain n ->
     nth_error (s_nodes s) p = Some (mkNode (KId n (Some a)) l) \/
     (a < length (s_syms s))%nat /\ (s_scope s = None -> dl s n <> None /\ forall k, valids k -> dict_search (s_dict s) k = Some a -> fk k = fk n)) -> kept s s'.
Proof.
  intros E1 E2 E3 E4 H.
  assert (D : forall k, option_map y_pm (dl s' k) = option_map y_pm (dl s k)).
  { intros k. unfold dl, dlookup. cbn [fst snd]. rewrite E1. destruct (dict_search (s_dict s) k); auto. }
  constructor.
  - lia.
  - intros k a _. rewrite E1. auto.
  - intros k _ _. apply D.
  - intros k _ _ X. specialize (D k). rewrite X in D. destruct (dl s' k); [discriminate|reflexivity].
  - intros O Sc p n a l N P. rewrite E2 in Sc. rewrite E3, E1.
    assert (X : (a < length (s_syms s))%nat /\ dl s n <> None /\ forall k, valids k -> dict_search (s_dict s) k = Some a -> fk k = fk n).
    { destruct (H _ _ _ _ N P) as [N'|[H1 H2]]; [eapply (O Sc); eauto|auto]. }
    destruct X as (X1 & X2 & X3). split; [exact X1|split; [|exact X3]].
    intros Y. apply X2. specialize (D n). rewrite Y in D. destruct (dl s n); [discriminate|reflexivity].
  - intros k y _ H1 H2. specialize (D k). rewrite H1, H2 in D. discriminate.
Qed.
Lemma kept_same s s' : s_dict s' = s_dict s -> s_scope s' = s_scope s -> s_nodes s' = s_nodes s -> s_syms s' = s_syms s -> kept s s'.
Proof. intros E1 E2 E3 E4. apply kept_nodes; auto; [rewrite E4; auto|rewrite E4; auto|rewrite E3; auto]. Qed.
Lemma kept_alloc k l s : cold k = true -> kept s (set_nodes (s_nodes s ++ [mkNode k l]) s).
Proof.
  intros Ck. apply kept_nodes; auto. intros p n a l' N _. left. cbn [s_nodes set_nodes] in N.
  destruct (Nat.lt_ge_cases p (length (s_nodes s))) as [L|L].
  - rewrite nth_error_app1 in N by auto. exact N.
  - rewrite nth_error_app2 in N by auto. destruct (p - length (s_nodes s))%nat as [|i]; cbn in N; [|destruct i; discriminate].
    injection N as -> ->. discriminate.
Qed.
Lemma kept_upd p k l s : cold k = true -> kept s (set_nodes (upd p (mkNode k l) (s_nodes s)) s).
Proof.
  intros Ck. apply kept_nodes; auto. intros q n a l' N _. left. cbn [s_nodes set_nodes] in N.
  destruct (Nat.eq_dec p q) as [<-|Hn].
  - destruct (Nat.lt_ge_cases p (length (s_nodes s))) as [L|L].
    + rewrite nth_upd_same in N by auto. injection N as -> ->. discriminate.
    + assert (nth_error (upd p (mkNode k l) (s_nodes s)) p = None) as X by (apply nth_error_None; rewrite upd_length; auto). congruence.
  - rewrite nth_upd_other in N by auto. exact N.
Qed.
(** an insertion *)
Lemma in_concat_upd {A} n (y : list A) t x : In x (concat (upd n y t)) -> In x y \/ In x (concat t).
Proof.
  revert n. induction t as [|c t IH]; intros n; [destruct n; cbn; auto|]. destruct n as [|n]; cbn [upd concat].
  - rewrite !in_app_iff. tauto.
  - rewrite !in_app_iff. intros [H|H]; [tauto|]. apply IH in H. tauto.
Qed.
Lemma in_chain (d : dict) n x : In x (chain d n) -> In x (concat (dtable d)).
Proof.
  unfold chain. intros H. apply in_concat. exists (nth n (dtable d) []). split; [|exact H].
  destruct (Nat.lt_ge_cases n (length (dtable d))) as [L|L]; [apply nth_In; exact L|]. rewrite nth_overflow in H by exact L. destruct H.
Qed.
Lemma raw_ge (d : dict) (h : list symbol) k v d' h' a N : dict_insert_raw d h k v = (d', h', a) -> (N <= length h)%nat ->
  Forall (fun b => (N <= b)%nat) (addrs d) -> Forall (fun b => (N <= b)%nat) (addrs d') /\ h' = h ++ [v].
Proof.
  unfold dict_insert_raw. intros E L F. injection E as <- <- _. split; [|reflexivity]. unfold addrs in *. cbn [dtable].
  rewrite Forall_forall in *. intros b Hb. apply in_map_iff in Hb. destruct Hb as ([k1 b1] & <- & Hb). cbn [snd].
  apply in_concat_upd in Hb. destruct Hb as [[Hb|Hb]|Hb].
  - injection Hb as <- <-. exact L.
  - apply in_chain in Hb. apply F. apply in_map_iff. exists (k1, b1). auto.
  - apply F. apply in_map_iff. exists (k1, b1). auto.
Qed.
Lemma reinsert_ge N es : forall (d : dict) (h : list symbol) d' h', reinsert es d h = (d', h') -> (N <= length h)%nat ->
  Forall (fun b => (N <= b)%nat) (addrs d) -> Forall (fun b => (N <= b)%nat) (addrs d') /\ (length h <= length h')%nat.
Proof.
  induction es as [|[k a] es IH]; intros d h d' h' E L F; cbn [reinsert] in E; [injection E as <- <-; auto|].
  destruct (nth_error h a) as [v|]; [|eauto].
  destruct (dict_insert_raw d h k v) as [[d1 h1] a1] eqn:R. destruct (raw_ge _ _ _ _ _ _ _ _ R L F) as [F1 ->].
  destruct (IH _ _ _ _ E) as [F2 L2]; auto; rewrite app_length in *; cbn in *; [lia|]. split; [auto|lia].
Qed.
Lemma concat_repeat_nil {A} n : concat (repeat (@nil A) n) = [].
Proof. induction n; cbn; auto. Qed.
Lemma insert_keeps (d : dict) (h : list symbol) k v d' h' a : WF d h -> valids k -> dict_insert d h k v = (d', h', a) ->
  dict_search d' k = a /\ (length h <= length h')%nat /\
  (forall k' b, valids k' -> dict_search d' k' = Some b -> (b < length h)%nat -> dict_search d k' = Some b).
Proof.
  intros W0 Vk E. pose proof W0 as [W _]. destruct (dict_insert_handle _ _ _ _ _ _ _ E) as (d1 & R & [(-> & -> & ->)|(-> & G)]).
  - pose proof (proj1 (insert_raw_wf _ _ _ _ _ _ _ W Vk R)) as W1. split; [|split].
    + rewrite (dict_search_stack _ _ _ W1 Vk), (insert_raw_stack _ _ _ _ _ _ _ k W Vk R).
      assert (lzeqb (fk k) (fk k) = true) as -> by (apply streq_eq; reflexivity). reflexivity.
    + rewrite app_length. lia.
    + intros k' b Vk' Hs L. rewrite (dict_search_stack _ _ _ W1 Vk'), (insert_raw_stack _ _ _ _ _ _ _ k' W Vk R) in Hs.
      rewrite (dict_search_stack _ _ _ W Vk'). destruct (lzeqb (fk k) (fk k')); [|exact Hs]. injection Hs as <-. lia.
  - split; [reflexivity|]. unfold dict_grow in G.
    destruct (reinsert_ge (length h) _ _ _ _ _ G) as [F L]; [rewrite app_length; lia| |].
    { unfold addrs, dict_create_sz. cbn [dtable]. rewrite concat_repeat_nil. constructor. }
    rewrite app_length in L. cbn in L. split; [lia|]. intros k' b Vk' Hs Lb. exfalso.
    assert (W2 : WF d' h') by exact (insert_wf _ _ _ _ _ _ _ W0 Vk E).
    rewrite (dict_search_stack _ _ _ (proj1 W2) Vk') in Hs.
    destruct (stackof d' k') as [|[k1 b1] t] eqn:St; [discriminate|]. injection Hs as ->.
    assert (In (k1, b) (concat (dtable d'))) as I.
    { assert (In (k1, b) (stackof d' k')) as I by (rewrite St; left; reflexivity). unfold stackof in I. apply filter_In in I. apply I. }
    rewrite Forall_forall in F. specialize (F b). unfold addrs in F. rewrite in_map_iff in F.
    specialize (F (ex_intro _ (k1, b) (conj eq_refl I))). lia.
Qed.

(** two names with the same record are the same *)
Lemma addr_unique s k k' a : table_ok s -> valids k -> valids k' -> dict_search (s_dict s) k = Some a -> dict_search (s_dict s) k' = Some a ->
  fk k = fk k'.
Proof.
  intros [[W0 W1] N] Vk Vk' H H'. pose proof H' as S'. rewrite (dict_search_stack _ _ _ W0 Vk') in S'.
  destruct (stackof (s_dict s) k') as [|[k1 b] t] eqn:St; [discriminate|]. injection S' as ->.
  apply (stack_addr_key (s_dict s) (s_syms s) k k' a (k1, a)); auto. rewrite St. left; auto.
Qed.

Lemma look_up_hand n s r s' : look_up_in (s_scope s) n s = Ok r s' -> hand s n = r.
Proof.
  unfold look_up_in, hand, sym_search, bind, gets, sym_get, sym_set, modify, ret, bind, gets.
  destruct (s_scope s) as [c|].
  - destruct (dict_search (s_dict s) (dotted c n)) as [a|].
    + destruct (nth_error (s_syms s) a); intros E; inversion E; reflexivity.
    + destruct (dict_search (s_dict s) n) as [a|]; [|intros E; inversion E; reflexivity].
      destruct (nth_error (s_syms s) a); intros E; inversion E; reflexivity.
  - destruct (dict_search (s_dict s) n) as [a|]; [|intros E; inversion E; reflexivity].
    destruct (nth_error (s_syms s) a); intros E; inversion E; reflexivity.
Qed.

Record evo (s s' : state) : Prop := mkEvo {
  e_keep : kept s s';
  e_same : s' = set_nodes (s_nodes s') (set_syms (s_syms s') (set_dict (s_dict s')
             (set_errs (s_errs s') (set_msgs (s_msgs s') s))));
  e_errs : s_errs s <= s_errs s';
  e_msgs : exists l, s_msgs s' = l ++ s_msgs s;
  e_tab : tab s';
  e_rec : forall a y, nth_error (s_syms s) a = Some y -> exists y', nth_error (s_syms s') a = Some y' /\ ycore y' = ycore y;
  e_res : forall n, plain n -> meaning s' n = meaning s n;
  e_len : (length (s_nodes s) <= length (s_nodes s'))%nat;
  e_node : forall p x, nth_error (s_nodes s) p = Some x ->
             exists x', nth_error (s_nodes s') p = Some x' /\ nx s s' x x';
  e_dl : forall k, valids k -> dl s k <> None -> option_map yfix (dl s' k) = option_map yfix (dl s k)
}.

Lemma same_scope a b : a = set_nodes (s_nodes a) (set_syms (s_syms a) (set_dict (s_dict a)
             (set_errs (s_errs a) (set_msgs (s_msgs a) b)))) -> s_scope a = s_scope b /\ s_pc a = s_pc b /\ s_stop a = s_stop b.
Proof. intros ->. repeat split. Qed.

Lemma evo_refl s : tab s -> evo s s.
Proof.
  intros T. constructor; auto; try lia.
  - apply kept_refl.
  - destruct s; reflexivity.
  - exists []; reflexivity.
  - eauto.
  - intros p x H. exists x. split; auto. constructor.
Qed.

Lemma evo_trans a b c : evo a b -> evo b c -> evo a c.
Proof.
  intros H1 H2. constructor.
  - exact (kept_trans _ _ _ (e_keep _ _ H1) (e_keep _ _ H2)).
  - rewrite (e_same _ _ H2). cbn [s_nodes s_syms s_dict s_errs s_msgs set_nodes set_syms set_dict set_errs set_msgs].
    rewrite (e_same _ _ H1) at 1. reflexivity.
  - pose proof (e_errs _ _ H1). pose proof (e_errs _ _ H2). lia.
  - destruct (e_msgs _ _ H1) as [l E1], (e_msgs _ _ H2) as [l' E2]. exists (l' ++ l). rewrite E2, E1, app_assoc. reflexivity.
  - apply (e_tab _ _ H2).
  - intros p y Hp. destruct (e_rec _ _ H1 _ _ Hp) as (y1 & Hp1 & E1). destruct (e_rec _ _ H2 _ _ Hp1) as (y2 & Hp2 & E2).
    exists y2. split; congruence.
  - intros n Hn. rewrite (e_res _ _ H2 n Hn). apply (e_res _ _ H1 n Hn).
  - etransitivity; [apply (e_len _ _ H1)|apply (e_len _ _ H2)].
  - intros p x Hp. destruct (e_node _ _ H1 _ _ Hp) as (x1 & Hp1 & E1). destruct (e_node _ _ H2 _ _ Hp1) as (x2 & Hp2 & E2).
    exists x2. split; auto. destruct E1 as [x|v w l|n a0 y l Pn Hy Ey].
    + destruct E2 as [x|v w l|n a0 y l Pn Hy Ey]; try constructor. econstructor; eauto. rewrite Ey. apply (e_res _ _ H1 _ Pn).
    + inversion E2; subst; constructor.
    + assert (x2 = mkNode (KId n (Some a0)) l) as -> by (inversion E2; reflexivity).
      destruct (e_rec _ _ H2 _ _ Hy) as (y' & Hy' & Ey'). econstructor; eauto. congruence.
  - intros k Vk Hk. rewrite (e_dl _ _ H2 k Vk); [apply (e_dl _ _ H1 k Vk Hk)|].
    intros N. pose proof (e_dl _ _ H1 k Vk Hk) as U. rewrite N in U. destruct (dl a k); [discriminate U|auto].
Qed.

(** reporting an error *)
Lemma evo_err n s : tab s -> evo s (set_errs (s_errs s + 1) (set_msgs (n :: s_msgs s) s)).
Proof.
  intros T. constructor; auto; cbn [s_errs s_nodes s_syms s_msgs set_errs set_msgs]; try lia.
  - apply kept_same; reflexivity.
  - exists [n]. reflexivity.
  - eauto.
  - intros p x H. exists x. split; auto. constructor.
Qed.

(** '*' *)
Lemma evo_pcnode p v l s : tab s -> nth_error (s_nodes s) p = Some (mkNode (KCon v true) l) ->
  evo s (set_nodes (upd p (mkNode (KCon (s_pc s) true) l) (s_nodes s)) s).
Proof.
  intros T H. constructor; auto; cbn [s_errs s_nodes s_syms s_msgs set_nodes]; try lia.
  - apply kept_upd; reflexivity.
  - exists []. reflexivity.
  - eauto.
  - rewrite upd_length. auto.
  - intros q x Hq. destruct (Nat.eq_dec p q) as [<-|Hn].
    + rewrite nth_upd_same by (apply nth_error_Some; congruence). eexists; split; [reflexivity|].
      assert (x = mkNode (KCon v true) l) as -> by congruence. constructor.
    + rewrite nth_upd_other by auto. exists x. split; auto. constructor.
Qed.

(** adding a plain name, with what it does to the other records *)
Lemma add_plain_evo n s : tab s -> plain n ->
  exists a y s', add_symbol n s = Ok (Some a) s' /\ evo s s' /\ s_nodes s' = s_nodes s /\ s_errs s' = s_errs s /\
    nth_error (s_syms s') a = Some y /\ ycore y = meaning s n /\ hand s' n = Some a.
Proof.
  intros (T & Sg & Hsc) P. 
  destruct (add_plain_spec n s T P Hsc) as (a & s' & E & T' & Sc & Sg' & H).
  assert (Inv : (exists y, hand s n = Some a /\ nth_error (s_syms s) a = Some y /\ s' = set_syms (upd a (y_times_inc y) (s_syms s)) s) \/
                exists d h l y', hand s n = None /\ dict_insert (s_dict s) (s_syms s) (under (s_scope s) n)
                         (new_symbol false false false false (s_scope s) n (under (s_scope s) n)) = (d, h, Some a) /\
                       h = s_syms s ++ l /\ nth_error h a = Some y' /\
                       s' = set_syms (upd a (sanitize_symbol y') h) (set_dict d (set_syms h s))).
  { rewrite (add_plain_eq _ _ P) in E. unfold bind at 1 in E.
    destruct (look_up_in_spec (s_scope s) n s (proj1 T) (proj1 P) Hsc) as (r & s1 & E1 & Hr). rewrite E1 in E.
    pose proof (look_up_hand _ _ _ _ E1) as Hh.
    destruct r as [b|].
    - left. destruct Hr as (y & Hy & _ & ->). unfold ret in E. injection E as <- <-. eauto.
    - right. destruct Hr as [_ ->]. unfold bind, ret in E.
      destruct (sym_insert _ _ s) as [b s2| | |] eqn:E2; try discriminate. injection E as <- <-.
      apply sym_insert_inv in E2. destruct E2 as (d & h & y' & F1 & F2 & ->).
      destruct (insert_prefix _ _ _ _ _ _ _ F1) as [l ->]. exists d, (s_syms s ++ l), l, y'. auto 10. }
  assert (Old : forall b y, nth_error (s_syms s) b = Some y -> exists y', nth_error (s_syms s') b = Some y' /\ ycore y' = ycore y).
  { intros b y Hb. destruct Inv as [(y0 & _ & Hy & ->)|(d & h & l & y' & _ & _ & -> & Hy & ->)]; cbn [s_syms set_syms].
    - destruct (Nat.eq_dec a b) as [<-|Hn].
      + rewrite nth_upd_same by (apply nth_error_Some; congruence). eexists; split; [reflexivity|]. rewrite Hy in Hb.
        injection Hb as ->. apply core_times.
      + rewrite nth_upd_other by auto. eauto.
    - assert (Hb' : nth_error (s_syms s ++ l) b = Some y) by (rewrite nth_error_app1; [auto|apply nth_error_Some; congruence]).
      destruct (Nat.eq_dec a b) as [<-|Hn].
      + rewrite nth_upd_same by (apply nth_error_Some; congruence). eexists; split; [reflexivity|].
        rewrite core_sanitize. congruence.
      + rewrite nth_upd_other by auto. eauto. }
  assert (Res : forall m, plain m -> meaning s' m = meaning s m).
  { intros m Pm. unfold meaning. rewrite Sc. destruct (resolve s (s_scope s) n) as [y|] eqn:Er.
    - destruct H as [_ H]. unfold resolve. destruct (s_scope s) as [c|]; [|apply core_untimed, H].
      pose proof (H (dotted c m)) as H1. pose proof (H m) as H2.
      destruct (dl s' (dotted c m)), (dl s (dotted c m)); try discriminate H1; apply core_untimed; assumption.
    - destruct H as (K1 & K2 & K3).
      assert (Vu : valids (under (s_scope s) n)) by (apply valids_under; [auto|apply P]).
      destruct (list_eq_dec Z.eq_dec (fk m) (fk n)) as [En|En].
      + (* the same name in another case *)
        assert (R1 : forall k, valids k -> fk k = fk (under (s_scope s) n) -> dl s' k = Some (fresh (s_scope s) n) /\ dl s k = dl s (under (s_scope s) n)).
        { intros k Vk Ek. rewrite !dl_recs by auto. rewrite (dl_recs _ _ T' Vu) in K1.
          assert (forall t, recs t k = recs t (under (s_scope s) n)) as Rk.
          { intros t. unfold recs, stackof. f_equal. apply filter_ext. intros e. unfold matches. now rewrite Ek. }
          rewrite !Rk, K1. auto. }
        unfold resolve in Er |- *. destruct (s_scope s) as [c|] eqn:Es.
        * destruct (dl s (dotted c n)) eqn:D1; [discriminate|].
          assert (Ed : fk (dotted c m) = fk (dotted c n)) by (unfold dotted, fk in *; rewrite !map_app; cbn; congruence).
          destruct (R1 (dotted c m)) as [Q1 Q2]; [apply valids_dotted; [auto|apply Pm]|exact Ed|].
          rewrite Q1, Q2. cbn [under]. rewrite D1.
          assert (dl s m = dl s n) as ->; [|rewrite Er; reflexivity].
          rewrite !dl_recs; try apply Pm; try apply P; auto. unfold recs, stackof.
          replace (filter (matches m) (concat (dtable (s_dict s)))) with (filter (matches n) (concat (dtable (s_dict s)))); auto.
          apply filter_ext. intros e. unfold matches. now rewrite En.
        * destruct (R1 m) as [Q1 Q2]; [apply Pm|exact En|]. rewrite Q1, Q2. cbn [under]. rewrite Er. reflexivity.
      + f_equal. unfold resolve in *. destruct (s_scope s) as [c|] eqn:Es.
        * assert (dl s' (dotted c m) = dl s (dotted c m)) as ->.
          { apply K3; [apply valids_dotted; [auto|apply Pm]| |apply Sg, valids_dotted; [auto|apply Pm]].
            cbn [under]. intros X. apply dotted_inj in X; [|apply Pm|apply P]. tauto. }
          assert (dl s' m = dl s m) as ->; auto.
          apply K3; [apply Pm| |apply Sg, Pm]. cbn [under]. intros X. symmetry in X. revert X. apply dotted_plain, Pm.
        * apply K3; [apply Pm|exact En|apply Sg, Pm]. }
  assert (Rec : exists y, nth_error (s_syms s') a = Some y /\ ycore y = meaning s n).
  { unfold meaning. destruct (resolve s (s_scope s) n) as [y|].
    - destruct H as [Hy _]. destruct (Old _ _ Hy) as (y' & Hy' & Ey). exists y'. auto.
    - destruct H as (_ & Hy & _). eexists. split; [exact Hy|]. reflexivity. }
  assert (Pmk : forall k, valids k -> dl s k <> None -> option_map y_pm (dl s' k) = option_map y_pm (dl s k)).
  { assert (Um : forall o o', untimed o = untimed o' -> option_map y_pm o = option_map y_pm o').
    { intros [x|] [x'|] U; try discriminate U; [|reflexivity]. cbn in U. injection U. intros. cbn. congruence. }
    intros k Vk Hk. destruct (resolve s (s_scope s) n) as [y|] eqn:Er.
    - destruct H as [_ H]. apply Um, H.
    - destruct H as (_ & _ & K3). f_equal. apply K3; [exact Vk| |apply Sg, Vk]. intros X. apply Hk.
      assert (dl s k = dl s (under (s_scope s) n)) as ->.
      { assert (Vu : valids (under (s_scope s) n)) by (apply valids_under; [auto|apply P]).
        rewrite !dl_recs by auto. unfold recs, stackof.
        replace (filter (matches k) (concat (dtable (s_dict s)))) with (filter (matches (under (s_scope s) n)) (concat (dtable (s_dict s)))); auto.
        apply filter_ext. intros e. unfold matches. now rewrite X. }
      unfold resolve in Er. destruct (s_scope s) as [c|]; cbn [under]; [|exact Er]. destruct (dl s (dotted c n)); [discriminate|reflexivity]. }
  assert (Acc : forall k, valids k -> never k -> dl s k = None -> dl s' k = None).
  { intros k Vk Ek Hk. destruct (resolve s (s_scope s) n) as [y|] eqn:Er.
    - destruct H as [_ H]. specialize (H k). rewrite Hk in H. destruct (dl s' k); [discriminate|reflexivity].
    - destruct H as (_ & _ & K3). rewrite (K3 k Vk); [exact Hk| |apply Sg, Vk]. intros X. destruct Ek as [Ek|[Ek Nk]].
      2: { destruct (s_scope s) as [c|]; cbn [under] in X.
        - apply Nk, (fk_keeps 46); [reflexivity|apply low_only; auto|]. rewrite X. apply (fk_has 46). unfold dotted. apply in_or_app. right. left. reflexivity.
        - apply (proj1 (proj2 (proj2 P))), (fk_keeps 58); [reflexivity|apply low_only; auto|]. rewrite <- X. apply (fk_has 58), Ek. }
      rewrite Ek in X. destruct (s_scope s) as [c|]; cbn [under] in X.
      + symmetry in X. revert X. apply dotted_plain. now intros [|[]].
      + apply P. apply stricmp_0_iff; [apply P|now apply validsb_ok|]. symmetry. exact X. }
  assert (New : forall k y, valids k -> dl s k = None -> dl s' k = Some y -> y_pm y = false).
  { intros k y Vk Hk Hk'. destruct (resolve s (s_scope s) n) as [y0|] eqn:Er.
    - destruct H as [_ H]. specialize (H k). rewrite Hk, Hk' in H. discriminate.
    - destruct H as (K1 & _ & K3).
      assert (Vu : valids (under (s_scope s) n)) by (apply valids_under; [auto|apply P]).
      destruct (list_eq_dec Z.eq_dec (fk k) (fk (under (s_scope s) n))) as [X|X].
      + assert (dl s' k = dl s' (under (s_scope s) n)) as Q.
        { rewrite !dl_recs by auto. unfold recs, stackof.
          replace (filter (matches k) (concat (dtable (s_dict s')))) with (filter (matches (under (s_scope s) n)) (concat (dtable (s_dict s')))); auto.
          apply filter_ext. intros e. unfold matches. now rewrite X. }
        rewrite Q, K1 in Hk'. injection Hk' as <-. reflexivity.
      + rewrite (K3 k Vk X (Sg k Vk)) in Hk'. congruence. }
  assert (Kp : kept s s' /\ hand s' n = Some a).
  { destruct Inv as [(y0 & Hh & Hy0 & ->)|(d & h & l & y' & Hh & Hi & _ & _ & ->)].
    - split; [|exact Hh]. apply kept_nodes; auto; cbn [s_syms set_syms].
      + apply upd_length.
      + intros b. destruct (Nat.eq_dec a b) as [<-|Hn]; [|rewrite nth_upd_other by auto; reflexivity].
        rewrite nth_upd_same by (apply nth_error_Some; congruence). rewrite Hy0. reflexivity.
    - assert (Vu : valids (under (s_scope s) n)) by (apply valids_under; [auto|apply P]).
      destruct (insert_keeps _ _ _ _ _ _ _ (proj1 T) Vu Hi) as (K2 & K1 & K3). split.
      + constructor; cbn [s_syms s_dict set_syms set_dict]; [rewrite upd_length; exact K1|exact K3|exact Pmk|exact Acc| |exact New].
        intros O Sc0 p m b l0 N Pm. cbn [s_scope set_syms set_dict] in Sc0. cbn [s_nodes set_syms set_dict] in N.
        destruct (O Sc0 _ _ _ _ N Pm) as (O1 & O3 & O2). cbn [s_syms s_dict set_syms set_dict]. rewrite upd_length.
        split; [lia|]. split; [|intros k Vk Hk; apply O2; auto].
        specialize (Pmk m (proj1 Pm) O3). intros Y. rewrite Y in Pmk. destruct (dl s m); [discriminate|auto].
      + unfold hand. cbn [s_dict set_syms set_dict s_scope]. destruct (s_scope s) as [c|]; cbn [under] in K2; rewrite K2; reflexivity. }
  destruct Rec as (y & Hy & Ey). exists a, y, s'.
  split; [exact E|]. split; [|split; [|split; [|split; [exact Hy|split; [exact Ey|apply Kp]]]]].
  - assert (Dl : forall k, valids k -> dl s k <> None -> option_map yfix (dl s' k) = option_map yfix (dl s k)).
    { intros k Vk Hk. destruct (resolve s (s_scope s) n) as [y0|] eqn:Er.
      - destruct H as [_ H]. apply yfix_untimed, H.
      - destruct H as (_ & _ & K3). f_equal. apply K3; [exact Vk| |apply Sg, Vk]. intros X. apply Hk.
        assert (dl s k = dl s (under (s_scope s) n)) as ->.
        { assert (Vu : valids (under (s_scope s) n)) by (apply valids_under; [auto|apply P]).
          rewrite !dl_recs by auto. unfold recs, stackof.
          replace (filter (matches k) (concat (dtable (s_dict s)))) with (filter (matches (under (s_scope s) n)) (concat (dtable (s_dict s)))); auto.
          apply filter_ext. intros e. unfold matches. now rewrite X. }
        unfold resolve in Er. destruct (s_scope s) as [c|]; cbn [under]; [|exact Er]. destruct (dl s (dotted c n)); [discriminate|reflexivity]. }
    constructor; [apply Kp| | | | | | | | |exact Dl]; auto.
    + destruct Inv as [(y0 & _ & _ & ->)|(d & h & l & y' & _ & _ & _ & _ & ->)]; destruct s; reflexivity.
    + destruct Inv as [(y0 & _ & _ & ->)|(d & h & l & y' & _ & _ & _ & _ & ->)]; cbn; lia.
    + exists []. destruct Inv as [(y0 & _ & _ & ->)|(d & h & l & y' & _ & _ & _ & _ & ->)]; reflexivity.
    + split; [exact T'|]. split; [intros k Vk; apply Sg'; auto|rewrite Sc; exact Hsc].
    + destruct Inv as [(y0 & _ & _ & ->)|(d & h & l & y' & _ & _ & _ & _ & ->)]; reflexivity.
    + intros p x Hp. exists x. split; [|constructor].
      destruct Inv as [(y0 & _ & _ & ->)|(d & h & l & y' & _ & _ & _ & _ & ->)]; exact Hp.
  - destruct Inv as [(y0 & _ & _ & ->)|(d & h & l & y' & _ & _ & _ & _ & ->)]; reflexivity.
  - destruct Inv as [(y0 & _ & _ & ->)|(d & h & l & y' & _ & _ & _ & _ & ->)]; reflexivity.
Qed.

(** ** Expression trees *)
(** a name whose cached record is used as it is: not '@', '+' or '-' *)
Definition direct (n : cstr) : Prop := ~ In (hd0 n) [43; 45; 64].
Lemma plain_direct n : plain n -> direct n.
Proof. intros (_ & _ & _ & _ & H & _) X. apply H. cbn in *. tauto. Qed.

(** the tree at node [p] of state [s] is [e]; [C] gives what evaluation sees of its names.  A name without a
    cached record ([u]: there may be such) is a plain name of the current scope.  Operands are older than their
    operator. *)
Inductive rep (C : cstr -> core_t) (u : bool) (s : state) : nat -> expr -> Prop :=
| RepInt p v : nth_error (s_nodes s) p = Some (mkNode (KCon v false) []) -> rep C u s p (EInt v)
| RepPc p v : nth_error (s_nodes s) p = Some (mkNode (KCon v true) []) -> rep C u s p EPc
| RepCached p n a y : nth_error (s_nodes s) p = Some (mkNode (KId n (Some a)) []) -> direct n ->
    nth_error (s_syms s) a = Some y -> ycore y = C n -> rep C u s p (ESym n)
| RepName p n : u = true -> nth_error (s_nodes s) p = Some (mkNode (KId n None) []) -> plain n -> meaning s n = C n ->
    rep C u s p (ESym n)
| RepUn p o q e : nth_error (s_nodes s) p = Some (mkNode (KOpr o) [q]) -> is_un o = true -> (q < p)%nat -> rep C u s q e ->
    rep C u s p (EUn o e)
| RepBin p o q1 q2 e1 e2 : nth_error (s_nodes s) p = Some (mkNode (KOpr o) [q1; q2]) -> is_bin o = true ->
    (q1 < p)%nat -> (q2 < p)%nat -> rep C u s q1 e1 -> rep C u s q2 e2 -> rep C u s p (EBin o e1 e2).

Lemma rep_evo C u s s' p e : evo s s' -> rep C u s p e -> rep C u s' p e.
Proof.
  intros H R. induction R as [p v N|p v N|p n a y N D Hy Ey|p n Eu N P Ey|p o q e N U L R IH|p o q1 q2 e1 e2 N U L1 L2 R1 IH1 R2 IH2];
    destruct (e_node _ _ H _ _ N) as (x' & N' & X).
  - inversion X; subst. econstructor; eauto.
  - inversion X; subst; econstructor; eauto.
  - inversion X; subst. destruct (e_rec _ _ H _ _ Hy) as (y' & Hy' & E'). econstructor; eauto. congruence.
  - inversion X as [| |n' a y l' Pn Hy Ey']; subst.
    + eapply RepName; eauto. rewrite (e_res _ _ H) by auto. exact Ey.
    + eapply RepCached; eauto; [apply plain_direct; auto|congruence].
  - inversion X; subst. econstructor; eauto.
  - inversion X; subst. econstructor; eauto.
Qed.
Lemma rep_weak C s p e : rep C false s p e -> rep C true s p e.
Proof.
  induction 1; [eapply RepInt|eapply RepPc|eapply RepCached|eapply RepName|eapply RepUn|eapply RepBin]; eauto.
Qed.
Lemma rep_height C u s p e : rep C u s p e -> (height e <= S p)%nat /\ (p < length (s_nodes s))%nat.
Proof.
  induction 1; cbn [height]; (split; [try lia|apply nth_error_Some; congruence]).
Qed.

Lemma un_op_sem o v s : is_un o = true ->
  un_op o v s = match sem_un o v with Some w => Ok w s | None => Ub UbArith end.
Proof.
  assert (L8 : forall x, Z.land x 255 = x mod 256) by (intros; change 255 with (Z.ones 8); now rewrite Z.land_ones by lia).
  assert (L16 : forall x, Z.land x 65535 = x mod 65536) by (intros; change 65535 with (Z.ones 16); now rewrite Z.land_ones by lia).
  destruct o; intros H; try discriminate; unfold un_op, sem_un, ret, ck, ub, in_int, fits, b2z, truth; auto.
  - rewrite L8, L16. f_equal. lia.
  - rewrite L16. f_equal.
    assert (Z.land (v mod 65536) 65280 = v mod 65536 - v mod 256) as ->; [|lia].
    apply Z.bits_inj'. intros n Hn. rewrite Z.land_spec.
    replace (v mod 65536 - v mod 256) with (Z.shiftl (Z.shiftr (v mod 65536) 8) 8).
    2:{ rewrite Z.shiftl_mul_pow2, Z.shiftr_div_pow2 by lia. change (2 ^ 8) with 256. lia. }
    change 65280 with (Z.shiftl (Z.ones 8) 8). rewrite !Z.shiftl_spec by lia.
    destruct (Z_lt_ge_dec n 8) as [L|L].
    + rewrite !(Z.testbit_neg_r _ (n - 8)) by lia. apply andb_false_r.
    + rewrite Z.shiftr_spec by lia. replace (n - 8 + 8) with n by lia.
      destruct (Z_lt_ge_dec n 16) as [M|M].
      * rewrite Z.ones_spec_low by lia. apply andb_true_r.
      * rewrite Z.ones_spec_high by lia. rewrite andb_false_r. symmetry.
        change 65536 with (2 ^ 16). rewrite Z.mod_pow2_bits_high by lia. reflexivity.
  - change (- 2 ^ 31) with (-2147483648). change (2 ^ 31) with 2147483648.
    destruct (Z.leb_spec (-2147483648) (- v)), (Z.ltb_spec (- v) 2147483648), (Z.leb_spec (- v) 2147483647); cbn; try lia; auto.
  - f_equal. assert (O : over v 255 = negb ((0 <=? v) && (v <=? 255))).
    { unfold over. f_equal. change 255 with (Z.ones 8).
      assert (E : Z.land v (Z.lnot (Z.ones 8)) = v - v mod 256).
      { rewrite <- Z.ldiff_land, Z.ldiff_ones_r by lia.
        rewrite Z.shiftl_mul_pow2, Z.shiftr_div_pow2 by lia. change (2 ^ 8) with 256. lia. }
      rewrite E. change (Z.ones 8) with 255.
      destruct (Z.eqb_spec (v - v mod 256) 0), (Z.leb_spec 0 v), (Z.leb_spec v 255); cbn; auto; lia. }
    rewrite O. destruct ((0 <=? v) && (v <=? 255)) eqn:B; cbn [negb].
    + rewrite L8. unfold Z.lnot. lia.
    + rewrite L16. unfold Z.lnot. f_equal. lia.
Qed.

Lemma in_int_fits v s : ck v s = match fits v with Some w => Ok w s | None => Ub UbArith end.
Proof.
  unfold ck, in_int, fits, ret, ub. change (- 2 ^ 31) with (-2147483648). change (2 ^ 31) with 2147483648.
  destruct (Z.leb_spec (-2147483648) v), (Z.ltb_spec v 2147483648), (Z.leb_spec v 2147483647); cbn; try lia; auto.
Qed.
Lemma i32_wrap v : i32 v = wrap v.
Proof. unfold i32, wrap. lia. Qed.

Definition strict (o : opr) : bool := is_bin o && negb (match o with ODiv | OOr | OAnd => true | _ => false end).
Lemma bin_op_sem o a b s : strict o = true ->
  bin_op o a b s = match sem_bin o a b with Some w => Ok w s | None => Ub UbArith end.
Proof.
  destruct o; intros H; try discriminate; unfold bin_op, sem_bin; try apply in_int_fits; try reflexivity.
  - replace (b <? 32) with (b <=? 31) by (destruct (Z.leb_spec b 31), (Z.ltb_spec b 32); lia).
    destruct (_ && _); [|reflexivity]. rewrite i32_wrap. reflexivity.
  - replace (b <? 32) with (b <=? 31) by (destruct (Z.leb_spec b 31), (Z.ltb_spec b 32); lia).
    destruct (_ && _); reflexivity.
Qed.

Lemma expand_eq f p s x : s_stop s = false -> nth_error (s_nodes s) p = Some x ->
  expand (S f) p s = x_node (expand f) f p x s.
Proof. intros H N. cbn [expand]. unfold bind, gets, node_get. rewrite H. unfold bind, gets. rewrite N. reflexivity. Qed.

Lemma direct_head n : direct n -> is_pm_name n = false /\ (hd0 n =? 64) = false.
Proof.
  unfold direct, is_pm_name. cbn. intros H.
  destruct (Z.eqb_spec (hd0 n) 45), (Z.eqb_spec (hd0 n) 43), (Z.eqb_spec (hd0 n) 64); try tauto; exfalso; apply H; auto.
Qed.

(** a name *)
Lemma eval_name C u s p n f : tab s -> s_stop s = false -> rep C u s p (ESym n) ->
  exists s', expand (S f) p s = Ok (cval (C n)) s' /\ evo s s' /\ s_errs s' = s_errs s /\ rep C false s' p (ESym n).
Proof.
  intros T St R. inversion R as [| |p0 n0 a y N D Hy Ey|p0 n0 Eu N P Ey| |]; subst.
  - rewrite (expand_eq _ _ _ _ St N). unfold x_node. cbn [n_kind]. unfold x_id.
    destruct (direct_head _ D) as [D1 D2]. rewrite D1, D2. unfold bind, ret, sym_get, gets. unfold bind. rewrite Hy.
    exists s. split; [|split; [apply evo_refl; auto|split; [reflexivity|eapply RepCached; eauto]]].
    rewrite <- Ey. unfold ycore, cval. reflexivity.
  - rewrite (expand_eq _ _ _ _ St N). unfold x_node. cbn [n_kind]. unfold x_id.
    destruct (direct_head _ (plain_direct _ P)) as [D1 D2]. rewrite D1, D2.
    destruct (add_plain_evo n s T P) as (a & y & s1 & E1 & E2 & Nn & Er & Hy & Ec & Hh).
    unfold bind, ret. rewrite E1. unfold node_set, modify, sym_get, gets, bind. cbn [s_syms set_nodes]. rewrite Hy.
    set (s2 := set_nodes (upd p (mkNode (KId n (Some a)) (n_ops (mkNode (KId n None) []))) (s_nodes s1)) s1).
    assert (L : (p < length (s_nodes s1))%nat) by (rewrite Nn; apply nth_error_Some; congruence).
    exists s2. split; [|split; [|split; [exact Er|]]].
    + rewrite <- Ey, <- Ec. reflexivity.
    + destruct E2 as [F0 F1 F2 F3 F4 F5 F6 F7 F8]. subst s2. constructor; cbn [s_nodes s_syms s_dict s_errs s_msgs set_nodes]; auto.
      * eapply kept_trans; [exact F0|]. apply kept_nodes; auto. intros q m b l N0 Pm. cbn [s_nodes set_nodes] in N0.
        destruct (Nat.eq_dec p q) as [<-|Hn].
        -- rewrite nth_upd_same in N0 by auto. injection N0 as -> -> _. right. split; [apply nth_error_Some; congruence|].
           intros Sc. unfold hand in Hh. rewrite Sc in Hh. split.
           { unfold dl, dlookup. cbn [fst snd]. rewrite Hh. congruence. }
           intros k Vk Hk. eapply addr_unique; [exact (proj1 F4)|exact Vk|apply Pm|exact Hk|exact Hh].
        -- rewrite nth_upd_other in N0 by auto. auto.
      * exact (f_equal (set_nodes _) F1).
      * rewrite upd_length. exact F7.
      * intros q x Hq. destruct (Nat.eq_dec p q) as [<-|Hn].
        -- rewrite nth_upd_same by auto. eexists; split; [reflexivity|]. assert (x = mkNode (KId n None) []) as -> by congruence.
           econstructor; eauto.
        -- rewrite nth_upd_other by auto. rewrite Nn. exists x. split; auto. constructor.
    + apply RepCached with (a := a) (y := y); subst s2; cbn [s_nodes s_syms set_nodes n_ops].
      * rewrite nth_upd_same by auto. reflexivity.
      * apply plain_direct, P.
      * exact Hy.
      * congruence.
Qed.

Lemma evo_pc s s' : evo s s' -> s_pc s' = s_pc s. Proof. intros H. apply (same_scope _ _ (e_same _ _ H)). Qed.
Lemma evo_stop s s' : evo s s' -> s_stop s' = s_stop s. Proof. intros H. apply (same_scope _ _ (e_same _ _ H)). Qed.
Lemma evo_scope s s' : evo s s' -> s_scope s' = s_scope s. Proof. intros H. apply (same_scope _ _ (e_same _ _ H)). Qed.

(** no operator that leaves an operand unevaluated *)
Fixpoint eager (e : expr) : bool :=
  match e with
  | EUn _ a => eager a
  | EBin o a b => negb (match o with OOr | OAnd => true | _ => false end) && eager a && eager b
  | _ => true
  end.

(** what evaluating a tree does *)
Definition evaluates (C : cstr -> core_t) (e : expr) (F : nat) (s : state) (p : nat) (r : option (Z * Z)) : Prop :=
  match r with
  | Some (v, k) => exists s', expand F p s = Ok v s' /\ evo s s' /\ s_errs s' = s_errs s + k /\
                     (eager e = true -> k = 0 -> rep C false s' p e)
  | None => expand F p s = Ub UbArith
  end.

Lemma sem_strict o en pc e1 e2 : strict o = true ->
  sem en pc (EBin o e1 e2) = match sem en pc e1, sem en pc e2 with
      | Some (va, ka), Some (vb, kb) => match sem_bin o va vb with Some w => Some (w, ka + kb) | None => None end
      | _, _ => None
      end.
Proof. destruct o; try discriminate; reflexivity. Qed.

Theorem eval_rep C u e : forall F s p, (height e <= F)%nat -> tab s -> s_stop s = false -> rep C u s p e ->
  evaluates C e F s p (sem (fun n => cval (C n)) (s_pc s) e).
Proof.
  induction e as [v|n| |o e IH|o e1 IH1 e2 IH2]; intros F s p HF T St R; (destruct F as [|F]; [cbn in HF; lia|]).
  - inversion R as [p0 v0 N| | | | |]; subst. cbn [sem evaluates]. rewrite (expand_eq _ _ _ _ St N). exists s.
    split; [reflexivity|]. split; [apply evo_refl; auto|]. split; [lia|]. intros; econstructor; eauto.
  - cbn [sem evaluates]. destruct (eval_name _ _ _ _ _ F T St R) as (s' & E1 & E2 & E3 & E4). exists s'.
    split; [auto|split; [auto|split; [lia|auto]]].
  - inversion R as [|p0 v N| | | |]; subst. cbn [sem evaluates]. rewrite (expand_eq _ _ _ _ St N). eexists. split; [reflexivity|].
    split; [eapply evo_pcnode; eauto|split; [cbn; lia|]]. intros _ _. econstructor. cbn [s_nodes set_nodes n_ops].
    rewrite nth_upd_same by (apply nth_error_Some; congruence). reflexivity.
  - inversion R as [| | | |p0 o0 q e0 N U L R'|]; subst. cbn [height] in HF.
    specialize (IH F s q ltac:(lia) T St R'). cbn [sem].
    assert (X : expand (S F) p s = bind (expand F q) (fun v => un_op o v) s).
    { rewrite (expand_eq _ _ _ _ St N). unfold x_node. cbn [n_kind].
      assert (x_opr (expand F) F p (mkNode (KOpr o) [q]) o s = x_unary (expand F) (mkNode (KOpr o) [q]) o s) as ->.
      { destruct o; try discriminate U; reflexivity. }
      reflexivity. }
    destruct (sem _ (s_pc s) e) as [[v k]|]; cbn [evaluates] in IH.
    + destruct IH as (s' & E1 & E2 & E3 & E4). unfold bind in X. rewrite E1 in X. rewrite (un_op_sem _ _ _ U) in X.
      destruct (sem_un o v); cbn [evaluates]; [|exact X]. exists s'. split; [exact X|]. split; [exact E2|]. split; [exact E3|].
      intros Eg K. destruct (e_node _ _ E2 _ _ N) as (x' & N' & Nx). inversion Nx; subst. econstructor; eauto.
    + cbn [evaluates]. unfold bind in X. rewrite IH in X. exact X.
  - inversion R as [| | | | |p0 o0 q1 q2 e10 e20 N U L1 L2 R1 R2]; subst. cbn [height] in HF.
    assert (K : forall s', evo s s' -> rep C false s' q1 e1 -> rep C false s' q2 e2 -> rep C false s' p (EBin o e1 e2)).
    { intros s' E Q1 Q2. destruct (e_node _ _ E _ _ N) as (x' & N' & Nx). inversion Nx; subst. econstructor; eauto. }
    set (x := mkNode (KOpr o) [q1; q2]) in *.
    assert (V1 := IH1 F s q1 ltac:(lia) T St R1).
    assert (X := expand_eq F p s x St N). unfold x_node, x in X. cbn [n_kind] in X. fold x in X.
    destruct (strict o) eqn:So; [|destruct o; try discriminate So; try discriminate U].
    + rewrite (sem_strict _ _ _ _ _ So).
      assert (Y : expand (S F) p s = bind (expand F q1) (fun a => bind (expand F q2) (fun b => bin_op o a b)) s).
      { rewrite X. destruct o; try discriminate So; reflexivity. }
      clear X. unfold bind at 1 in Y.
      destruct (sem _ (s_pc s) e1) as [[va ka]|]; cbn [evaluates] in V1; [|rewrite V1 in Y; exact Y].
      destruct V1 as (s1 & E1 & E2 & E3 & E4). rewrite E1 in Y. unfold bind in Y.
      assert (V2 := IH2 F s1 q2 ltac:(lia) (e_tab _ _ E2) ltac:(rewrite (evo_stop _ _ E2); auto) (rep_evo _ _ _ _ _ _ E2 R2)).
      rewrite (evo_pc _ _ E2) in V2.
      destruct (sem _ (s_pc s) e2) as [[vb kb]|]; cbn [evaluates] in V2; [|rewrite V2 in Y; exact Y].
      destruct V2 as (s2 & F1 & F2 & F3 & F4). rewrite F1, (bin_op_sem _ _ _ _ So) in Y.
      destruct (sem_bin o va vb); cbn [evaluates]; [|exact Y].
      pose proof (evo_trans _ _ _ E2 F2) as E12. pose proof (e_errs _ _ E2). pose proof (e_errs _ _ F2).
      exists s2. split; [exact Y|]. split; [exact E12|]. split; [lia|]. intros Eg Kz. cbn [eager] in Eg.
      apply andb_true_iff in Eg; destruct Eg as [Eg Eg2]. apply andb_true_iff in Eg; destruct Eg as [_ Eg1].
      apply K; [exact E12|eapply rep_evo; [exact F2|apply E4; [auto|lia]]|apply F4; [auto|lia]].
    + (* division *)
      cbn [sem].
      assert (Y : expand (S F) p s = bind (expand F q2) (fun b0 => if b0 =? 0 then err error_divide_by_zero ;;; ret 0
        else bind (expand F q1) (fun a => bind (expand F q2) (fun b => if b =? 0 then ub UbArith else ck (Z.quot a b)))) s).
      { rewrite X. reflexivity. }
      clear X V1. unfold bind at 1 in Y.
      assert (V2 := IH2 F s q2 ltac:(lia) T St R2).
      destruct (sem _ (s_pc s) e2) as [[vb kb]|] eqn:S2; cbn [evaluates] in V2; [|rewrite V2 in Y; exact Y].
      destruct V2 as (s1 & E1 & E2 & E3 & E4). rewrite E1 in Y.
      destruct (vb =? 0) eqn:Z0.
      * pose proof (e_errs _ _ E2).
        cbn [evaluates]. eexists. split; [exact Y|]. split; [eapply evo_trans; [exact E2|apply evo_err, (e_tab _ _ E2)]|].
        split; [cbn [s_errs set_errs]; lia|]. intros _ ?. lia.
      * unfold bind at 1 in Y.
        assert (V1 := IH1 F s1 q1 ltac:(lia) (e_tab _ _ E2) ltac:(rewrite (evo_stop _ _ E2); auto) (rep_evo _ _ _ _ _ _ E2 R1)).
        rewrite (evo_pc _ _ E2) in V1.
        destruct (sem _ (s_pc s) e1) as [[va ka]|]; cbn [evaluates] in V1; [|rewrite V1 in Y; exact Y].
        destruct V1 as (s2 & F1 & F2 & F3 & F4). rewrite F1 in Y. unfold bind in Y.
        pose proof (evo_trans _ _ _ E2 F2) as E12.
        assert (V2 := IH2 F s2 q2 ltac:(lia) (e_tab _ _ F2) ltac:(rewrite (evo_stop _ _ E12); auto) (rep_evo _ _ _ _ _ _ E12 R2)).
        rewrite (evo_pc _ _ E12), S2 in V2. cbn [evaluates] in V2. destruct V2 as (s3 & G1 & G2 & G3 & G4).
        rewrite G1, Z0, in_int_fits in Y. cbn [sem_bin].
        destruct (fits (Z.quot va vb)); cbn [evaluates]; [|exact Y].
        pose proof (evo_trans _ _ _ E12 G2) as E13. pose proof (e_errs _ _ E2). pose proof (e_errs _ _ F2). pose proof (e_errs _ _ G2).
        exists s3. split; [exact Y|]. split; [exact E13|]. split; [lia|]. intros Eg Kz. cbn [eager] in Eg.
        apply andb_true_iff in Eg; destruct Eg as [Eg Eg2]. apply andb_true_iff in Eg; destruct Eg as [_ Eg1].
        apply K; [exact E13|eapply rep_evo; [exact G2|apply F4; [auto|lia]]|apply G4; [auto|lia]].
    + (* or *)
      cbn [sem].
      assert (Y : expand (S F) p s = bind (expand F q1) (fun a => if a =? 0 then
         bind (expand F q2) (fun b => ret (b2z (negb (b =? 0)))) else ret 1) s).
      { rewrite X. reflexivity. }
      clear X. unfold bind at 1 in Y.
      destruct (sem _ (s_pc s) e1) as [[va ka]|]; cbn [evaluates] in V1; [|rewrite V1 in Y; exact Y].
      destruct V1 as (s1 & E1 & E2 & E3 & E4). rewrite E1 in Y. destruct (va =? 0).
      2:{ cbn [evaluates]. exists s1. split; [exact Y|split; [exact E2|split; [exact E3|discriminate]]]. }
      unfold bind in Y.
      assert (V2 := IH2 F s1 q2 ltac:(lia) (e_tab _ _ E2) ltac:(rewrite (evo_stop _ _ E2); auto) (rep_evo _ _ _ _ _ _ E2 R2)).
      rewrite (evo_pc _ _ E2) in V2.
      destruct (sem _ (s_pc s) e2) as [[vb kb]|]; cbn [evaluates] in V2; [|rewrite V2 in Y; exact Y].
      destruct V2 as (s2 & F1 & F2 & F3 & F4). rewrite F1 in Y. cbn [evaluates].
      exists s2. split; [exact Y|]. split; [eapply evo_trans; eauto|split; [lia|discriminate]].
    + (* and *)
      cbn [sem].
      assert (Y : expand (S F) p s = bind (expand F q1) (fun a => if a =? 0 then ret 0 else
         bind (expand F q2) (fun b => ret (b2z (negb (b =? 0))))) s).
      { rewrite X. reflexivity. }
      clear X. unfold bind at 1 in Y.
      destruct (sem _ (s_pc s) e1) as [[va ka]|]; cbn [evaluates] in V1; [|rewrite V1 in Y; exact Y].
      destruct V1 as (s1 & E1 & E2 & E3 & E4). rewrite E1 in Y. destruct (va =? 0).
      { cbn [evaluates]. exists s1. split; [exact Y|split; [exact E2|split; [exact E3|discriminate]]]. }
      unfold bind in Y.
      assert (V2 := IH2 F s1 q2 ltac:(lia) (e_tab _ _ E2) ltac:(rewrite (evo_stop _ _ E2); auto) (rep_evo _ _ _ _ _ _ E2 R2)).
      rewrite (evo_pc _ _ E2) in V2.
      destruct (sem _ (s_pc s) e2) as [[vb kb]|]; cbn [evaluates] in V2; [|rewrite V2 in Y; exact Y].
      destruct V2 as (s2 & F1 & F2 & F3 & F4). rewrite F1 in Y. cbn [evaluates].
      exists s2. split; [exact Y|]. split; [eapply evo_trans; eauto|split; [lia|discriminate]].
Qed.

(** ** Building the tree *)
Lemma evo_alloc k l s : cold k = true -> tab s -> evo s (set_nodes (s_nodes s ++ [mkNode k l]) s).
Proof.
  intros Ck T. constructor; auto; cbn [s_errs s_nodes s_syms s_msgs set_nodes]; try lia.
  - apply kept_alloc, Ck.
  - exists []. reflexivity.
  - eauto.
  - rewrite app_length. lia.
  - intros p x H. exists x. split; [|constructor]. rewrite nth_error_app1; auto. apply nth_error_Some. congruence.
Qed.
Lemma alloc_eq k l s : alloc k l s = Ok (length (s_nodes s)) (set_nodes (s_nodes s ++ [mkNode k l]) s).
Proof. reflexivity. Qed.
Lemma alloc_nth k l s : nth_error (s_nodes (set_nodes (s_nodes s ++ [mkNode k l]) s)) (length (s_nodes s)) = Some (mkNode k l).
Proof. cbn [s_nodes set_nodes]. rewrite nth_error_app2 by lia. rewrite Nat.sub_diag. reflexivity. Qed.

(** reading a plain name as a token *)
Lemma evo_bump a y s : tab s -> nth_error (s_syms s) a = Some y -> evo s (set_syms (upd a (y_times_inc y) (s_syms s)) s).
Proof.
  intros (T & Sg & Hsc) H. constructor; cbn [s_errs s_nodes s_syms s_msgs set_syms]; try lia; auto.
  - apply kept_nodes; auto; cbn [s_syms set_syms]; [apply upd_length|]. intros b.
    destruct (Nat.eq_dec a b) as [<-|Hn]; [|rewrite nth_upd_other by auto; reflexivity].
    rewrite nth_upd_same by (apply nth_error_Some; congruence). rewrite H. reflexivity.
  - exists []. reflexivity.
  - split; [split; [apply WF_upd; apply T|apply T]|]. split; [|exact Hsc].
    intros k Hk. unfold single. rewrite recs_len_upd. apply Sg; auto.
  - intros b y0 Hb. destruct (Nat.eq_dec a b) as [<-|Hn].
    + rewrite nth_upd_same by (apply nth_error_Some; congruence). eexists; split; [reflexivity|]. rewrite H in Hb.
      injection Hb as ->. apply core_times.
    + rewrite nth_upd_other by auto. eauto.
  - intros n Pn. unfold meaning, resolve. cbn [s_scope set_syms]. pose proof (fun k => dl_bump s a y k H) as D.
    destruct (s_scope s) as [c|]; [|apply core_untimed, D].
    pose proof (D (dotted c n)) as D1. pose proof (D n) as D2.
    destruct (dl s (dotted c n)), (dl (set_syms _ s) (dotted c n)); try discriminate D1; apply core_untimed; assumption.
  - intros p x Hp. exists x. split; [auto|constructor].
  - intros k _ _. apply yfix_untimed. exact (dl_bump s a y k H).
Qed.

Lemma need_sym_ok n s : tab s -> plain n -> cmacro (meaning s n) = false ->
  exists s', need_sym n s = Ok (Some tt) s' /\ evo s s' /\ s_errs s' = s_errs s /\ s_nodes s' = s_nodes s.
Proof.
  intros T P M. unfold need_sym, tok_sym.
  destruct (direct_head _ (plain_direct _ P)) as [D1 D2]. rewrite D1.
  assert (D3 : (hd0 n =? 92) = false).
  { apply Z.eqb_neq. intros E. destruct P as (_ & _ & _ & _ & H & _). apply H. cbn. auto. }
  rewrite D3. unfold look_up_symbol.
  destruct (look_up_in_spec (s_scope s) n s (proj1 (proj1 T)) (proj1 P) (proj2 (proj2 T))) as (r & s1 & E & Hr).
  unfold bind, gets. rewrite E. destruct r as [a|].
  - destruct Hr as (y & Hy & Hres & ->). unfold sym_get, gets, bind. cbn [s_syms set_syms].
    rewrite nth_upd_same by (apply nth_error_Some; congruence). unfold ret.
    unfold meaning in M. rewrite Hres in M. cbn in M. change (y_mname (y_times_inc y)) with (y_mname y). rewrite M.
    eexists. split; [reflexivity|]. split; [apply evo_bump; auto|]. auto.
  - destruct Hr as [_ ->]. unfold ret. exists s. split; [reflexivity|]. split; [apply evo_refl; auto|auto].
Qed.

Definition plain_expr (s : state) (e : expr) : Prop :=
  forall n, In n (names e) -> plain n /\ cmacro (meaning s n) = false.
Lemma plain_expr_evo s s' e : evo s s' -> plain_expr s e -> plain_expr s' e.
Proof. intros E H n Hn. destruct (H n Hn) as [P M]. split; auto. rewrite (e_res _ _ E) by auto. exact M. Qed.

Theorem build_expr_rep e : forall s, tab s -> wfe e = true -> plain_expr s e ->
  exists p s', build_expr e s = Ok (Some p) s' /\ evo s s' /\ s_errs s' = s_errs s /\ rep (meaning s) true s' p e /\
    (length (s_nodes s) <= p < length (s_nodes s'))%nat.
Proof.
  induction e as [v|n| |o e IH|o e1 IH1 e2 IH2]; intros s T W P; cbn [build_expr].
  - unfold some, bind, constant_node. rewrite alloc_eq. do 2 eexists. split; [reflexivity|].
    split; [apply evo_alloc; [reflexivity|auto]|]. split; [reflexivity|].
    split; [apply RepInt, alloc_nth|]. cbn. rewrite app_length; cbn; lia.
  - destruct (P n ltac:(cbn; auto)) as [Pn M]. destruct (need_sym_ok n s T Pn M) as (s1 & E1 & E2 & E3 & E4).
    unfold bindo, bind. rewrite E1. unfold some, bind, id_node. rewrite alloc_eq. do 2 eexists. split; [reflexivity|].
    split; [eapply evo_trans; [exact E2|apply evo_alloc; [reflexivity|apply (e_tab _ _ E2)]]|]. split; [exact E3|].
    split; [apply RepName; auto; [apply alloc_nth|]|].
    + change (meaning s1 n = meaning s n). apply (e_res _ _ E2); auto.
    + cbn. rewrite app_length, E4. cbn. lia.
  - unfold some, bind, pc_node, gets, bind. rewrite alloc_eq. do 2 eexists. split; [reflexivity|].
    split; [apply evo_alloc; [reflexivity|auto]|]. split; [reflexivity|].
    split; [eapply RepPc, alloc_nth|]. cbn. rewrite app_length; cbn; lia.
  - cbn [wfe] in W. apply andb_true_iff in W. destruct W as [U W].
    destruct (IH s T W P) as (q & s1 & E1 & E2 & E3 & R & L). unfold bindo, bind. rewrite E1. unfold some, bind. rewrite alloc_eq.
    do 2 eexists. split; [reflexivity|].
    pose proof (evo_alloc (KOpr o) [q] s1 eq_refl (e_tab _ _ E2)) as E4.
    split; [eapply evo_trans; eauto|]. split; [exact E3|]. split.
    + eapply RepUn; [apply alloc_nth|exact U|lia|]. eapply rep_evo; eauto.
    + cbn. rewrite app_length; cbn; lia.
  - cbn [wfe] in W. apply andb_true_iff in W. destruct W as [W W2]. apply andb_true_iff in W. destruct W as [U W1].
    assert (P1 : plain_expr s e1) by (intros n Hn; apply P; cbn; apply in_or_app; auto).
    assert (P2 : plain_expr s e2) by (intros n Hn; apply P; cbn; apply in_or_app; auto).
    destruct (IH1 s T W1 P1) as (q1 & s1 & E1 & E2 & E3 & R1 & L1). unfold bindo at 1, bind at 1. rewrite E1.
    destruct (IH2 s1 (e_tab _ _ E2) W2 (plain_expr_evo _ _ _ E2 P2)) as (q2 & s2 & F1 & F2 & F3 & R2 & L2).
    unfold bindo, bind. rewrite F1. unfold some, bind. rewrite alloc_eq.
    do 2 eexists. split; [reflexivity|].
    pose proof (evo_trans _ _ _ E2 F2) as E12.
    pose proof (evo_alloc (KOpr o) [q1; q2] s2 eq_refl (e_tab _ _ F2)) as E4.
    assert (R2' : rep (meaning s) true s2 q2 e2).
    { clear - R2 E2 P2. revert P2. induction R2; intros P2.
      - eapply RepInt; eauto.
      - eapply RepPc; eauto.
      - eapply RepCached; eauto. rewrite H2. apply (e_res _ _ E2). apply P2. cbn; auto.
      - eapply RepName; eauto. rewrite H2. apply (e_res _ _ E2). auto.
      - eapply RepUn; eauto.
      - eapply RepBin; eauto; [apply IHR2_1|apply IHR2_2]; intros n Hn; apply P2; cbn; apply in_or_app; auto. }
    split; [eapply evo_trans; eauto|]. split; [cbn; congruence|]. split.
    + eapply RepBin; [apply alloc_nth|exact U|lia|lia| |]; (eapply rep_evo; [exact E4|]); [eapply rep_evo; [exact F2|exact R1]|exact R2'].
    + pose proof (e_len _ _ F2). cbn. rewrite app_length; cbn; lia.
Qed.
