(** The .FILL directive (expand.cc:351-411). *)
From Coq Require Import String Lia.
From Verif Require Import Base BaseProofs Hash Dict DictProofs DictMore Str Opcodes OpcodesProofs Err State Sym Machine Build Pass Prog
  GenX Gen Inv SymProofs SymEx Sem ExprProofs ExprMore OpProofs OpMore InstrProofs InstrMore FarTwice DataProofs DataMore.
Open Scope string_scope.
Open Scope list_scope.
Open Scope Z_scope.
Open Scope m_scope.
Ltac Zify.zify_post_hook ::= Z.div_mod_to_equations.

Lemma con_hv s s' p v : hv0 s s' -> nth_error (s_nodes s) p = Some (mkNode (KCon v false) []) -> nth_error (s_nodes s') p = Some (mkNode (KCon v false) []).
Proof. intros H N. eapply hv_const; eauto. Qed.

(** a data node with a constant, as .FILL makes them *)
Definition cdata (s : state) (k v : Z) (n : nat) : Prop :=
  exists c, nth_error (s_nodes s) n = Some (mkNode (KData k c) []) /\ nth_error (s_nodes s) c = Some (mkNode (KCon v false) []).
Lemma cdata_hv s s' k v n : hv0 s s' -> cdata s k v n -> cdata s' k v n.
Proof. intros H (c & N1 & N2). exists c. split; [eapply data_hv; eauto|eapply con_hv; eauto]. Qed.
Lemma cdata_alloc s k v : tab s -> exists n s', (c <- constant_node v ;; alloc (KData k c) []) s = Ok n s' /\ hv0 s s' /\ obs s' = obs s /\ cdata s' k v n /\ s_dsz s' = s_dsz s.
Proof.
  intros T. unfold constant_node, bind. rewrite alloc_eq. rewrite alloc_eq.
  destruct (hv_alloc_obs (KCon v false) [] s eq_refl T) as [H1 O1].
  destruct (hv_alloc_obs (KData k (length (s_nodes s))) [] _ eq_refl (h_tab _ _ H1)) as [H2 O2].
  do 2 eexists. split; [reflexivity|]. split; [exact (hv0_trans _ _ _ H1 H2)|]. split; [congruence|]. split; [|reflexivity].
  eexists. split; [apply alloc_nth|]. eapply con_hv; [exact H2|]. apply alloc_nth.
Qed.
Lemma expand_cdata F s k v n : s_stop s = false -> cdata s k v n -> expand (S (S F)) n s = Ok v (data_start k s).
Proof.
  intros St (c & N1 & N2). rewrite (expand_data (S F) s n k c St N1).
  assert (St' : s_stop (data_start k s) = false) by exact St.
  assert (N2' : nth_error (s_nodes (data_start k s)) c = Some (mkNode (KCon v false) [])) by exact N2.
  revert St' N2'. generalize (data_start k s). intros z St' N2'. cbn [expand]. unfold bind at 1, gets at 1. rewrite St'.
  unfold bind at 1, node_get, bind, gets. rewrite N2'. reflexivity.
Qed.

Lemma writes_ety_comm l e z : s_org_spec z = true -> set_ety e (writes l z) = writes l (set_ety e z).
Proof.
  intros O. unfold writes. change (s_opened (set_ety e z)) with (s_opened z). change (s_org_spec (set_ety e z)) with (s_org_spec z).
  destruct (s_opened z && s_org_spec z); [|reflexivity]. unfold header. change (s_total (set_ety e z)) with (s_total z). change (s_c64 (set_ety e z)) with (s_c64 z).
  destruct ((s_total z =? 0) && s_c64 z); reflexivity.
Qed.
Lemma put_ety l e z : put l (set_ety e z) = set_ety e (put l z). Proof. reflexivity. Qed.
Lemma writes_same l l' z : length l = length l' -> map byte l = map byte l' -> writes l z = writes l' z.
Proof. intros L E. unfold writes, put. rewrite L. unfold byte in E. rewrite E. reflexivity. Qed.
Lemma set_org_true z : s_org_spec z = true -> set_org_spec true z = z.
Proof. destruct z. cbn. intros ->. reflexivity. Qed.

(** the bytes of one step *)
Definition fill_bytes (k byt : Z) : list Z := if k =? 1 then [byt] else [byt; byt].
Lemma fill_out F s k v n byt : s_stop s = false -> tab s -> cdata s k v n -> s_dsz s = k -> 0 <= byt <= 255 ->
  (k = 1 /\ v = byt \/ k = 2 /\ v = byt * 256 + byt) -> s_opened s && s_org_spec s = true -> no_gap s ->
  exists s', generate_output (expand (S (S F))) n s = Ok (s_total (header s) - s_total s + k) s' /\ hv0 s s' /\
    obs s' = set_ety EtBytes (writes (fill_bytes k byt) (obs s)) /\ s_dsz s' = k /\ s_stop s' = false /\ s_pc s' = s_pc s.
Proof.
  intros St T Cd D B K W G. assert (Os : s_org_spec s = true) by (apply andb_prop in W; apply W).
  rewrite generate_output_eq; [|exact W|apply G, W].
  destruct (hdr_same s) as (A1 & A2 & A3 & A4 & A5). pose proof (hv_hdr s T) as H1.
  pose proof (cdata_hv _ _ _ _ _ H1 Cd) as Cd1. destruct Cd1 as (c & N1 & N2) eqn:X; clear X.
  unfold bind at 1, node_get, gets. unfold bind at 1. rewrite N1. unfold ret at 1. cbn [n_kind].
  unfold bind at 1. unfold write_data_node. unfold bind at 1. rewrite (expand_cdata F (hdr s) k v n ltac:(congruence) (ex_intro _ c (conj N1 N2))).
  unfold bind at 1, gets at 1. change (s_dsz (data_start k (hdr s))) with k.
  assert (Hd : forall l, exists s', Ok (s_total (put l (data_start k (hdr s))) - s_total s) (put l (data_start k (hdr s))) = Ok (s_total (header s) - s_total s + Z.of_nat (length l)) s' /\ hv0 s s' /\
    obs s' = set_ety (dety k) (writes l (obs s)) /\ s_dsz s' = k /\ s_stop s' = false /\ s_pc s' = s_pc s).
  { intros l. exists (put l (data_start k (hdr s))). split; [f_equal; change (s_total (put l (data_start k (hdr s)))) with (s_total (hdr s) + Z.of_nat (length l)); rewrite A5; lia|].
    pose proof (hv_start k _ (h_tab _ _ H1)) as H2. split; [exact (hv0_trans _ _ _ H1 (hv0_trans _ _ _ H2 (hv_put l _ (h_tab _ _ H2))))|].
    split; [|split; [reflexivity|split; [change (s_stop (hdr s) = false); congruence|exact A2]]].
    rewrite obs_put, obs_start, obs_hdr. unfold writes. rewrite obs_get_opened, obs_get_org_spec, W.
    rewrite set_org_true; [rewrite put_ety; reflexivity|]. rewrite <- obs_header, obs_get_org_spec. destruct (header_more s) as (_ & M & _). congruence. }
  rewrite over_16, over_8. unfold bind, gets, ret.
  destruct K as [[-> ->]|[-> ->]]; cbn [Z.eqb Pos.eqb negb andb orb];
    repeat match goal with
    | |- context [if ?b then _ else _] => lazymatch b with
        | context [if _ then _ else _] => fail | _ => let X := fresh "X" in destruct b eqn:X end
    end; try (exfalso; lia); rewrite ?emit_put, ?emit_word_put.
  - destruct (Hd [byt]) as (s' & E & H). exists s'. split; [exact E|exact H].
  - destruct (Hd [byt * 256 + byt; (byt * 256 + byt) / 256]) as (s' & E & H2 & O & R). exists s'. split; [exact E|]. split; [exact H2|]. split; [|exact R].
    rewrite O. change (dety 2) with EtBytes. change (fill_bytes 2 byt) with [byt; byt].
    rewrite (writes_same [byt * 256 + byt; (byt * 256 + byt) / 256] [byt; byt]); [reflexivity|reflexivity|].
    cbn [map]. unfold byte. f_equal; [lia|]. f_equal. lia.
Qed.

(** ** The loop *)
Lemma ety_ety a b z : set_ety a (set_ety b z) = set_ety a z. Proof. reflexivity. Qed.
Lemma ety_org_spec e z : s_org_spec (set_ety e z) = s_org_spec z. Proof. reflexivity. Qed.
Lemma ety_pc e z : s_pc (set_ety e z) = s_pc z. Proof. reflexivity. Qed.
Lemma pc_set_ety v e z : set_ety e (set_pc v z) = set_pc v (set_ety e z). Proof. reflexivity. Qed.
Lemma list_cdata F s k v n : s_stop s = false -> tab s -> cdata s k v n -> s_org_spec s = true -> k = 1 \/ k = 2 ->
  exists s', generate_list_node (expand (S (S F))) n s = Ok tt s' /\ hv0 s s' /\ obs s' = set_ety EtBytes (obs s).
Proof.
  intros St T Cd Os K. pose proof (expand_cdata F s k v n St Cd) as E. destruct Cd as (c & N1 & N2).
  unfold generate_list_node, node_get, gets. unfold bind at 1, bind at 1. rewrite N1. unfold ret at 1. unfold bind at 1. cbn [n_kind].
  unfold bind at 1. rewrite E. unfold bind at 1. cbv zeta. pose proof (hv_start k s T) as H1.
  assert (O1 : obs (data_start k s) = set_ety EtBytes (obs s)).
  { rewrite obs_start. rewrite set_org_true; [|obs_simp; exact Os]. destruct K as [-> | ->]; reflexivity. }
  revert H1 O1. generalize (data_start k s). intros z H1 O1.
  match goal with |- context [if ?b then _ else _] => destruct b end.
  - unfold modify. eexists. split; [reflexivity|].
    assert (H2 : hv0 z (set_soft (1 :: s_soft z) z)) by (apply hv0_frame; auto; apply (h_tab _ _ H1)).
    split; [exact (hv0_trans _ _ _ H1 H2)|]. rewrite obs_set_soft. exact O1.
  - unfold add_list, modify. eexists. split; [reflexivity|].
    split; [eapply hv0_trans; [exact H1|apply hv_list, (h_tab _ _ H1)]|]. rewrite obs_set_list. exact O1.
Qed.

Definition started (s : state) : Prop := s_opened s && s_org_spec s = true /\ (s_total s =? 0) && s_c64 s = false.
Lemma started_header s : started s -> header s = s.
Proof. intros [_ H]. unfold header. rewrite H. reflexivity. Qed.

(** one round *)
Lemma fill_step F s k byt (n : nat + Z) v : s_stop s = false -> tab s -> 0 <= byt <= 255 ->
  (k = 1 /\ v = byt \/ k = 2 /\ v = byt * 256 + byt) -> started s -> no_gap s -> 0 <= s_total s ->
  match n with inl n => cdata s k v n | inr w => w = v end ->
  exists m s', (modify (set_dsz k) ;;; q <- match n with inl n => ret n | inr w => c <- constant_node w ;; alloc (KData k c) [] end ;;
    b <- generate_output (expand (S (S F))) q ;; let b := if b =? 0 then k else b in
    generate_list_node (expand (S (S F))) q ;;; modify (fun s => set_pc (s_pc s + b) s) ;;; ret (q, b)) s = Ok (m, k) s' /\
    hv0 s s' /\ obs s' = set_pc (s_pc s + k) (set_ety EtBytes (writes (fill_bytes k byt) (obs s))) /\ cdata s' k v m.
Proof.
  intros St T B K S0 G Tt N.
  assert (X : exists q s1, (match n with inl n => ret n | inr w => c <- constant_node w ;; alloc (KData k c) [] end) (set_dsz k s) = Ok q s1 /\ hv0 s s1 /\
    obs s1 = obs s /\ cdata s1 k v q /\ s_dsz s1 = k).
  { assert (Td : tab (set_dsz k s)) by exact T. assert (Hd : hv0 s (set_dsz k s)) by (apply hv0_frame; auto).
    destruct n as [q|w].
    - exists q, (set_dsz k s). split; [reflexivity|]. split; [exact Hd|]. split; [apply obs_set_dsz|]. split; [exact N|reflexivity].
    - subst w. destruct (cdata_alloc (set_dsz k s) k v Td) as (q & s1 & E & H & O & C & D). exists q, s1.
      split; [exact E|]. split; [exact (hv0_trans _ _ _ Hd H)|]. split; [rewrite O; apply obs_set_dsz|]. split; [exact C|exact D]. }
  destruct X as (q & s1 & E1 & H1 & O1 & C1 & D1).
  assert (W1 : s_opened s1 && s_org_spec s1 = true).
  { rewrite (obs_field s_opened _ _ O1 obs_get_opened), (obs_field s_org_spec _ _ O1 obs_get_org_spec). apply S0. }
  assert (Hd1 : s_total (header s1) = s_total s1).
  { rewrite <- (header_obs s1), O1, header_obs, (started_header _ S0). symmetry. exact (obs_field s_total _ _ O1 obs_get_total). }
  destruct (fill_out F s1 k v q byt ltac:(rewrite (obs_stop _ _ O1); exact St) (h_tab _ _ H1) C1 D1 B K W1 (no_gap_obs _ _ (eq_sym O1) G))
    as (s2 & E2 & H2 & O2 & D2 & St2 & P2).
  destruct (list_cdata F s2 k v q St2 (h_tab _ _ H2) (cdata_hv _ _ _ _ _ H2 C1)
    ltac:(rewrite <- (obs_get_org_spec s2), O2, ety_org_spec;
          destruct (writes_more (fill_bytes k byt) (obs s1)) as (_ & M2 & _); rewrite M2, obs_get_org_spec; apply andb_prop in W1; apply W1)
    ltac:(destruct K as [[-> _]|[-> _]]; auto)) as (s3 & E3 & H3 & O3).
  assert (Kp : (k =? 0) = false) by (destruct K as [[-> _]|[-> _]]; reflexivity).
  assert (H4 : hv0 s3 (set_pc (s_pc s3 + k) s3)) by (apply hv0_frame; auto; apply (h_tab _ _ H3)).
  exists q, (set_pc (s_pc s3 + k) s3). split.
  - unfold bind at 1, modify at 1. unfold bind at 1. rewrite E1. unfold bind at 1. rewrite E2. cbv zeta.
    replace (s_total (header s1) - s_total s1 + k) with k by lia. rewrite Kp. unfold bind at 1. rewrite E3. reflexivity.
  - split; [exact (hv0_trans _ _ _ (hv0_trans _ _ _ H1 H2) (hv0_trans _ _ _ H3 H4))|]. split.
    + assert (P3 : s_pc s3 = s_pc s).
      { rewrite <- (obs_get_pc s3), O3, ety_pc, obs_get_pc, P2. exact (obs_pc _ _ O1). }
      rewrite P3, obs_set_pc, O3, O2, ety_ety, O1. reflexivity.
    + exact (cdata_hv _ _ _ _ _ H4 (cdata_hv _ _ _ _ _ H3 (cdata_hv _ _ _ _ _ H2 C1))).
Qed.

Lemma writes_started l z : started z -> writes l z = put l z.
Proof. intros [W H]. unfold writes, header. rewrite W, H. reflexivity. Qed.

Lemma round_then (ex : nat -> M Z) k (A : M nat) (K : nat -> Z -> M unit) s m b s1 :
  (modify (set_dsz k) ;;; q <- A ;; b <- generate_output ex q ;; let b := if b =? 0 then k else b in
    generate_list_node ex q ;;; modify (fun s => set_pc (s_pc s + b) s) ;;; ret (q, b)) s = Ok (m, b) s1 ->
  (modify (set_dsz k) ;;; q <- A ;; b <- generate_output ex q ;; let b := if b =? 0 then k else b in
    generate_list_node ex q ;;; modify (fun s => set_pc (s_pc s + b) s) ;;; K q b) s = K m b s1.
Proof.
  unfold bind at 1, modify at 1. intros E. unfold bind at 1, modify at 1. revert E. generalize (set_dsz k s). intros z.
  unfold bind at 1. intros E. unfold bind at 1. destruct (A z) as [q z1| | |]; try discriminate. revert E.
  unfold bind at 1. intros E. unfold bind at 1. destruct (generate_output ex q z1) as [v z2| | |]; try discriminate. cbv zeta in *. revert E.
  unfold bind at 1. intros E. unfold bind at 1. destruct (generate_list_node ex q z2) as [u z3| | |]; try discriminate.
  unfold bind, modify, ret in *. congruence.
Qed.

Lemma fill_loop_ok F byt : 0 <= byt <= 255 -> forall fuel count s n1 n2, s_stop s = false -> tab s -> started s -> no_gap s -> 0 <= s_total s ->
  0 <= count -> count < Z.of_nat fuel ->
  match n1 with Some n => cdata s 1 byt n | None => True end -> match n2 with Some n => cdata s 2 (byt * 256 + byt) n | None => True end ->
  exists s' e, fill_loop (expand (S (S F))) fuel byt count n1 n2 s = Ok tt s' /\ hv0 s s' /\
    obs s' = set_pc (s_pc s + count) (set_ety e (writes (repeat byt (Z.to_nat count)) (obs s))).
Proof.
  intros B. induction fuel as [|fuel IH]; intros count s n1 n2 St T S0 G Tt C0 HF N1 N2; [lia|]. cbn [fill_loop].
  destruct (count <=? 0) eqn:X0.
  { assert (count = 0) by lia. subst count. exists s, (s_ety s). split; [reflexivity|]. split; [apply hv_refl, T|].
    cbn [Z.to_nat repeat]. assert (Z0 : s_ety (obs s) = s_ety s) by apply obs_get_ety. assert (Z1 : s_pc (obs s) = s_pc s) by apply obs_get_pc.
    assert (Sz : started (obs s)). { unfold started in *. rewrite obs_get_opened, obs_get_org_spec, obs_get_total, obs_get_c64. exact S0. }
    rewrite (writes_started _ _ Sz), Z.add_0_r. rewrite <- Z0, <- Z1. generalize (obs s). intros z. rewrite put_nil. destruct z; reflexivity. }
  assert (Step : forall k (n : nat + Z) v, (k = 1 /\ v = byt \/ k = 2 /\ v = byt * 256 + byt) -> k <= count -> match n with inl n => cdata s k v n | inr w => w = v end ->
    exists m s1, (modify (set_dsz k) ;;; q <- match n with inl n => ret n | inr w => c <- constant_node w ;; alloc (KData k c) [] end ;;
    b <- generate_output (expand (S (S F))) q ;; let b := if b =? 0 then k else b in
    generate_list_node (expand (S (S F))) q ;;; modify (fun s => set_pc (s_pc s + b) s) ;;; ret (q, b)) s = Ok (m, k) s1 /\ hv0 s s1 /\ cdata s1 k v m /\
    forall m1 m2, match m1 with Some n => cdata s1 1 byt n | None => True end -> match m2 with Some n => cdata s1 2 (byt * 256 + byt) n | None => True end ->
    exists s' e, fill_loop (expand (S (S F))) fuel byt (count - k) m1 m2 s1 = Ok tt s' /\ hv0 s s' /\
      obs s' = set_pc (s_pc s + count) (set_ety e (writes (repeat byt (Z.to_nat count)) (obs s)))).
  { intros k n v K Kc Hn. destruct (fill_step F s k byt n v St T B K S0 G Tt Hn) as (m & s1 & E1 & H1 & O1 & C1).
    exists m, s1. split; [exact E1|]. split; [exact H1|]. split; [exact C1|]. intros m1 m2 M1 M2.
    assert (Ln : Z.of_nat (length (fill_bytes k byt)) = k) by (destruct K as [[-> _]|[-> _]]; reflexivity).
    assert (So : started (obs s)). { unfold started in *. rewrite obs_get_opened, obs_get_org_spec, obs_get_total, obs_get_c64. exact S0. }
    destruct (writes_more (fill_bytes k byt) (obs s)) as (W1 & W2 & W3 & W4 & _ & W6 & W7).
    assert (Wh : s_opened (obs s) && s_org_spec (obs s) = true) by apply So. rewrite Wh in W7. rewrite (started_header _ So) in W7.
    assert (Fd : s_stop s1 = s_stop s /\ s_opened s1 = s_opened s /\ s_org_spec s1 = s_org_spec s /\ s_c64 s1 = s_c64 s /\ s_pc s1 = s_pc s + k /\ s_total s1 = s_total s + k).
    { rewrite <- (obs_get_stop s1), <- (obs_get_opened s1), <- (obs_get_org_spec s1), <- (obs_get_c64 s1), <- (obs_get_pc s1), <- (obs_get_total s1), O1.
      rewrite <- (obs_get_stop s), <- (obs_get_opened s), <- (obs_get_org_spec s), <- (obs_get_c64 s), <- (obs_get_total s).
      revert W1 W2 W4 W6 W7. generalize (writes (fill_bytes k byt) (obs s)). intros z W1 W2 W4 W6 W7. rewrite <- W1, <- W2, <- W4, <- W6. 
      rewrite Ln in W7. rewrite <- W7. repeat split. }
    destruct Fd as (F1 & F2 & F3 & F4 & F5 & F6).
    assert (S1 : started s1). { unfold started in *. rewrite F2, F3, F4, F6. split; [apply S0|]. destruct S0 as [_ S0]. destruct (s_c64 s); [|rewrite andb_false_r; reflexivity].
      rewrite andb_true_r in *. destruct K as [[-> _]|[-> _]]; lia. }
    assert (G1 : no_gap s1).
    { unfold no_gap in *. intros _. assert (s_origin s1 = s_origin s).
      { rewrite <- (obs_get_origin s1), O1, <- (obs_get_origin s). revert W3. generalize (writes (fill_bytes k byt) (obs s)). intros z W3. rewrite <- W3. reflexivity. }
      rewrite (started_header _ S1), F5, F6, H. specialize (G (proj1 S0)). rewrite (started_header _ S0) in G. lia. }
    destruct (IH (count - k) s1 m1 m2 ltac:(congruence) (h_tab _ _ H1) S1 G1 ltac:(destruct K as [[-> _]|[-> _]]; lia) ltac:(lia) ltac:(destruct K as [[-> _]|[-> _]]; lia) M1 M2)
      as (s' & e & E2 & H2 & O2).
    exists s', e. split; [exact E2|]. split; [exact (hv0_trans _ _ _ H1 H2)|].
    rewrite O2, O1, F5. replace (s_pc s + k + (count - k)) with (s_pc s + count) by lia.
    assert (Rp : repeat byt (Z.to_nat count) = fill_bytes k byt ++ repeat byt (Z.to_nat (count - k))).
    { destruct K as [[-> _]|[-> _]].
      - replace (Z.to_nat count) with (S (Z.to_nat (count - 1))) by lia. reflexivity.
      - replace (Z.to_nat count) with (S (S (Z.to_nat (count - 2)))) by lia. reflexivity. }
    rewrite Rp, <- writes_app by (rewrite obs_get_total; exact Tt).
    assert (Ow : s_org_spec (writes (fill_bytes k byt) (obs s)) = true) by (rewrite W2; apply andb_prop in Wh; apply Wh).
    revert Ow. generalize (writes (fill_bytes k byt) (obs s)). intros z Ow.
    assert (Y : set_ety e (writes (repeat byt (Z.to_nat (count - k))) (set_pc (s_pc s + k) (set_ety EtBytes z))) =
       writes (repeat byt (Z.to_nat (count - k))) (set_pc (s_pc s + k) (set_ety e z))).
    { rewrite writes_ety_comm by (rewrite pc_org_spec; exact Ow). rewrite pc_set_ety, ety_ety. reflexivity. }
    rewrite Y, set_pc_writes. rewrite writes_ety_comm by exact Ow. reflexivity. }
  destruct (1 <? count) eqn:X1.
  - destruct (Step 2 (match n2 with Some n => inl n | None => inr (byt * 256 + byt) end) (byt * 256 + byt) ltac:(auto) ltac:(lia)
       ltac:(destruct n2; [exact N2|reflexivity])) as (m & s1 & E1 & H1 & C1 & R).
    destruct (R n1 (Some m) ltac:(destruct n1; [exact (cdata_hv _ _ _ _ _ H1 N1)|exact I]) C1) as (s' & e & E2 & H2 & O2).
    exists s', e. split; [|split; [exact H2|exact O2]]. rewrite <- E2.
    apply (round_then _ 2 (match n2 with Some n => ret n | None => c <- constant_node (byt * 256 + byt) ;; alloc (KData 2 c) [] end)
       (fun q b => fill_loop (expand (S (S F))) fuel byt (count - b) n1 (Some q))). destruct n2; exact E1.
  - destruct (Step 1 (match n1 with Some n => inl n | None => inr byt end) byt ltac:(auto) ltac:(lia)
       ltac:(destruct n1; [exact N1|reflexivity])) as (m & s1 & E1 & H1 & C1 & R).
    destruct (R (Some m) n2 C1 ltac:(destruct n2; [exact (cdata_hv _ _ _ _ _ H1 N2)|exact I])) as (s' & e & E2 & H2 & O2).
    exists s', e. split; [|split; [exact H2|exact O2]]. rewrite <- E2.
    apply (round_then _ 1 (match n1 with Some n => ret n | None => c <- constant_node byt ;; alloc (KData 1 c) [] end)
       (fun q b => fill_loop (expand (S (S F))) fuel byt (count - b) (Some q) n2)). destruct n1; exact E1.
Qed.

(** ** The statement *)
Lemma opr_hv s s' p o l : hv0 s s' -> nth_error (s_nodes s) p = Some (mkNode (KOpr o) l) -> nth_error (s_nodes s') p = Some (mkNode (KOpr o) l).
Proof. intros H N. destruct (h_node _ _ H _ _ N) as (x' & X1 & X2). inversion X2 as [x0 x0' X| |]; subst. inversion X; subst; exact X1. Qed.
Lemma build_fill ex first e1 e2 s : tab s -> wfe e1 = true -> wfe e2 = true -> plain_expr s e1 -> plain_expr s e2 ->
  exists p q1 q2 s1, build_stmt ex first (SFill e1 e2) s = Ok (Some p) s1 /\ hv0 s s1 /\ obs s1 = obs s /\
    nth_error (s_nodes s1) p = Some (mkNode (KOpr OFill) [q1; q2]) /\ rep (meaning s) true s1 q1 e1 /\ rep (meaning s) true s1 q2 e2.
Proof.
  intros T W1 W2 P1 P2. cbn [build_stmt].
  destruct (build_item_ok (IExpr e1) s T (conj W1 P1)) as (q1 & s1 & E1 & H1 & O1 & R1). cbn [build_item irep] in *.
  destruct (build_item_ok (IExpr e2) s1 (h_tab _ _ H1) (item_plain_hv s s1 (IExpr e2) (h_base _ _ H1) (conj W2 P2))) as (q2 & s2 & E2 & H2 & O2 & R2).
  apply (irep_meaning s s1) in R2; [|exact H1|exact (conj W2 P2)]. cbn [build_item irep] in *.
  unfold bindo, bind. rewrite E1, E2. unfold some, bind, ret. rewrite alloc_eq.
  destruct (hv_alloc_obs (KOpr OFill) [q1; q2] s2 eq_refl (h_tab _ _ H2)) as [H3 O3].
  do 4 eexists. split; [reflexivity|]. split; [exact (hv0_trans _ _ _ H1 (hv0_trans _ _ _ H2 H3))|]. split; [congruence|].
  split; [apply alloc_nth|]. split; [exact (rep_hv _ _ _ _ _ _ (hv0_trans _ _ _ H2 H3) R1)|exact (rep_hv _ _ _ _ _ _ H3 R2)].
Qed.

Lemma fill_args F first e1 e2 v1 v2 s : tab s -> s_stop s = false -> wfe e1 = true -> wfe e2 = true -> plain_expr s e1 -> plain_expr s e2 ->
  known (meaning s) (s_pc s) e1 v1 -> known (meaning s) (s_pc s) e2 v2 -> (height e1 <= F)%nat -> (height e2 <= F)%nat ->
  exists p s1 s2, build_stmt (expand (S F)) first (SFill e1 e2) s = Ok (Some p) s1 /\ hv0 s s2 /\ obs s2 = obs s /\
    expand (S F) p s1 =
      (if (v1 <? 0) || (255 <? v1) then err error_value_out_of_range ;;; exit_ (-1)
       else if v2 <? 0 then err error_value_out_of_range ;;; exit_ (-1)
       else
         f <- gets s_final ;;
         (if f then modify (set_dsz 0) ;;; fill_loop (expand F) (S (Z.to_nat v2)) v1 v2 None None
          else modify (fun s => set_pc (s_pc s + (if 0 <? v2 then v2 else 1)) s)) ;;;
         ret v1) s2.
Proof.
  intros T St W1 W2 P1 P2 K1 K2 HF1 HF2.
  destruct (build_fill (expand (S F)) first e1 e2 s T W1 W2 P1 P2) as (p & q1 & q2 & s1 & E & H1 & O1 & N & R1 & R2).
  destruct (eval_known _ _ _ v1 F s1 q1 HF1 (h_tab _ _ H1) ltac:(rewrite (obs_stop _ _ O1); exact St) R1 ltac:(rewrite (obs_pc _ _ O1); exact K1))
    as (s2 & E2 & H2 & O2 & _).
  destruct (eval_known _ _ _ v2 F s2 q2 HF2 (h_tab _ _ H2) ltac:(rewrite (obs_stop _ _ O2), (obs_stop _ _ O1); exact St) (rep_hv _ _ _ _ _ _ H2 R2)
    ltac:(rewrite (obs_pc _ _ O2), (obs_pc _ _ O1); exact K2)) as (s3 & E3 & H3 & O3 & _).
  exists p, s1, s3. split; [exact E|]. split; [exact (hv0_trans _ _ _ H1 (hv0_trans _ _ _ H2 H3))|]. split; [congruence|].
  cbn [expand]. unfold bind at 1, gets at 1. rewrite (obs_stop _ _ O1), St. unfold bind at 1, node_get, bind at 1, gets at 1. rewrite N. unfold ret at 1.
  change (x_fill (expand F) (mkNode (KOpr OFill) [q1; q2]) s1 = _ s3) || idtac.
  transitivity (x_fill (expand F) (mkNode (KOpr OFill) [q1; q2]) s1); [reflexivity|].
  unfold x_fill, opn. cbn [n_ops nth_error]. unfold bind at 1, ret at 1. unfold bind at 1. rewrite E2.
  unfold bind at 1, ret at 1. unfold bind at 1. rewrite E3. reflexivity.
Qed.

Definition fill_body (ex : nat -> M Z) (v1 v2 : Z) : M Z :=
  if (v1 <? 0) || (255 <? v1) then err error_value_out_of_range ;;; exit_ (-1)
       else if v2 <? 0 then err error_value_out_of_range ;;; exit_ (-1)
       else
         f <- gets s_final ;;
         (if f then modify (set_dsz 0) ;;; fill_loop ex (S (Z.to_nat v2)) v1 v2 None None
          else modify (fun s => set_pc (s_pc s + (if 0 <? v2 then v2 else 1)) s)) ;;;
         ret v1.
Lemma fill_body_final ex v1 v2 s s' : 0 <= v1 <= 255 -> 0 <= v2 -> s_final s = true ->
  fill_loop ex (S (Z.to_nat v2)) v1 v2 None None (set_dsz 0 s) = Ok tt s' -> fill_body ex v1 v2 s = Ok v1 s'.
Proof.
  intros B1 B2 Fi E. unfold fill_body. replace ((v1 <? 0) || (255 <? v1)) with false by lia. replace (v2 <? 0) with false by lia.
  unfold bind at 1, gets at 1. rewrite Fi. unfold bind at 1. unfold bind at 1, modify at 1. rewrite E. reflexivity.
Qed.
Lemma rev_repeat {A} (v : A) n : rev (repeat v n) = repeat v n.
Proof.
  induction n as [|n IH]; [reflexivity|]. cbn [repeat rev]. rewrite IH. clear. induction n as [|n IH]; [reflexivity|]. cbn [repeat app].
  rewrite IH. reflexivity.
Qed.
Lemma map_byte_repeat v n : 0 <= v <= 255 -> map byte (repeat v n) = repeat v n.
Proof. intros B. induction n as [|n IH]; [reflexivity|]. cbn [repeat map]. rewrite IH. unfold byte. rewrite Z.mod_small by lia. reflexivity. Qed.
Lemma ety_out e z : s_out (set_ety e z) = s_out z. Proof. reflexivity. Qed.
Lemma ety_errs e z : s_errs (set_ety e z) = s_errs z. Proof. reflexivity. Qed.
Lemma put_errs l z : s_errs (put l z) = s_errs z. Proof. reflexivity. Qed.
Lemma started_obs s : started s -> started (obs s).
Proof. unfold started. rewrite obs_get_opened, obs_get_org_spec, obs_get_total, obs_get_c64. auto. Qed.

(** bytes written by .FILL [v1], [v2] *)
Theorem fill_final F first e1 e2 v1 v2 s : ready s -> operand_value s e1 v1 -> operand_value s e2 v2 -> (height e1 <= S (S F))%nat -> (height e2 <= S (S F))%nat ->
  0 <= v1 <= 255 -> 0 <= v2 -> s_final s = true -> s_opened s && s_org_spec s = true -> (s_total s =? 0) && s_c64 s = false -> no_hole s -> 0 <= s_total s ->
  exists p s1 s2, build_stmt (expand (S (S (S F)))) first (SFill e1 e2) s = Ok (Some p) s1 /\ expand (S (S (S F))) p s1 = Ok v1 s2 /\
    s_pc s2 = s_pc s + v2 /\ s_out s2 = repeat v1 (Z.to_nat v2) ++ s_out s /\ s_errs s2 = s_errs s /\ (forall n, plain n -> value_of s2 n = value_of s n).
Proof.
  intros R V1 V2 HF1 HF2 B1 B2 Fi W Nh H Tt. destruct (ready_tab _ R) as [T St].
  destruct (operand_known _ _ _ V1) as (W1 & P1 & _ & K1 & _). destruct (operand_known _ _ _ V2) as (W2 & P2 & _ & K2 & _).
  destruct (fill_args (S (S F)) first e1 e2 v1 v2 s T St W1 W2 P1 P2 K1 K2 HF1 HF2) as (p & s1 & s2 & E1 & H2 & O2 & E2).
  fold (fill_body (expand (S (S F))) v1 v2) in E2.
  assert (O3 : obs (set_dsz 0 s2) = obs s) by (rewrite obs_set_dsz; exact O2).
  assert (H3 : hv0 s (set_dsz 0 s2)) by (apply (hv0_trans _ _ _ H2), hv0_frame; auto; apply (h_tab _ _ H2)).
  assert (X : forall s4, fill_loop (expand (S (S F))) (S (Z.to_nat v2)) v1 v2 None None (set_dsz 0 s2) = Ok tt s4 -> expand (S (S (S F))) p s1 = Ok v1 s4).
  { intros s4 X. rewrite E2. apply fill_body_final; auto. rewrite (obs_field s_final _ _ O2 obs_get_final). exact Fi. }
  clear E2. revert O3 H3 X. generalize (set_dsz 0 s2). intros z O3 H3 X.
  assert (S0 : started z).
  { unfold started. rewrite (obs_field s_opened _ _ O3 obs_get_opened), (obs_field s_org_spec _ _ O3 obs_get_org_spec),
      (obs_field s_total _ _ O3 obs_get_total), (obs_field s_c64 _ _ O3 obs_get_c64). auto. }
  destruct (fill_loop_ok F v1 B1 (S (Z.to_nat v2)) v2 z None None ltac:(rewrite (obs_stop _ _ O3); exact St) (h_tab _ _ H3) S0
    ltac:(unfold no_gap; intros _; rewrite (started_header _ S0), (obs_pc _ _ O3), (obs_field s_origin _ _ O3 obs_get_origin), (obs_field s_total _ _ O3 obs_get_total); exact H)
    ltac:(rewrite (obs_field s_total _ _ O3 obs_get_total); exact Tt) B2 ltac:(lia) I I) as (s4 & e & E4 & H4 & O4).
  exists p, s1, s4. split; [exact E1|]. split; [exact (X s4 E4)|].
  assert (So : started (obs s)) by (rewrite <- O3; apply started_obs, S0).
  rewrite (obs_pc _ _ O3), O3, (writes_started _ _ So) in O4.
  split; [rewrite <- (obs_get_pc s4), O4; apply pc_pc|].
  split; [rewrite <- (obs_get_out s4), O4, pc_out, ety_out, out_put, (map_byte_repeat _ _ B1), rev_repeat, obs_get_out; reflexivity|].
  split; [rewrite <- (obs_get_errs s4), O4, pc_errs, ety_errs, put_errs, obs_get_errs; reflexivity|].
  intros n Hn. apply value_of_hv; [exact (hv0_trans _ _ _ H3 H4)|exact Hn].
Qed.
Theorem fill_analysis F first e1 e2 v1 v2 s : ready s -> operand_value s e1 v1 -> operand_value s e2 v2 -> (height e1 <= F)%nat -> (height e2 <= F)%nat ->
  0 <= v1 <= 255 -> 0 <= v2 -> s_final s = false ->
  exists p s1 s2, build_stmt (expand (S F)) first (SFill e1 e2) s = Ok (Some p) s1 /\ expand (S F) p s1 = Ok v1 s2 /\
    s_pc s2 = s_pc s + Z.max 1 v2 /\ s_out s2 = s_out s /\ s_errs s2 = s_errs s /\ (forall n, plain n -> value_of s2 n = value_of s n).
Proof.
  intros R V1 V2 HF1 HF2 B1 B2 Fi. destruct (ready_tab _ R) as [T St].
  destruct (operand_known _ _ _ V1) as (W1 & P1 & _ & K1 & _). destruct (operand_known _ _ _ V2) as (W2 & P2 & _ & K2 & _).
  destruct (fill_args F first e1 e2 v1 v2 s T St W1 W2 P1 P2 K1 K2 HF1 HF2) as (p & s1 & s2 & E1 & H2 & O2 & E2).
  replace ((v1 <? 0) || (255 <? v1)) with false in E2 by lia. replace (v2 <? 0) with false in E2 by lia.
  unfold bind at 1, gets at 1 in E2. rewrite (obs_field s_final _ _ O2 obs_get_final), Fi in E2. unfold bind at 1, modify in E2.
  exists p, s1. eexists. split; [exact E1|]. split; [exact E2|]. rewrite pc_pc, pc_out, pc_errs.
  rewrite (obs_pc _ _ O2), (obs_field s_out _ _ O2 obs_get_out), (obs_field s_errs _ _ O2 obs_get_errs). split; [destruct (0 <? v2) eqn:X; lia|].
  split; [reflexivity|]. split; [reflexivity|]. intros n Hn. apply value_of_hv; [|exact Hn]. apply (hv0_trans _ _ _ H2), hv0_frame; auto; apply (h_tab _ _ H2).
Qed.
Theorem fill_range F first e1 e2 v1 v2 s : ready s -> operand_value s e1 v1 -> operand_value s e2 v2 -> (height e1 <= F)%nat -> (height e2 <= F)%nat ->
  v1 < 0 \/ 255 < v1 \/ v2 < 0 ->
  exists p s1 s2, build_stmt (expand (S F)) first (SFill e1 e2) s = Ok (Some p) s1 /\ expand (S F) p s1 = Exit (-1) s2 /\ s_errs s2 = s_errs s + 1 /\ s_out s2 = s_out s.
Proof.
  intros R V1 V2 HF1 HF2 B. destruct (ready_tab _ R) as [T St].
  destruct (operand_known _ _ _ V1) as (W1 & P1 & _ & K1 & _). destruct (operand_known _ _ _ V2) as (W2 & P2 & _ & K2 & _).
  destruct (fill_args F first e1 e2 v1 v2 s T St W1 W2 P1 P2 K1 K2 HF1 HF2) as (p & s1 & s2 & E1 & H2 & O2 & E2).
  assert (X : expand (S F) p s1 = (err error_value_out_of_range ;;; exit_ (-1)) s2).
  { rewrite E2. destruct ((v1 <? 0) || (255 <? v1)) eqn:X1; [reflexivity|]. replace (v2 <? 0) with true by lia. reflexivity. }
  exists p, s1. eexists. split; [exact E1|]. split; [rewrite X; reflexivity|].
  rewrite <- (obs_field s_errs _ _ O2 obs_get_errs), <- (obs_field s_out _ _ O2 obs_get_out). split; reflexivity.
Qed.

(** programs *)
Lemma w54_zero : exists u, run ["  .org $1000"; "  jmp l"; "  .fill 1,0"; "l rts"] = Some u /\ u_code u = 0 /\ u_errs u = 0 /\ u_bytes u = [76; 4; 16; 96].
Proof. eexists. split; [vm_compute; reflexivity|]. repeat split. Qed.
Lemma w54_c64 : exists u, run_c64 ["  .org $1000"; "  .fill 7,5"; "l rts"; "  .word l"] = Some u /\ u_code u = 0 /\ u_errs u = 0 /\
  u_bytes u = [0; 16; 7; 7; 7; 96; 5; 16].
Proof. eexists. split; [vm_compute; reflexivity|]. repeat split. Qed.
