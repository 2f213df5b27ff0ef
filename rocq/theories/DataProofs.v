(** Data directives: .BYTE, .WORD and .STR with lists of values and strings. *)
From Coq Require Import String Lia.
From Verif Require Import Base BaseProofs Hash Dict DictProofs DictMore Str Opcodes OpcodesProofs Err State Sym Machine Build Pass
  GenX Gen Inv SymProofs Sem ExprProofs ListRel ExprMore OpProofs OpMore InstrProofs InstrMore.
Open Scope string_scope.
Open Scope list_scope.
Open Scope Z_scope.
Open Scope m_scope.
Ltac Zify.zify_post_hook ::= Z.div_mod_to_equations.

(** ** Parts of an expression with a value have values *)
Lemma sem_count e : forall en pc v k, sem en pc e = Some (v, k) -> 0 <= k.
Proof.
  induction e as [v0|n| |o e IH|o e1 IH1 e2 IH2]; intros en pc v k H; cbn [sem] in H.
  1-3: injection H as <- <-; lia.
  - destruct (sem en pc e) as [[w j]|] eqn:E; [|discriminate]. destruct (sem_un o w); [|discriminate]. injection H as <- <-. eapply IH, E.
  - destruct (sem en pc e1) as [[v1 k1]|] eqn:E1; destruct (sem en pc e2) as [[v2 k2]|] eqn:E2;
      try pose proof (IH1 _ _ _ _ E1); try pose proof (IH2 _ _ _ _ E2);
      destruct o; try discriminate;
      repeat match type of H with
      | context [if ?b then _ else _] => destruct b
      | context [match ?x with Some _ => _ | None => _ end] => destruct x
      end; try discriminate; injection H as <- <-; lia.
Qed.
Lemma known_un C pc o e v : known C pc (EUn o e) v -> exists w, known C pc e w.
Proof.
  intros [S E]. cbn [sem eager] in *. destruct (sem _ pc e) as [[w j]|] eqn:X; [|discriminate].
  destruct (sem_un o w); [|discriminate]. injection S as _ ->. exists w. split; auto.
Qed.
Lemma known_bin C pc o e1 e2 v : known C pc (EBin o e1 e2) v -> exists w1 w2, known C pc e1 w1 /\ known C pc e2 w2.
Proof.
  intros [S E]. cbn [eager] in E. apply andb_prop in E. destruct E as [E E2]. apply andb_prop in E. destruct E as [Eo E1].
  assert (X : exists w1 w2, sem (fun n => cval (C n)) pc e1 = Some (w1, 0) /\ sem (fun n => cval (C n)) pc e2 = Some (w2, 0)).
  { cbn [sem] in S. destruct (sem _ pc e1) as [[v1 k1]|] eqn:X1; destruct (sem _ pc e2) as [[v2 k2]|] eqn:X2;
    try pose proof (sem_count _ _ _ _ _ X1); try pose proof (sem_count _ _ _ _ _ X2); destruct o; try discriminate;
    repeat match type of S with
      | context [if ?b then _ else _] => destruct b
      | context [match ?x with Some _ => _ | None => _ end] => destruct x
      end; try discriminate; injection S as _ S; first [exists v1, v2; split; f_equal; f_equal; lia | exfalso; lia]. }
  destruct X as (w1 & w2 & X1 & X2). exists w1, w2. split; split; auto.
Qed.

(** ** One value *)
Lemma rep_kind C u s p e : rep C u s p e ->
  exists x, nth_error (s_nodes s) p = Some x /\ is_kind_con_id_lab_opr (n_kind x) = true /\ is_str (n_kind x) = false /\
    n_kind x <> KOpr OExprList.
Proof.
  intros R. inversion R; subst; eexists; (split; [eassumption|]); (split; [reflexivity|]); (split; [reflexivity|]); cbn [n_kind]; try congruence.
  - intros [= ->]. discriminate.
  - intros [= ->]. discriminate.
Qed.

(** the operands of an item are evaluated first *)
Lemma eval_ops C u e v F s p x : (height e <= F)%nat -> tab s -> s_stop s = false -> rep C u s p e -> known C (s_pc s) e v ->
  nth_error (s_nodes s) p = Some x ->
  exists w s', expand_all (expand F) (n_ops x) 0 s = Ok w s' /\ hv s s' /\ obs s' = obs s /\ rep C u s' p e /\
    ops_kept s s' /\ s_dsz s' = s_dsz s /\ has_uninitialized p s' = Ok (inner C e) s' /\ nth_error (s_nodes s') p = Some x.
Proof.
  intros HF T St R K N.
  assert (Leaf : n_ops x = [] -> (forall k l, x = mkNode k l -> has_uninitialized p s = Ok (inner C e) s) ->
     exists w s', expand_all (expand F) (n_ops x) 0 s = Ok w s' /\ hv s s' /\ obs s' = obs s /\ rep C u s' p e /\
       ops_kept s s' /\ s_dsz s' = s_dsz s /\ has_uninitialized p s' = Ok (inner C e) s' /\ nth_error (s_nodes s') p = Some x).
  { intros E U. rewrite E. cbn [expand_all]. exists 0, s. split; [reflexivity|]. split; [apply hv_refl, T|]. split; [reflexivity|].
    split; [exact R|]. split; [apply ops_kept_refl|]. split; [reflexivity|]. split; [destruct x; eapply U; reflexivity|exact N]. }
  assert (L0 : forall k, nth_error (s_nodes s) p = Some (mkNode k []) -> has_uninitialized p s = Ok false s).
  { intros k Hk. unfold has_uninitialized, bind, gets. rewrite (has_uninit_eq _ _ _ _ Hk). reflexivity. }
  inversion R as [p0 v0 Np|p0 v0 Np|p0 n a y Np D Hy Ey|p0 n Eu Np P Ey|p0 o q e0 Np U Lt R0|p0 o q1 q2 e1 e2 Np B L1 L2 R1 R2]; subst;
    rewrite Np in N; injection N as <-.
  1-4: apply Leaf; [reflexivity|]; intros k l [= <- <-]; apply (L0 _ Np).
  - clear Leaf L0. destruct (known_un _ _ _ _ _ K) as (w & Kw). cbn [height] in HF.
    destruct (eval_known C u e0 w F s q ltac:(lia) T St R0 Kw) as (s1 & E1 & H1 & O1 & Rq & P1 & D1).
    cbn [n_ops expand_all]. exists w, s1. unfold bind. rewrite E1. split; [reflexivity|]. split; [exact H1|]. split; [exact O1|].
    split; [exact (rep_hv _ _ _ _ _ _ H1 R)|]. split; [exact P1|]. split; [exact D1|].
    assert (N1 : nth_error (s_nodes s1) p = Some (mkNode (KOpr o) [q])).
    { destruct (h_node _ _ H1 _ _ Np) as (x' & X1 & X2). inversion X2 as [x0 x0' X| |]; subst. inversion X; subst. exact X1. }
    split; [|exact N1].
    rewrite (has_uninitialized_rep C s1 p (KOpr o) q e0 N1 Rq). reflexivity.
  - clear Leaf L0. destruct (known_bin _ _ _ _ _ _ K) as (w1 & w2 & K1 & K2). cbn [height] in HF.
    destruct (eval_known C u e1 w1 F s q1 ltac:(lia) T St R1 K1) as (s1 & E1 & H1 & O1 & Rq1 & P1 & D1).
    destruct (eval_known C u e2 w2 F s1 q2 ltac:(lia) (h_tab _ _ H1) ltac:(rewrite (obs_stop _ _ O1); exact St) (rep_hv _ _ _ _ _ _ H1 R2)
       ltac:(rewrite (obs_pc _ _ O1); exact K2)) as (s2 & E2 & H2 & O2 & Rq2 & P2 & D2).
    cbn [n_ops expand_all]. exists w2, s2. unfold bind. rewrite E1, E2. split; [reflexivity|].
    pose proof (hv_trans _ _ _ H1 H2) as H. split; [exact H|]. split; [congruence|].
    split; [exact (rep_hv _ _ _ _ _ _ H R)|]. split; [eapply ops_kept_trans; eassumption|]. split; [congruence|].
    assert (N2 : nth_error (s_nodes s2) p = Some (mkNode (KOpr o) [q1; q2])).
    { destruct (h_node _ _ H _ _ Np) as (x' & X1 & X2). inversion X2 as [x0 x0' X| |]; subst. inversion X; subst. exact X1. }
    split; [|exact N2].
    assert (Rp : rep C false s2 p (EBin o e1 e2)) by (eapply RepBin; eauto; exact (rep_hv _ _ _ _ _ _ H2 Rq1)).
    unfold has_uninitialized, bind, gets. apply has_uninit_rep; [exact Rp|].
    destruct (rep_height _ _ _ _ _ Rp). lia.
Qed.

(** the bytes of a value; [size] 1 is .BYTE, 2 .WORD, 0 .STR *)
Definition value_bytes (size v : Z) : list Z :=
  if size =? 1 then [v] else if (size =? 0) && ((0 <=? v) && (v <=? 255)) then [v] else [v; v / 256].
(** values that are accepted *)
Definition value_fits (size v : Z) : bool :=
  if size =? 1 then (-254 <=? v) && (v <=? 255) else (-65534 <=? v) && (v <=? 65535).
(** what the program counter moves by *)
Definition value_step (size v : Z) : Z := if size =? 0 then (if v / 256 mod 256 =? 0 then 1 else 2) else size.
Definition text_bytes (size : Z) (t : cstr) : list Z := t ++ (if (size =? 2) && (Z.of_nat (length t) mod 2 =? 1) then [0] else []).

Lemma land_hi v : Z.land v 65280 / 256 = v / 256 mod 256.
Proof.
  change 65280 with (Z.shiftl 255 8). replace (Z.land v (Z.shiftl 255 8) / 256) with (Z.shiftr (Z.land v (Z.shiftl 255 8)) 8) by (rewrite Z.shiftr_div_pow2 by lia; reflexivity).
  rewrite Z.shiftr_land, Z.shiftr_shiftl_l by lia. change (8 - 8) with 0. rewrite Z.shiftl_0_r.
  change 255 with (Z.ones 8). rewrite Z.land_ones by lia. rewrite Z.shiftr_div_pow2 by lia. reflexivity.
Qed.

(** writing a value *)
Lemma write_value C u e v F s p size : (height e <= F)%nat -> tab s -> s_stop s = false -> rep C u s p e -> known C (s_pc s) e v ->
  s_dsz s = size -> In size [0; 1; 2] ->
  exists s', write_data_node (expand F) p s = Ok tt s' /\ hv0 s s' /\
    obs s' = (if value_fits size v then put (value_bytes size v) (obs s) else set_errs (s_errs s + 1) (obs s)) /\ s_dsz s' = size /\
    s_list s' = s_list s /\ s_soft s' = s_soft s.
Proof.
  intros HF T St R K D Sz. unfold write_data_node.
  destruct (eval_known C u e v F s p HF T St R K) as (s1 & E1 & H1 & O1 & R1 & P1 & D1).
  destruct (eval_quiet C u e v F s p s1 HF T St R K E1) as (L1 & L1').
  unfold bind at 1. rewrite E1. unfold bind at 1, gets. rewrite D1, D.
  assert (Er : forall n, exists s', err n s1 = Ok tt s' /\ hv0 s s' /\ obs s' = set_errs (s_errs s + 1) (obs s) /\ s_dsz s' = size /\
    s_list s' = s_list s /\ s_soft s' = s_soft s).
  { intros n. unfold err, modify. eexists. split; [reflexivity|].
    split; [eapply hv0_trans; [exact H1|apply hv_err, (h_tab _ _ H1)]|]. split; [obs_simp; rewrite O1, (obs_errs _ _ O1); reflexivity|].
    cbn. repeat split; congruence. }
  assert (P : forall l, exists s', Ok tt (put l s1) = Ok tt s' /\ hv0 s s' /\ obs s' = put l (obs s) /\ s_dsz s' = size /\
    s_list s' = s_list s /\ s_soft s' = s_soft s).
  { intros l. eexists. split; [reflexivity|]. split; [eapply hv0_trans; [exact H1|apply hv_put, (h_tab _ _ H1)]|].
    split; [rewrite obs_put, O1; reflexivity|]. unfold put. cbn. repeat split; congruence. }
  rewrite over_16, over_8. unfold value_fits, value_bytes.
  destruct Sz as [<-|[<-|[<-|[]]]]; cbn [Z.eqb Pos.eqb negb andb orb];
    repeat match goal with
    | |- context [if ?b then _ else _] => lazymatch b with
        | context [if _ then _ else _] => fail | _ => let X := fresh "X" in destruct b eqn:X end
    end; rewrite ?emit_put, ?emit_word_put; try (exfalso; lia); try apply Er; try apply P.
Qed.

(** a listed value *)
Definition data_body (size pc v : Z) : lbody := LData (Z.land pc 65535) (if 1 <? size then [Z.land v 255; Z.land v 65280 / 256] else [Z.land v 255]).
(** the high byte that is looked at; a value with one is listed with .WORD only *)
Definition high (size v : Z) : Z := if (v <? 0) && (size =? 1) then 0 else Z.land v 65280 / 256.
Lemma list_value C u e v F s p : (height e <= F)%nat -> tab s -> s_stop s = false -> rep C u s p e -> known C (s_pc s) e v ->
  exists s', generate_list_node (expand F) p s = Ok tt s' /\ hv0 s s' /\ obs s' = obs s /\ s_dsz s' = s_dsz s /\ rep C false s' p e /\
    (if negb (high (s_dsz s) v =? 0) && (s_dsz s <? 2) then s_soft s' = 1 :: s_soft s /\ s_list s' = s_list s
     else s_soft s' = s_soft s /\ s_list s' = entry (data_body (s_dsz s) (s_pc s) v) s :: s_list s).
Proof.
  intros HF T St R K. destruct (rep_kind _ _ _ _ _ R) as (x & N & Kk & Ks & _).
  destruct (eval_known C u e v F s p HF T St R K) as (s1 & E1 & H1 & O1 & R1 & P1 & D1).
  destruct (eval_quiet C u e v F s p s1 HF T St R K E1) as (L1 & L1').
  unfold generate_list_node, node_get, gets. unfold bind at 1, bind at 1. rewrite N. unfold ret at 1. unfold bind at 1.
  assert (X : exists s', (op <- expand F p ;; d <- gets s_dsz ;;
      let lo := Z.land op 255 in
      let hi := if (op <? 0) && (d =? 1) then 0 else Z.land op 65280 / 256 in
      if negb (hi =? 0) && (d <? 2) then modify (fun s => set_soft (1 :: s_soft s) s)
      else add_list false (LData (Z.land (s_pc s) 65535) (if 1 <? d then [lo; hi] else [lo]))) s = Ok tt s' /\ hv0 s s' /\ obs s' = obs s /\ s_dsz s' = s_dsz s /\ rep C false s' p e /\
    (if negb (high (s_dsz s) v =? 0) && (s_dsz s <? 2) then s_soft s' = 1 :: s_soft s /\ s_list s' = s_list s
     else s_soft s' = s_soft s /\ s_list s' = entry (data_body (s_dsz s) (s_pc s) v) s :: s_list s)).
  { unfold bind at 1. rewrite E1. unfold bind at 1, gets. cbv zeta. rewrite D1. fold (high (s_dsz s) v).
    destruct (negb (high (s_dsz s) v =? 0) && (s_dsz s <? 2)) eqn:Hh.
    - unfold modify. eexists. split; [reflexivity|].
      assert (H2 : hv0 s1 (set_soft (1 :: s_soft s1) s1)) by (apply hv0_frame; auto; apply (h_tab _ _ H1)).
      split; [exact (hv0_trans _ _ _ H1 H2)|]. split; [rewrite obs_set_soft; exact O1|]. split; [exact D1|]. split; [exact (rep_hv _ _ _ _ _ _ H2 R1)|].
      cbn. split; congruence.
    - unfold add_list, modify. eexists. split; [reflexivity|]. pose proof (hv_list (LData (Z.land (s_pc s) 65535) (if 1 <? s_dsz s then [Z.land v 255; high (s_dsz s) v] else [Z.land v 255])) false s1 (h_tab _ _ H1)) as H2.
      split; [exact (hv0_trans _ _ _ H1 H2)|]. split; [rewrite obs_set_list; exact O1|]. split; [exact D1|]. split; [exact (rep_hv _ _ _ _ _ _ H2 R1)|].
      cbn [s_list set_list s_soft]. split; [exact L1'|]. rewrite L1. f_equal. fold (entry (LData (Z.land (s_pc s) 65535) (if 1 <? s_dsz s then [Z.land v 255; high (s_dsz s) v] else [Z.land v 255])) s1).
      rewrite (entry_obs _ _ _ O1). unfold entry, data_body, high. do 2 f_equal. destruct (1 <? s_dsz s) eqn:E; [|reflexivity].
      apply Z.ltb_lt in E. destruct (s_dsz s =? 1) eqn:E'; [apply Z.eqb_eq in E'; lia|]. rewrite andb_false_r. reflexivity. }
  destruct (n_kind x); try discriminate; exact X.
Qed.

Definition owrites (l : option (list Z)) (s : state) : state := match l with Some l => writes l s | None => s end.

(** listing and writing a value in the final pass; an error is counted when the value does not fit *)
Definition wvalue (size v : Z) (s : state) : state :=
  if value_fits size v then writes (value_bytes size v) s
  else if s_opened s && s_org_spec s then set_errs (s_errs s + 1) (header s) else s.
(** with .BYTE and .WORD what is listed is what is written *)
Record hvs (size : Z) (s s' : state) : Prop := mkHvs { hvs_base :> hv0 s s'; hvs_lk : size <> 0 -> lkp size s s' }.
Lemma hvs_hv size s s' : hvs size s s' -> size <> 0 -> hvp size s s'.
Proof. intros [A B] N. split; auto. Qed.
Lemma land_255 v : Z.land v 255 = v mod 256.
Proof. change 255 with (Z.ones 8). apply Z.land_ones. lia. Qed.
Lemma lk_bad k n s s' : s_list s' = k ++ s_list s -> (length (s_soft s) <= length (s_soft s'))%nat ->
  obs s' = (if s_opened s && s_org_spec s then set_errs (s_errs s + 1) (header (obs s)) else obs s) -> Forall (tagged (ltag s)) k -> lkp n s s'.
Proof.
  intros E1 E2 O E3 t Ev Ep. assert (X : obs s' = obs (if s_opened s && s_org_spec s then set_errs (s_errs s + 1) (header s) else s)).
  { rewrite O. destruct (_ && _); [|reflexivity]. obs_simp. rewrite obs_header. reflexivity. }
  assert (A1 := obs_field s_errs _ _ X obs_get_errs). assert (A2 := obs_field s_c64 _ _ X obs_get_c64).
  assert (A3 := obs_field s_opened _ _ X obs_get_opened). assert (A4 := obs_field s_org_spec _ _ X obs_get_org_spec).
  assert (A5 := obs_field s_total _ _ X obs_get_total). assert (A6 := obs_field ltag _ _ X (fun _ => eq_refl)).
  assert (A8 := obs_field s_final _ _ X (fun _ => eq_refl)). assert (A9 := obs_field s_pc_assigned _ _ X (fun _ => eq_refl)). clear X O.
  assert (W5 : ltag (header s) = ltag s) by (unfold header; destruct ((s_total s =? 0) && s_c64 s); reflexivity).
  assert (W : s_c64 (header s) = s_c64 s /\ s_opened (header s) = s_opened s /\ s_org_spec (header s) = s_org_spec s /\ (0 <= s_total s -> 0 <= s_total (header s)) /\
    s_final (header s) = s_final s /\ s_pc_assigned (header s) = s_pc_assigned s).
  { unfold header. destruct ((s_total s =? 0) && s_c64 s); [|auto 10]. repeat (split; [reflexivity|]). split; [|auto]. intros. change (0 <= s_total s + Z.of_nat 2). lia. }
  destruct W as (W1 & W2 & W3 & W4 & W6 & W7).
  assert (A7 : ltag s' = ltag s). { rewrite A6. destruct (s_opened s && s_org_spec s); [exact W5|reflexivity]. } clear A6 W5.
  assert (A10 : s_final s' = s_final s). { rewrite A8. destruct (s_opened s && s_org_spec s); [exact W6|reflexivity]. } clear A8 W6.
  assert (A11 : s_pc_assigned s' = s_pc_assigned s). { rewrite A9. destruct (s_opened s && s_org_spec s); [exact W7|reflexivity]. } clear A9 W7.
  unfold lview in Ev. injection Ev as B1 B2 B3 B4 B5 B6 B7 B8 B9 B10 B11 B12.
  assert (A12 : ltag t = ltag s) by (rewrite <- A7; unfold ltag; congruence).
  destruct (s_opened s && s_org_spec s) eqn:Wr; cbn [s_errs s_c64 s_opened s_org_spec s_total set_errs] in *.
  - assert (Er : s_errs t = s_errs s + 1) by congruence. constructor; unfold writing.
    + lia.
    + rewrite B5. exact E2.
    + congruence.
    + congruence.
    + rewrite B3, A5. exact W4.
    + exact A12.
    + congruence.
    + rewrite B12, A11. apply Z.le_refl.
    + exists k. split; [congruence|]. split; [exact E3|]. split; [intros _ _ Y|intros (_ & _ & Y & _)]; rewrite Er in Y; lia.
  - constructor; unfold writing.
    + rewrite B4, A1. apply Z.le_refl.
    + rewrite B5. exact E2.
    + congruence.
    + congruence.
    + rewrite B3, A5. auto.
    + exact A12.
    + congruence.
    + rewrite B12, A11. apply Z.le_refl.
    + exists k. split; [congruence|]. split; [exact E3|]. split; [intros Y|intros (_ & Y & _)]; unfold writing in Y; rewrite Wr in Y; discriminate.
Qed.
Lemma data_shaped size pc v : framed (data_body size pc v).
Proof.
  unfold data_body. cbn [framed shaped]. split; [rewrite land_65535; apply Z.mod_pos_bound; lia|]. rewrite land_255, land_hi. destruct (1 <? size); cbn [length].
  - split; [lia|]. repeat constructor; apply Z.mod_pos_bound; lia.
  - split; [lia|]. repeat constructor; apply Z.mod_pos_bound; lia.
Qed.
Lemma data_addressed size pc v s : addressed pc (rev [entry (data_body size pc v) s]).
Proof. cbn [rev app addressed]. split; [|exact I]. cbn [entry l_body data_body place]. intros a [= <-]. apply land_65535. Qed.
Lemma value_lk size v s s' : In size [0; 1; 2] -> size <> 0 -> obs s' = wvalue size v (obs s) ->
  (if negb (high size v =? 0) && (size <? 2) then s_soft s' = 1 :: s_soft s /\ s_list s' = s_list s
   else s_soft s' = s_soft s /\ s_list s' = entry (data_body size (s_pc s) v) s :: s_list s) -> lkp size s s'.
Proof.
  intros Sz Nz O L. unfold wvalue in O. destruct (value_fits size v) eqn:Vf.
  - assert (Hh : negb (high size v =? 0) && (size <? 2) = false).
    { unfold high, value_fits in *. destruct Sz as [<-|[<-|[<-|[]]]]; [congruence| |apply andb_false_r].
      cbn [Z.eqb Pos.eqb] in *. rewrite andb_true_r. destruct (v <? 0) eqn:E; [reflexivity|]. rewrite land_hi.
      apply andb_true_iff in Vf as [_ Vf]. replace (v / 256) with 0 by lia. reflexivity. }
    rewrite Hh in L. destruct L as [L1 L2].
    apply (lk_writes [entry (data_body size (s_pc s) v) s] (value_bytes size v)); auto.
    2: { constructor; [apply entry_tagged, data_shaped|constructor]. }
    2: { unfold value_bytes. destruct Sz as [<-|[<-|[<-|[]]]]; [congruence|reflexivity|reflexivity]. }
    2: { apply data_addressed. }
    unfold listed, data_body, value_bytes. destruct Sz as [<-|[<-|[<-|[]]]]; [congruence| |]; cbn; rewrite land_255, ?land_hi, Z.mod_mod, ?Z.mod_mod by lia; reflexivity.
  - assert (O' : obs s' = (if s_opened s && s_org_spec s then set_errs (s_errs s + 1) (header (obs s)) else obs s)) by (rewrite O; obs_simp; reflexivity).
    destruct (negb _ && _); destruct L as [L1 L2].
    + apply (lk_bad []); auto. rewrite L1. cbn. lia.
    + apply (lk_bad [entry (data_body size (s_pc s) v) s]); auto; [rewrite L1; lia|constructor; [apply entry_tagged, data_shaped|constructor]].
Qed.
Lemma emit_value C u e v F s p size : (height e <= F)%nat -> tab s -> s_stop s = false -> rep C u s p e -> known C (s_pc s) e v ->
  s_dsz s = size -> In size [0; 1; 2] -> no_gap s ->
  exists s', list_and_output (expand F) p s = Ok tt s' /\ hvs size s s' /\ obs s' = wvalue size v (obs s) /\ s_dsz s' = size /\ rep C false s' p e.
Proof.
  intros HF T St R K D Sz G. unfold list_and_output.
  destruct (list_value C u e v F s p HF T St R K) as (s1 & E1 & H1 & O1 & D1 & R1 & Ll).
  destruct (rep_kind _ _ _ _ _ R1) as (x & N & Kk & Ks & _).
  unfold bind at 1. rewrite E1. unfold bind at 1.
  assert (L1 := obs_field s_opened _ _ O1 obs_get_opened). assert (L2 := obs_field s_org_spec _ _ O1 obs_get_org_spec).
  assert (L6 := obs_pc _ _ O1). assert (L7 := obs_stop _ _ O1).
  pose proof (no_gap_obs _ _ (eq_sym O1) G) as G1.
  destruct (s_opened s1 && s_org_spec s1) eqn:W.
  - rewrite generate_output_eq; [|exact W|apply G1; exact W].
    destruct (hdr_same s1) as (A1 & A2 & A3 & _ & _).
    pose proof (hv_hdr s1 (h_tab _ _ H1)) as H2. pose proof (rep_hv _ _ _ _ _ _ H2 R1) as R2.
    destruct (write_value C false e v F (hdr s1) p size HF (h_tab _ _ H2) ltac:(congruence) R2 ltac:(rewrite A2, L6; exact K)
      ltac:(unfold hdr; destruct (s_total s1 =? 0); [destruct (s_c64 s1)|]; unfold put; cbn; congruence) Sz) as (s3 & E3 & H3 & O3 & D3 & M1 & M2).
    unfold bind at 1, node_get at 1. unfold bind at 1, gets at 1. rewrite A1, N. unfold ret at 1.
    assert (Y : (match n_kind x with
      | KStr v => write_string_node v | KOp _ opc mode npc => write_opcode_node (expand F) x opc mode npc
      | _ => write_data_node (expand F) p end) (hdr s1) = Ok tt s3) by (destruct (n_kind x); try discriminate; exact E3).
    assert (Ob : obs s3 = wvalue size v (obs s)).
    { rewrite O3, obs_hdr, O1. unfold wvalue, writes. obs_simp. rewrite <- L1, <- L2, W.
      destruct (value_fits size v); [reflexivity|]. f_equal.
      replace (s_errs (hdr s1)) with (s_errs s1) by (unfold hdr; destruct (s_total s1 =? 0); [destruct (s_c64 s1)|]; reflexivity).
      rewrite (obs_errs _ _ O1). reflexivity. }
    unfold bind at 1. rewrite Y. unfold bind, gets, ret. eexists. split; [reflexivity|].
    split; [|split; [exact Ob|split; [exact D3|exact (rep_hv _ _ _ _ _ _ H3 R2)]]].
    split; [exact (hv0_trans _ _ _ H1 (hv0_trans _ _ _ H2 H3))|]. intros Nz. apply (value_lk size v s); auto.
    rewrite M1, M2, (proj1 (hdr_list s1)), (proj2 (hdr_list s1)), <- D. exact Ll.
  - unfold generate_output. unfold bind at 1, gets at 1. unfold bind at 1, gets at 1. rewrite <- negb_andb, W. cbn [negb]. unfold ret. unfold bind.
    assert (Ob : obs s1 = wvalue size v (obs s)).
    { unfold wvalue, writes. obs_simp. rewrite <- L1, <- L2, W. destruct (value_fits size v); exact O1. }
    eexists. split; [reflexivity|]. split; [|split; [exact Ob|split; [congruence|exact R1]]].
    split; [exact H1|]. intros Nz. apply (value_lk size v s); auto. rewrite <- D. exact Ll.
Qed.

(** ** One string *)
Lemma emit_list_put l : forall s, emit_list l s = Ok tt (put l s).
Proof.
  induction l as [|b l IH]; intros s; cbn [emit_list]; [rewrite put_nil; reflexivity|]. unfold bind. rewrite emit_put, IH, put_app. reflexivity.
Qed.
Lemma write_text t s : In (s_dsz s) [0; 1; 2] -> write_string_node t s = Ok tt (put (text_bytes (s_dsz s) t) s).
Proof.
  intros _. unfold write_string_node, text_bytes. unfold bind at 1. rewrite emit_list_put. unfold bind, gets, when.
  replace (s_dsz (put t s)) with (s_dsz s) by reflexivity. destruct (_ && _).
  - rewrite emit_put, put_app. reflexivity.
  - rewrite app_nil_r. reflexivity.
Qed.
Lemma list_text fuel : forall pc t prev pad s, tab s -> exists s', list_groups fuel pc t prev pad s = Ok tt s' /\ hv0 s s' /\ obs s' = obs s /\ s_dsz s' = s_dsz s /\
  s_nodes s' = s_nodes s /\ s_soft s' = s_soft s /\
  ((length t < fuel)%nat -> (t = [] -> pad = true -> prev <> None) -> exists k, s_list s' = k ++ s_list s /\
     listed k = map (fun b => b mod 256) (t ++ (if pad then [0] else [])) /\ Forall (tagged (ltag s)) k /\ addressed pc (rev k)).
Proof.
  induction fuel as [|f IH]; intros pc t prev pad s T; cbn [list_groups].
  - exists s. split; [reflexivity|]. split; [apply hv_refl, T|]. repeat split; auto. intros X. lia.
  - assert (A : forall b, exists s', add_list false b s = Ok tt s' /\ hv0 s s' /\ obs s' = obs s /\ s_dsz s' = s_dsz s /\ s_nodes s' = s_nodes s /\
      s_soft s' = s_soft s /\ s_list s' = entry b s :: s_list s).
    { intros b. unfold add_list, modify. eexists. split; [reflexivity|]. split; [apply hv_list, T|]. split; [apply obs_set_list|auto]. }
    assert (A' : forall b l, body_bytes b = map (fun b => b mod 256) l -> framed b -> (forall a, place b = Some a -> a = pc mod 65536) ->
      exists s', add_list false b s = Ok tt s' /\ hv0 s s' /\ obs s' = obs s /\ s_dsz s' = s_dsz s /\ s_nodes s' = s_nodes s /\
      s_soft s' = s_soft s /\ forall P Q : Prop, P -> Q -> exists k, s_list s' = k ++ s_list s /\ listed k = map (fun b => b mod 256) l /\ Forall (tagged (ltag s)) k /\ addressed pc (rev k)).
    { intros b l E Sh Pl. destruct (A b) as (s' & X1 & X2 & X3 & X4 & X5 & X6 & X7). exists s'. repeat (split; [assumption|]). intros _ _ _ _.
      exists [entry b s]. split; [exact X7|]. split; [unfold listed; cbn; rewrite app_nil_r; exact E|]. split; [constructor; [apply entry_tagged, Sh|constructor]|]. cbn [rev app addressed]. split; [exact Pl|exact I]. }
    assert (Z : pad = false \/ prev = None -> exists s', ret tt s = Ok tt s' /\ hv0 s s' /\ obs s' = obs s /\ s_dsz s' = s_dsz s /\ s_nodes s' = s_nodes s /\
      s_soft s' = s_soft s /\ ((0 < S f)%nat -> ([] = @nil Z -> pad = true -> prev <> None) -> exists k, s_list s' = k ++ s_list s /\
        listed k = map (fun b => b mod 256) ([] ++ (if pad then [0] else [])) /\ Forall (tagged (ltag s)) k /\ addressed pc (rev k))).
    { intros Hp. exists s. split; [reflexivity|]. split; [apply hv_refl, T|]. repeat (split; [reflexivity|]). intros _ Np. exists []. split; [reflexivity|].
      destruct pad; [|split; [reflexivity|split; [constructor|exact I]]]. destruct Hp as [Hp|Hp]; [discriminate|]. destruct (Np eq_refl eq_refl Hp). }
    assert (Rg : 0 <= Z.land pc 65535 < 65536) by (rewrite land_65535; apply Z.mod_pos_bound; lia).
    destruct t as [|a [|b [|c t]]].
    { destruct pad; [|apply Z; auto]. destruct prev as [[pc' g]|]; [|apply Z; auto].
      destruct (A' (LPad pc' g) [0] eq_refl I ltac:(discriminate)) as (s' & X1 & X2 & X3 & X4 & X5 & X6 & X7). exists s'. repeat (split; [assumption|]). intros. apply (X7 True True I I). }
    { destruct (A' (LTail (Z.land pc 65535) [a] pad) ([a] ++ (if pad then [0] else [])) eq_refl ltac:(split; [exact Rg|cbn; lia]) ltac:(intros x [= <-]; apply land_65535)) as (s' & X1 & X2 & X3 & X4 & X5 & X6 & X7).
      exists s'. repeat (split; [assumption|]). intros. apply (X7 True True I I). }
    { destruct (A' (LTail (Z.land pc 65535) [a; b] pad) ([a; b] ++ (if pad then [0] else [])) eq_refl ltac:(split; [exact Rg|cbn; lia]) ltac:(intros x [= <-]; apply land_65535)) as (s' & X1 & X2 & X3 & X4 & X5 & X6 & X7).
      exists s'. repeat (split; [assumption|]). intros. apply (X7 True True I I). }
    destruct (A (LStr (Z.land pc 65535) [a; b; c])) as (s1 & E1 & H1 & O1 & D1 & N1 & S1 & L1).
    destruct (IH (pc + 3) t (Some (Z.land pc 65535, [a; b; c])) pad s1 (h_tab _ _ H1)) as (s2 & E2 & H2 & O2 & D2 & N2 & S2 & L2).
    exists s2. unfold bind. rewrite E1. split; [exact E2|]. split; [exact (hv0_trans _ _ _ H1 H2)|].
    split; [congruence|]. split; [congruence|]. split; [congruence|]. split; [congruence|]. cbn [length]. intros Lf _.
    destruct (L2 ltac:(lia) ltac:(intros _ _; discriminate)) as (k & K1 & K2 & K3 & K4). exists (k ++ [entry (LStr (Z.land pc 65535) [a; b; c]) s]).
    split; [rewrite K1, L1, <- app_assoc; reflexivity|]. split; [rewrite listed_app, K2; reflexivity|]. split.
    + apply Forall_app. split; [|constructor; [apply entry_tagged; split; [exact Rg|cbn; lia]|constructor]].
      assert (A7 := obs_field ltag _ _ O1 (fun _ => eq_refl)). rewrite A7 in K3. exact K3.
    + rewrite rev_app_distr. cbn [rev app addressed]. split; [cbn; intros x [= <-]; apply land_65535|exact K4].
Qed.
Lemma emit_text F s p t : tab s -> nth_error (s_nodes s) p = Some (mkNode (KStr t) []) -> In (s_dsz s) [0; 1; 2] -> no_gap s ->
  exists s', list_and_output (expand F) p s = Ok tt s' /\ hvp (Z.of_nat (length (text_bytes (s_dsz s) t))) s s' /\ obs s' = writes (text_bytes (s_dsz s) t) (obs s) /\ s_dsz s' = s_dsz s /\
    nth_error (s_nodes s') p = Some (mkNode (KStr t) []).
Proof.
  intros T N Sz G. unfold list_and_output, generate_list_node, node_get, gets. unfold bind at 1, bind at 1, bind at 1. rewrite N. unfold ret at 1.
  unfold bind at 1. cbn [n_kind]. unfold bind at 1.
  destruct (list_text (S (length t)) (s_pc s) t None ((s_dsz s =? 2) && (Z.of_nat (length t) mod 2 =? 1)) s T) as (s1 & E1 & H1 & O1 & D1 & N1 & S1 & L).
  destruct L as (k & K1 & K2 & K3 & K4); [lia|intros ->; rewrite andb_false_r; discriminate|].
  assert (Lk : forall s3, s_list s3 = s_list s1 -> s_soft s3 = s_soft s1 -> obs s3 = writes (text_bytes (s_dsz s) t) (obs s) -> lkp (Z.of_nat (length (text_bytes (s_dsz s) t))) s s3).
  { intros s3 A1 A2 A3. apply (lk_writes k (text_bytes (s_dsz s) t)); auto; congruence. }
  rewrite E1. unfold bind at 1.
  assert (L1 := obs_field s_opened _ _ O1 obs_get_opened). assert (L2 := obs_field s_org_spec _ _ O1 obs_get_org_spec).
  pose proof (no_gap_obs _ _ (eq_sym O1) G) as G1.
  destruct (s_opened s1 && s_org_spec s1) eqn:W.
  - rewrite generate_output_eq; [|exact W|apply G1; exact W].
    destruct (hdr_same s1) as (A1 & A2 & A3 & _ & _).
    pose proof (hv_hdr s1 (h_tab _ _ H1)) as H2.
    assert (Dh : s_dsz (hdr s1) = s_dsz s) by (unfold hdr; destruct (s_total s1 =? 0); [destruct (s_c64 s1)|]; unfold put; cbn; congruence).
    unfold bind at 1, node_get at 1. unfold bind at 1, gets at 1. rewrite A1, N1, N. unfold ret at 1. cbn [n_kind].
    unfold bind at 1. rewrite write_text by (rewrite Dh; exact Sz). unfold bind, gets, ret. eexists. split; [reflexivity|].
    match goal with |- hvp _ _ ?x /\ _ => assert (Ob : obs x = writes (text_bytes (s_dsz s) t) (obs s)) end.
    { rewrite obs_put, obs_hdr, O1, Dh. unfold writes. obs_simp. rewrite <- L1, <- L2, W. reflexivity. }
    split; [split|].
    { exact (hv0_trans _ _ _ H1 (hv0_trans _ _ _ H2 (hv_put _ _ (h_tab _ _ H2)))). }
    { apply Lk; [apply hdr_list|apply hdr_list|exact Ob]. }
    split; [exact Ob|split; [exact Dh|unfold put; cbn; congruence]].
  - unfold generate_output. unfold bind at 1, gets at 1. unfold bind at 1, gets at 1. rewrite <- negb_andb, W. cbn [negb]. unfold ret. unfold bind.
    assert (Ob : obs s1 = writes (text_bytes (s_dsz s) t) (obs s)) by (unfold writes; obs_simp; rewrite <- L1, <- L2, W; exact O1).
    eexists. split; [reflexivity|]. split; [split; [exact H1|apply Lk; auto]|]. split; [exact Ob|split; [congruence|congruence]].
Qed.

(** ** One item of a list *)
(** the text of a string literal without bad escapes *)
Definition literal (raw : cstr) : cstr :=
  match raw with c :: r => if (c =? 39) || (c =? 34) then removelast r else raw | [] => raw end.
Definition text_of (raw : cstr) : option cstr :=
  match sanitize_string (literal raw) with SOk out O => Some (until_nul out) | _ => None end.

Definition irep (C : cstr -> core_t) (u : bool) (s : state) (q : nat) (i : item) : Prop :=
  match i with
  | IExpr e => rep C u s q e
  | IStr raw => exists t, text_of raw = Some t /\ nth_error (s_nodes s) q = Some (mkNode (KStr t) [])
  end.
Lemma str_hv s s' q t : hv0 s s' -> nth_error (s_nodes s) q = Some (mkNode (KStr t) []) -> nth_error (s_nodes s') q = Some (mkNode (KStr t) []).
Proof.
  intros H N. destruct (h_node _ _ H _ _ N) as (x' & X1 & X2). inversion X2 as [x0 x0' X| |]; subst. inversion X; subst; exact X1.
Qed.
Lemma irep_hv C u s s' q i : hv0 s s' -> irep C u s q i -> irep C u s' q i.
Proof. intros H. destruct i as [e|raw]; cbn [irep]; [apply rep_hv, H|]. intros (t & T & N). exists t. split; [exact T|]. eapply str_hv; eauto. Qed.

(** the effect of one item at the present program counter *)
Definition step_value (C : cstr -> core_t) (size : Z) (e : expr) (v : Z) (s : state) : state :=
  let s1 := if s_final s && ((size =? 0) || negb (inner C e)) then wvalue size v s else s in set_pc (s_pc s + value_step size v) s1.
Definition step_text (size : Z) (t : cstr) (s : state) : state :=
  let s1 := if s_final s then writes (text_bytes size t) s else s in set_pc (s_pc s + Z.of_nat (length (text_bytes size t))) s1.
Definition dety (size : Z) : etype := if size =? 0 then EtStrings else EtBytes.

Lemma step_one (ex : nat -> M Z) q l sp x s : nth_error (s_nodes s) q = Some x -> n_kind x <> KOpr OExprList ->
  expr_list ex (q :: l) sp s =
    (_ <- expand_all ex (n_ops x) 0 ;;
          et <- gets s_ety ;;
          xp <- node_get q ;;
          r <- match et with
               | EtSymbol => elem_symbol ex q xp sp
               | EtMacro => elem_macro ex q xp
               | EtBytes => b <- elem_bytes ex q xp ;; ret (b, sp)
               | EtStrings => b <- elem_strings ex q xp ;; ret (b, sp)
               | EtPrint => b <- elem_print ex q xp false ;; ret (b, sp)
               | EtPrintAll => b <- elem_print ex q xp true ;; ret (b, sp)
               end ;;
          let '(go, sp') := r in
          if go then expr_list ex l sp' else ret 0) s.
Proof.
  intros N K. cbn [expr_list]. unfold bind at 1, node_get, gets. unfold bind at 1. rewrite N. unfold ret at 1.
  destruct (n_kind x) as [| | | | | | | |o|]; try reflexivity. destruct o; try reflexivity. contradiction.
Qed.

Lemma hv_pc v s : tab s -> hv0 s (set_pc v s).
Proof. intros T. apply hv0_frame; auto. Qed.
Lemma wvalue_same size v s : s_pc (wvalue size v s) = s_pc s /\ s_stop (wvalue size v s) = s_stop s.
Proof.
  unfold wvalue. destruct (value_fits size v).
  - destruct (writes_same (value_bytes size v) s) as (A & _). destruct (writes_more (value_bytes size v) s) as (_ & _ & _ & _ & _ & B & _). auto.
  - destruct (s_opened s && s_org_spec s); [|auto]. cbn. unfold header. destruct (_ && _); auto.
Qed.
Lemma okind C u s q e x : rep C u s q e -> nth_error (s_nodes s) q = Some x ->
  is_kind_con_id_lab_opr (n_kind x) = true /\ (forall t, n_kind x <> KStr t) /\ n_kind x <> KOpr OExprList.
Proof.
  intros R N. destruct (rep_kind _ _ _ _ _ R) as (x' & N' & A & B & D). rewrite N in N'. injection N' as <-.
  split; [exact A|]. split; [|exact D]. intros t E. rewrite E in B. discriminate.
Qed.

Lemma item_value C u e v F s q l sp size : (height e <= F)%nat -> tab s -> s_stop s = false -> rep C u s q e -> known C (s_pc s) e v ->
  s_ety s = dety size -> s_dsz s = size -> In size [0; 1; 2] -> (s_final s = true -> no_gap s) ->
  exists s', expr_list (expand F) (q :: l) sp s = expr_list (expand F) l sp s' /\ hv0 s s' /\ obs s' = step_value C size e v (obs s) /\
    s_dsz s' = size.
Proof.
  intros HF T St R K Et D Sz G.
  destruct (rep_kind _ _ _ _ _ R) as (x & N & Kk & Ks & Kx).
  rewrite (step_one _ _ _ _ _ _ N Kx).
  destruct (eval_ops C u e v F s q x HF T St R K N) as (w & s1 & E1 & H1 & O1 & R1 & P1 & D1 & U1 & N1).
  unfold bind at 1. rewrite E1. unfold bind at 1, gets at 1.
  assert (Et1 : s_ety s1 = dety size) by (rewrite <- Et; apply (obs_field s_ety _ _ O1 obs_get_ety)).
  rewrite Et1. unfold bind at 1, node_get, gets at 1. unfold bind at 1. rewrite N1. unfold ret at 1.
  assert (F1 : s_final s1 = s_final s) by apply (obs_field s_final _ _ O1 obs_get_final).
  assert (Pc1 := obs_pc _ _ O1). assert (St1 := obs_stop _ _ O1). rewrite St in St1.
  assert (G1 : s_final s = true -> no_gap s1) by (intros X; exact (no_gap_obs _ _ (eq_sym O1) (G X))).
  assert (K1 : known C (s_pc s1) e v) by (rewrite Pc1; exact K).
  assert (Nk : forall A (a : cstr -> A) (b : A), (match n_kind x with KStr v => a v | _ => b end) = b) by (intros; destruct (n_kind x); try reflexivity; discriminate).
  unfold dety in *. destruct (size =? 0) eqn:Z0.
  - (* .STR *)
    apply Z.eqb_eq in Z0. unfold bind at 1. unfold bind at 1. unfold elem_strings. rewrite Kk. cbn [orb negb].
    unfold bind at 1, gets at 1. rewrite F1.
    assert (A : exists s2, when (s_final s) (list_and_output (expand F) q) s1 = Ok tt s2 /\ hv0 s1 s2 /\
      obs s2 = (if s_final s then wvalue size v (obs s) else obs s) /\ s_dsz s2 = size /\ exists u', rep C u' s2 q e).
    { destruct (s_final s) eqn:Fi; unfold when, ret.
      - destruct (emit_value C u e v F s1 q size HF (h_tab _ _ H1) St1 R1 K1 ltac:(congruence) Sz (G1 eq_refl)) as (s2 & E2 & H2 & O2 & D2 & R2).
        exists s2. split; [exact E2|]. split; [exact H2|]. split; [rewrite O2, O1; reflexivity|]. split; [exact D2|]. eauto.
      - exists s1. split; [reflexivity|]. split; [apply hv_refl, (h_tab _ _ H1)|]. split; [exact O1|]. split; [congruence|eauto]. }
    destruct A as (s2 & E2 & H2 & O2 & D2 & u' & R2). unfold bind at 1. rewrite E2. rewrite Nk.
    assert (Pc2 : s_pc s2 = s_pc s /\ s_stop s2 = false).
    { rewrite <- (obs_get_pc s2), <- (obs_get_stop s2), O2. destruct (s_final s); [destruct (wvalue_same size v (obs s)) as [X Y]; rewrite X, Y|]; obs_simp; auto. }
    destruct Pc2 as [Pc2 St2].
    destruct (eval_known C u' e v F s2 q HF (h_tab _ _ H2) St2 R2 ltac:(rewrite Pc2; exact K)) as (s3 & E3 & H3 & O3 & R3 & P3 & D3).
    unfold bind at 1. unfold bind at 1. rewrite E3. unfold modify, ret. eexists. split; [reflexivity|].
    pose proof (hv0_trans _ _ _ H1 (hv0_trans _ _ _ H2 H3)) as H.
    split; [exact (hv0_trans _ _ _ H (hv_pc _ _ (h_tab _ _ H3)))|]. split; [|cbn; congruence].
    rewrite obs_set_pc, O3, O2, (obs_pc _ _ O3), Pc2. unfold step_value. obs_simp.
    subst size. rewrite land_hi. unfold value_step. change (0 =? 0) with true. cbn [orb]. rewrite andb_true_r. reflexivity.
  - (* .BYTE, .WORD *)
    unfold bind at 1. unfold bind at 1. unfold elem_bytes. unfold bind at 1. rewrite U1. unfold bind at 1, gets at 1. rewrite F1, Kk. cbn [orb negb].
    rewrite andb_false_r.
    assert (A : exists s2, when (negb (inner C e) && s_final s) (list_and_output (expand F) q) s1 = Ok tt s2 /\ hv0 s1 s2 /\
      obs s2 = (if s_final s && negb (inner C e) then wvalue size v (obs s) else obs s) /\ s_dsz s2 = size).
    { rewrite (andb_comm (s_final s)). destruct (negb (inner C e) && s_final s) eqn:Fi; unfold when, ret.
      - apply andb_prop in Fi.
        destruct (emit_value C u e v F s1 q size HF (h_tab _ _ H1) St1 R1 K1 ltac:(congruence) Sz (G1 (proj2 Fi))) as (s2 & E2 & H2 & O2 & D2 & R2).
        exists s2. split; [exact E2|]. split; [exact H2|]. split; [rewrite O2, O1; reflexivity|]. exact D2.
      - exists s1. split; [reflexivity|]. split; [apply hv_refl, (h_tab _ _ H1)|]. split; [exact O1|]. congruence. }
    destruct A as (s2 & E2 & H2 & O2 & D2). unfold bind at 1. rewrite E2. unfold bind at 1, gets at 1. rewrite Nk. rewrite D2.
    unfold bind at 1. unfold modify, ret. eexists. split; [reflexivity|].
    pose proof (hv0_trans _ _ _ H1 H2) as H.
    split; [exact (hv0_trans _ _ _ H (hv_pc _ _ (h_tab _ _ H2)))|]. split; [|cbn; congruence].
    assert (Pc2 : s_pc s2 = s_pc s).
    { rewrite <- (obs_get_pc s2), O2. destruct (s_final s && negb (inner C e)); [destruct (wvalue_same size v (obs s)) as [X Y]; rewrite X|]; obs_simp; auto. }
    rewrite obs_set_pc, O2, Pc2. unfold step_value, value_step. obs_simp. rewrite Z0. cbn [orb]. reflexivity.
Qed.

Lemma item_text t F s q l sp size : tab s -> s_stop s = false -> nth_error (s_nodes s) q = Some (mkNode (KStr t) []) ->
  s_ety s = dety size -> s_dsz s = size -> In size [0; 1; 2] -> (s_final s = true -> no_gap s) ->
  exists s', expr_list (expand F) (q :: l) sp s = expr_list (expand F) l sp s' /\ hv s s' /\ obs s' = step_text size t (obs s) /\
    s_dsz s' = size.
Proof.
  intros T St N Et D Sz G.
  rewrite (step_one _ _ _ _ _ _ N ltac:(discriminate)). cbn [n_ops expand_all]. unfold ret at 1. unfold bind at 1.
  unfold bind at 1, gets at 1. rewrite Et. unfold bind at 1, node_get, gets at 1. unfold bind at 1. rewrite N. unfold ret at 1. cbn [n_kind].
  assert (A : exists s2, when (s_final s) (list_and_output (expand F) q) s = Ok tt s2 /\ hvp (Z.of_nat (length (text_bytes size t))) s s2 /\
      obs s2 = (if s_final s then writes (text_bytes size t) (obs s) else obs s) /\ s_dsz s2 = size).
  { destruct (s_final s) eqn:Fi; unfold when, ret.
    - destruct (emit_text F s q t T N ltac:(congruence) (G eq_refl)) as (s2 & E2 & H2 & O2 & D2 & N2). rewrite D in *.
      exists s2. auto.
    - exists s. split; [reflexivity|]. split; [apply hvp_idle; auto|]. auto. }
  destruct A as (s2 & E2 & H2 & O2 & D2).
  assert (Pc2 : s_pc s2 = s_pc s).
  { rewrite <- (obs_get_pc s2), O2. destruct (s_final s); [destruct (writes_same (text_bytes size t) (obs s)) as [X _]; rewrite X|]; obs_simp; auto. }
  assert (Len : Z.of_nat (length (text_bytes size t)) = if (Z.of_nat (length t) mod 2 =? 1) && (size =? 2) then Z.of_nat (length t) + 1 else Z.of_nat (length t)).
  { unfold text_bytes. rewrite app_length, Nat2Z.inj_add, andb_comm. destruct (_ && _); cbn [length]; lia. }
  unfold dety in *. destruct (size =? 0) eqn:Z0.
  - unfold bind at 1. unfold bind at 1. unfold elem_strings. cbn [n_kind is_kind_con_id_lab_opr is_str orb negb].
    unfold bind at 1, gets at 1. unfold bind at 1. rewrite E2. unfold bind at 1, modify, ret. eexists. split; [reflexivity|].
    split; [eapply hvp_move; [exact H2|try reflexivity..]; cbn [s_pc set_pc]; rewrite Len; f_equal; try (apply Z.eqb_eq in Z0; subst size; change (0 =? 2) with false; rewrite andb_false_r); reflexivity|]. split; [|cbn; congruence].
    rewrite obs_set_pc, O2, Pc2. unfold step_text. obs_simp. apply Z.eqb_eq in Z0. subst size. rewrite Len. change (0 =? 2) with false. rewrite andb_false_r. reflexivity.
  - unfold bind at 1. unfold bind at 1. unfold elem_bytes. unfold bind at 1.
    unfold has_uninitialized at 1. unfold bind at 1, gets at 1. rewrite (has_uninit_eq _ _ _ _ N). cbn [n_ops any_un]. unfold ret at 1.
    unfold bind at 1, gets at 1. cbn [n_kind is_kind_con_id_lab_opr is_str orb negb andb]. rewrite andb_false_r.
    unfold bind at 1. rewrite E2. unfold bind at 1, gets at 1. rewrite D2. unfold bind at 1, modify, ret.
    eexists. split; [reflexivity|].
    split; [eapply hvp_move; [exact H2|try reflexivity..]; cbn [s_pc set_pc]; rewrite Len; f_equal; try (apply Z.eqb_eq in Z0; subst size; change (0 =? 2) with false; rewrite andb_false_r); reflexivity|]. split; [|cbn; congruence].
    rewrite obs_set_pc, O2, Pc2. unfold step_text. obs_simp. rewrite Len. reflexivity.
Qed.

(** ** Lists of items *)
Inductive lrep (C : cstr -> core_t) (s : state) : nat -> list item -> Prop :=
| LrepOne p q i : nth_error (s_nodes s) p = Some (mkNode (KOpr OExprList) [q]) -> irep C true s q i -> lrep C s p [i]
| LrepMore p a q l i : nth_error (s_nodes s) p = Some (mkNode (KOpr OExprList) [a; q]) -> lrep C s a l -> irep C true s q i ->
    lrep C s p (l ++ [i]).
Lemma opr_hv s s' p o l : hv0 s s' -> nth_error (s_nodes s) p = Some (mkNode (KOpr o) l) -> nth_error (s_nodes s') p = Some (mkNode (KOpr o) l).
Proof. intros H N. destruct (h_node _ _ H _ _ N) as (x' & X1 & X2). inversion X2 as [x0 x0' X| |]; subst. inversion X; subst; exact X1. Qed.
Lemma lrep_hv C s s' p l : hv0 s s' -> lrep C s p l -> lrep C s' p l.
Proof.
  intros H R. induction R as [p q i N I|p a q l i N R IH I].
  - eapply LrepOne; [eapply opr_hv; eauto|eapply irep_hv; eauto].
  - eapply LrepMore; [eapply opr_hv; eauto|exact IH|eapply irep_hv; eauto].
Qed.

(** the value of an item at [pc]: None when it has none *)
Definition item_value_at (env : cstr -> Z) (pc : Z) (e : expr) : option Z :=
  match sem env pc e with Some (v, 0) => Some v | _ => None end.
(** the number of bytes an item counts for *)
Definition item_size (env : cstr -> Z) (size pc : Z) (i : item) : option Z :=
  match i with
  | IExpr e => match item_value_at env pc e with Some v => Some (value_step size v) | None => None end
  | IStr raw => match text_of raw with Some t => Some (Z.of_nat (length (text_bytes size t))) | None => None end
  end.
(** the bytes of an item; None when its value is out of range *)
Definition item_bytes (env : cstr -> Z) (size pc : Z) (i : item) : option (list Z) :=
  match i with
  | IExpr e => match item_value_at env pc e with Some v => if value_fits size v then Some (value_bytes size v) else None | None => None end
  | IStr raw => match text_of raw with Some t => Some (text_bytes size t) | None => None end
  end.
Fixpoint items_size (env : cstr -> Z) (size pc : Z) (l : list item) : option Z :=
  match l with
  | [] => Some 0
  | i :: l => match item_size env size pc i with
              | Some n => match items_size env size (pc + n) l with Some m => Some (n + m) | None => None end
              | None => None
              end
  end.
Fixpoint items_bytes (env : cstr -> Z) (size pc : Z) (l : list item) : option (list Z) :=
  match l with
  | [] => Some []
  | i :: l => match item_size env size pc i, item_bytes env size pc i with
              | Some n, Some b => match items_bytes env size (pc + n) l with Some r => Some (b ++ r) | None => None end
              | _, _ => None
              end
  end.
Lemma items_size_snoc env size l i : forall pc, items_size env size pc (l ++ [i]) =
  match items_size env size pc l with
  | Some n => match item_size env size (pc + n) i with Some m => Some (n + m) | None => None end
  | None => None
  end.
Proof.
  induction l as [|j l IH]; intros pc; cbn [items_size app].
  - rewrite Z.add_0_r. destruct (item_size env size pc i); [f_equal; lia|reflexivity].
  - destruct (item_size env size pc j) as [n|]; [|reflexivity]. rewrite IH.
    destruct (items_size env size (pc + n) l) as [m|]; [|reflexivity]. rewrite Z.add_assoc. destruct (item_size env size (pc + n + m) i); [f_equal; lia|reflexivity].
Qed.
Lemma items_bytes_snoc env size l i : forall pc n, items_size env size pc l = Some n -> items_bytes env size pc (l ++ [i]) =
  match items_bytes env size pc l, item_size env size (pc + n) i, item_bytes env size (pc + n) i with
  | Some b, Some _, Some c => Some (b ++ c)
  | _, _, _ => None
  end.
Proof.
  induction l as [|j l IH]; intros pc n; cbn [items_size items_bytes app].
  - intros [= <-]. rewrite Z.add_0_r. destruct (item_size env size pc i), (item_bytes env size pc i); try reflexivity. rewrite app_nil_r. reflexivity.
  - destruct (item_size env size pc j) as [k|]; [|discriminate]. 
    destruct (items_size env size (pc + k) l) as [m|] eqn:E; [|discriminate]. intros [= <-].
    destruct (item_bytes env size pc j) as [b|]; [|reflexivity].
    rewrite (IH _ _ E), Z.add_assoc. destruct (items_bytes env size (pc + k) l); [|reflexivity].
    destruct (item_size env size (pc + k + m) i), (item_bytes env size (pc + k + m) i); try reflexivity. rewrite app_assoc. reflexivity.
Qed.
Lemma item_value_known C pc e v : eager e = true -> item_value_at (fun n => cval (C n)) pc e = Some v -> known C pc e v.
Proof.
  unfold item_value_at. intros E H. split; [|exact E]. destruct (sem _ pc e) as [[w k]|]; [|discriminate]. destruct k; try discriminate. congruence.
Qed.
Definition item_eager (i : item) : bool := match i with IExpr e => eager e | IStr _ => true end.
Definition item_height (i : item) : nat := match i with IExpr e => height e | IStr _ => 1%nat end.
Definition item_names (i : item) : list cstr := match i with IExpr e => names e | IStr _ => [] end.
(** a name alone is used as it is, without a value as 0 *)
Definition item_unknown (C : cstr -> core_t) (i : item) : bool := match i with IExpr e => inner C e | IStr _ => false end.
Lemma inner_unknown C e : item_unknown C (IExpr e) = false -> inner C e = false.
Proof. exact (fun H => H). Qed.

(** an item: analysis *)
Lemma item_analysis C F s q i l sp size n : (item_height i <= F)%nat -> tab s -> s_stop s = false -> irep C true s q i -> item_eager i = true ->
  s_ety s = dety size -> s_dsz s = size -> In size [0; 1; 2] -> s_final s = false -> item_size (fun n => cval (C n)) size (s_pc s) i = Some n ->
  exists s', expr_list (expand F) (q :: l) sp s = expr_list (expand F) l sp s' /\ hv0 s s' /\ obs s' = set_pc (s_pc s + n) (obs s) /\ s_dsz s' = size.
Proof.
  intros HF T St R Ea Et D Sz Fi Si. destruct i as [e|raw]; cbn [irep item_size item_eager item_height] in *.
  - destruct (item_value_at _ _ e) as [v|] eqn:V; [|discriminate]. injection Si as <-.
    pose proof (item_value_known _ _ _ _ Ea V) as K.
    destruct (item_value C true e v F s q l sp size HF T St R K Et D Sz ltac:(congruence)) as (s' & E & H & O & D').
    exists s'. split; [exact E|]. split; [exact H|]. split; [|exact D']. rewrite O. unfold step_value. obs_simp. rewrite Fi. reflexivity.
  - destruct R as (t & Tx & N). rewrite Tx in Si. injection Si as <-.
    destruct (item_text t F s q l sp size T St N Et D Sz ltac:(congruence)) as (s' & E & H & O & D').
    exists s'. split; [exact E|]. split; [exact H|]. split; [|exact D']. rewrite O. unfold step_text. obs_simp. rewrite Fi. reflexivity.
Qed.
(** an item: output *)
Lemma item_final C F s q i l sp size n b : (item_height i <= F)%nat -> tab s -> s_stop s = false -> irep C true s q i -> item_eager i = true ->
  item_unknown C i = false ->
  s_ety s = dety size -> s_dsz s = size -> In size [0; 1; 2] -> s_final s = true -> no_gap s ->
  item_size (fun n => cval (C n)) size (s_pc s) i = Some n -> item_bytes (fun n => cval (C n)) size (s_pc s) i = Some b ->
  exists s', expr_list (expand F) (q :: l) sp s = expr_list (expand F) l sp s' /\ hv0 s s' /\
    obs s' = set_pc (s_pc s + n) (writes b (obs s)) /\ s_dsz s' = size.
Proof.
  intros HF T St R Ea Un Et D Sz Fi G Si By. destruct i as [e|raw]; cbn [irep item_size item_bytes item_eager item_height] in *.
  - destruct (item_value_at _ _ e) as [v|] eqn:V; [|discriminate]. injection Si as <-.
    destruct (value_fits size v) eqn:Vf; [|discriminate]. injection By as <-.
    pose proof (item_value_known _ _ _ _ Ea V) as K.
    destruct (item_value C true e v F s q l sp size HF T St R K Et D Sz ltac:(auto)) as (s' & E & H & O & D').
    exists s'. split; [exact E|]. split; [exact H|]. split; [|exact D']. rewrite O. unfold step_value, wvalue. obs_simp.
    rewrite Fi, (inner_unknown _ _ Un), orb_true_r, Vf. reflexivity.
  - destruct R as (t & Tx & N). rewrite Tx in Si, By. injection Si as <-. injection By as <-.
    destruct (item_text t F s q l sp size T St N Et D Sz ltac:(auto)) as (s' & E & H & O & D').
    exists s'. split; [exact E|]. split; [exact H|]. split; [|exact D']. rewrite O. unfold step_text. obs_simp. rewrite Fi. reflexivity.
Qed.
(** an item out of range is reported *)
Lemma item_bad C F s q i l sp size n : (item_height i <= F)%nat -> tab s -> s_stop s = false -> irep C true s q i -> item_eager i = true ->
  item_unknown C i = false ->
  s_ety s = dety size -> s_dsz s = size -> In size [0; 1; 2] -> s_final s = true -> no_gap s -> s_opened s && s_org_spec s = true ->
  item_size (fun n => cval (C n)) size (s_pc s) i = Some n -> item_bytes (fun n => cval (C n)) size (s_pc s) i = None ->
  exists s', expr_list (expand F) (q :: l) sp s = expr_list (expand F) l sp s' /\ s_errs s' = s_errs s + 1.
Proof.
  intros HF T St R Ea Un Et D Sz Fi G W Si By. destruct i as [e|raw]; cbn [irep item_size item_bytes item_eager item_height] in *.
  - destruct (item_value_at _ _ e) as [v|] eqn:V; [|discriminate]. injection Si as <-.
    destruct (value_fits size v) eqn:Vf; [discriminate|].
    pose proof (item_value_known _ _ _ _ Ea V) as K.
    destruct (item_value C true e v F s q l sp size HF T St R K Et D Sz ltac:(auto)) as (s' & E & H & O & D').
    exists s'. split; [exact E|]. rewrite <- (obs_get_errs s'), O. unfold step_value, wvalue. obs_simp.
    rewrite Fi, (inner_unknown _ _ Un), orb_true_r, Vf, W. reflexivity.
  - destruct (text_of raw); discriminate.
Qed.

(** written bytes and steps agree for lists *)
Lemma value_step_le size v : In size [0; 1; 2] -> value_fits size v = true -> 0 <= value_step size v <= Z.of_nat (length (value_bytes size v)).
Proof.
  intros Sz _. unfold value_step, value_bytes.
  destruct Sz as [<-|[<-|[<-|[]]]]; cbn [Z.eqb Pos.eqb andb length]; try lia.
  destruct ((0 <=? v) && (v <=? 255)) eqn:B; cbn [length].
  - destruct (v / 256 mod 256 =? 0) eqn:E; lia.
  - destruct (v / 256 mod 256 =? 0); lia.
Qed.
Lemma item_step_le env size pc i n b : In size [0; 1; 2] -> item_size env size pc i = Some n -> item_bytes env size pc i = Some b ->
  0 <= n <= Z.of_nat (length b).
Proof.
  intros Sz. destruct i as [e|raw]; cbn [item_size item_bytes].
  - destruct (item_value_at env pc e) as [v|]; [|discriminate]. destruct (value_fits size v) eqn:Vf; [|discriminate]. intros [= <-] [= <-]. apply value_step_le; auto.
  - destruct (text_of raw); [|discriminate]. intros [= <-] [= <-]. lia.
Qed.
Lemma writes_app a b s : 0 <= s_total s -> writes b (writes a s) = writes (a ++ b) s.
Proof.
  intros T. unfold writes at 1. destruct (writes_more a s) as (M1 & M2 & M3 & M4 & _ & _ & M7). rewrite M1, M2. unfold writes.
  destruct (s_opened s && s_org_spec s) eqn:W; [|reflexivity].
  assert (X : header (put a (header s)) = put a (header s)).
  { unfold header at 1. change (s_c64 (put a (header s))) with (s_c64 (header s)). destruct (header_more s) as (_ & _ & _ & H & _). rewrite H.
    destruct (s_c64 s) eqn:C6; [|rewrite andb_false_r; reflexivity].
    replace (s_total (put a (header s)) =? 0) with false; [reflexivity|]. symmetry. apply Z.eqb_neq.
    change (s_total (put a (header s))) with (s_total (header s) + Z.of_nat (length a)). unfold header. rewrite C6.
    destruct (s_total s =? 0) eqn:E; cbn [andb]; [unfold put; cbn; lia|]. lia. }
  rewrite X. apply put_app.
Qed.
Lemma header_total s : 0 <= s_total s -> 0 <= s_total (header s).
Proof. unfold header. destruct (_ && _); [unfold put; cbn; lia|auto]. Qed.
Lemma writes_total l s : 0 <= s_total s -> 0 <= s_total (writes l s).
Proof. intros T. unfold writes. destruct (_ && _); [|auto]. unfold put. cbn. pose proof (header_total s T). lia. Qed.
(** fields besides the program counter *)
Lemma pc_opened v z : s_opened (set_pc v z) = s_opened z. Proof. reflexivity. Qed.
Lemma pc_org_spec v z : s_org_spec (set_pc v z) = s_org_spec z. Proof. reflexivity. Qed.
Lemma pc_origin v z : s_origin (set_pc v z) = s_origin z. Proof. reflexivity. Qed.
Lemma pc_stop v z : s_stop (set_pc v z) = s_stop z. Proof. reflexivity. Qed.
Lemma pc_ety v z : s_ety (set_pc v z) = s_ety z. Proof. reflexivity. Qed.
Lemma pc_final v z : s_final (set_pc v z) = s_final z. Proof. reflexivity. Qed.
Lemma pc_errs v z : s_errs (set_pc v z) = s_errs z. Proof. reflexivity. Qed.
Lemma pc_total v z : s_total (set_pc v z) = s_total z. Proof. reflexivity. Qed.
Lemma pc_c64 v z : s_c64 (set_pc v z) = s_c64 z. Proof. reflexivity. Qed.
Lemma pc_c02 v z : s_c02 (set_pc v z) = s_c02 z. Proof. reflexivity. Qed.
Lemma pc_ill v z : s_ill (set_pc v z) = s_ill z. Proof. reflexivity. Qed.
Lemma pc_pc_assigned v z : s_pc_assigned (set_pc v z) = s_pc_assigned z. Proof. reflexivity. Qed.
Lemma set_pc_pc a b z : set_pc a (set_pc b z) = set_pc a z. Proof. reflexivity. Qed.
Lemma pc_pc v z : s_pc (set_pc v z) = v. Proof. reflexivity. Qed.
Lemma writes_ety l z : s_ety (writes l z) = s_ety z.
Proof. unfold writes. destruct (s_opened z && s_org_spec z); [|reflexivity]. unfold header. destruct ((s_total z =? 0) && s_c64 z); reflexivity. Qed.
Lemma set_pc_writes w b v z : set_pc w (writes b (set_pc v z)) = set_pc w (writes b z).
Proof. unfold writes. rewrite pc_opened, pc_org_spec. destruct (s_opened z && s_org_spec z); [|reflexivity]. unfold header. rewrite pc_total, pc_c64. destruct ((s_total z =? 0) && s_c64 z); reflexivity. Qed.
Lemma header_set_pc v z : s_total (header (set_pc v z)) = s_total (header z).
Proof. unfold header. cbn [s_total s_c64 set_pc s_origin]. destruct ((s_total z =? 0) && s_c64 z); reflexivity. Qed.
Lemma header_writes l z : 0 <= s_total z -> s_opened z && s_org_spec z = true -> s_total (header (writes l z)) = s_total (header z) + Z.of_nat (length l).
Proof.
  intros T W. assert (X := writes_app l [] z T). rewrite app_nil_r in X. unfold writes at 1 in X.
  destruct (writes_more l z) as (M1 & M2 & _ & _ & _ & _ & M7). rewrite M1, M2, W, put_nil in X. rewrite X, M7, W. reflexivity.
Qed.
Lemma header_obs s : s_total (header (obs s)) = s_total (header s).
Proof. rewrite <- obs_header. apply obs_get_total. Qed.
Lemma no_gap_writes l n s t : 0 <= s_total s -> n <= Z.of_nat (length l) -> obs t = set_pc (s_pc s + n) (writes l (obs s)) -> no_gap s -> no_gap t.
Proof.
  intros T Ln O G. unfold no_gap in *. intros W.
  destruct (writes_more l (obs s)) as (M1 & M2 & M3 & _).
  assert (F1 : s_opened t = s_opened s).
  { rewrite <- (obs_get_opened t), O, pc_opened, M1. apply obs_get_opened. }
  assert (F2 : s_org_spec t = s_org_spec s).
  { rewrite <- (obs_get_org_spec t), O, pc_org_spec, M2. apply obs_get_org_spec. }
  assert (F3 : s_origin t = s_origin s).
  { rewrite <- (obs_get_origin t), O, pc_origin, M3. apply obs_get_origin. }
  assert (F4 : s_pc t = s_pc s + n) by (rewrite <- (obs_get_pc t), O; apply pc_pc).
  rewrite F1, F2 in W. specialize (G W).
  assert (F5 : s_total (header t) = s_total (header s) + Z.of_nat (length l)).
  { rewrite <- (header_obs t), O, header_set_pc, header_writes, header_obs; [reflexivity|rewrite obs_get_total; exact T|].
    rewrite obs_get_opened, obs_get_org_spec. exact W. }
  rewrite F3, F4, F5. lia.
Qed.

(** *** Expanding the list *)
Definition list_fuel (l : list item) : nat := (length l + fold_right (fun i n => Nat.max (item_height i) n) 0 l)%nat.
Lemma list_fuel_snoc l i : (S (list_fuel l) <= list_fuel (l ++ [i]))%nat /\ (S (item_height i) <= list_fuel (l ++ [i]))%nat.
Proof.
  unfold list_fuel. rewrite app_length, fold_right_app. cbn [length fold_right].
  assert (H : forall l a, (fold_right (fun i n => Nat.max (item_height i) n) a l >= Nat.max a (fold_right (fun i n => Nat.max (item_height i) n) 0 l))%nat).
  { clear. induction l as [|j l IH]; intros a; cbn [fold_right]; [lia|]. specialize (IH a). lia. }
  specialize (H l (Nat.max (item_height i) 0)). lia.
Qed.
Lemma expand_list F s p l : s_stop s = false -> nth_error (s_nodes s) p = Some (mkNode (KOpr OExprList) l) ->
  expand (S F) p s = expr_list (expand F) l None s.
Proof.
  intros St N. cbn [expand]. unfold bind at 1, gets at 1. rewrite St. unfold bind at 1, node_get, bind, gets. rewrite N. reflexivity.
Qed.
Lemma expr_list_sub ex a l sp x s : nth_error (s_nodes s) a = Some (mkNode (KOpr OExprList) x) ->
  expr_list ex (a :: l) sp s = (_ <- ex a ;; expr_list ex l sp) s.
Proof. intros N. cbn [expr_list]. unfold bind at 1, node_get, gets. unfold bind at 1. rewrite N. reflexivity. Qed.
Lemma lrep_node C s p l : lrep C s p l -> exists x, nth_error (s_nodes s) p = Some (mkNode (KOpr OExprList) x).
Proof. intros R. inversion R; subst; eauto. Qed.
Lemma expr_list_nil ex sp s : expr_list ex [] sp s = Ok 0 s. Proof. reflexivity. Qed.

Lemma list_analysis C size l p : forall F s n, lrep C s p l -> (list_fuel l <= F)%nat -> tab s -> s_stop s = false -> forallb item_eager l = true ->
  s_ety s = dety size -> s_dsz s = size -> In size [0; 1; 2] -> s_final s = false -> items_size (fun n => cval (C n)) size (s_pc s) l = Some n ->
  exists s', expand F p s = Ok 0 s' /\ hv0 s s' /\ obs s' = set_pc (s_pc s + n) (obs s) /\ s_dsz s' = size.
Proof.
  intros F s n R. revert F n. induction R as [p q i N I|p a q l i N R IH I]; intros F n HF T St Ea Et D Sz Fi Si.
  - destruct F as [|F]; [unfold list_fuel in HF; cbn in HF; lia|]. rewrite (expand_list F s p _ St N).
    cbn [items_size] in Si. destruct (item_size _ size (s_pc s) i) as [m|] eqn:Im; [|discriminate]. injection Si as <-.
    destruct (item_analysis C F s q i [] None size m ltac:(unfold list_fuel in HF; cbn in HF; lia) T St I ltac:(cbn in Ea; rewrite andb_true_r in Ea; exact Ea) Et D Sz Fi Im)
      as (s' & E & H & O & D').
    exists s'. rewrite E, expr_list_nil, Z.add_0_r. auto.
  - destruct (list_fuel_snoc l i) as [L1 L2]. destruct F as [|F]; [lia|]. rewrite (expand_list F s p _ St N).
    destruct (lrep_node _ _ _ _ R) as (x & Nx). rewrite (expr_list_sub _ _ _ _ _ _ Nx).
    rewrite items_size_snoc in Si. destruct (items_size _ size (s_pc s) l) as [n1|] eqn:S1; [|discriminate].
    destruct (item_size _ size (s_pc s + n1) i) as [m|] eqn:Im; [|discriminate]. injection Si as <-.
    rewrite forallb_app in Ea. apply andb_prop in Ea. destruct Ea as [Ea1 Ea2]. cbn in Ea2. rewrite andb_true_r in Ea2.
    destruct (IH F n1 ltac:(lia) T St Ea1 Et D Sz Fi eq_refl) as (s1 & E1 & H1 & O1 & D1).
    assert (P1 : s_pc s1 = s_pc s + n1) by (rewrite <- (obs_get_pc s1), O1; apply pc_pc).
    destruct (item_analysis C F s1 q i [] None size m ltac:(lia) (h_tab _ _ H1)
      ltac:(rewrite <- (obs_get_stop s1), O1, pc_stop; obs_simp; exact St) (irep_hv _ _ _ _ _ _ H1 I) Ea2
      ltac:(rewrite <- (obs_get_ety s1), O1, pc_ety; obs_simp; exact Et) D1 Sz ltac:(rewrite <- (obs_get_final s1), O1, pc_final; obs_simp; exact Fi)
      ltac:(rewrite P1; exact Im)) as (s2 & E2 & H2 & O2 & D2).
    exists s2. unfold bind. rewrite E1, E2, expr_list_nil. split; [reflexivity|]. split; [exact (hv0_trans _ _ _ H1 H2)|]. split; [|exact D2].
    rewrite O2, O1, P1, Z.add_assoc. apply set_pc_pc.
Qed.

Lemma list_final C size l p : forall F s n b, lrep C s p l -> (list_fuel l <= F)%nat -> tab s -> s_stop s = false -> forallb item_eager l = true ->
  forallb (fun i => negb (item_unknown C i)) l = true ->
  s_ety s = dety size -> s_dsz s = size -> In size [0; 1; 2] -> s_final s = true -> no_gap s -> 0 <= s_total s ->
  items_size (fun n => cval (C n)) size (s_pc s) l = Some n -> items_bytes (fun n => cval (C n)) size (s_pc s) l = Some b ->
  exists s', expand F p s = Ok 0 s' /\ hv0 s s' /\ obs s' = set_pc (s_pc s + n) (writes b (obs s)) /\ s_dsz s' = size /\ n <= Z.of_nat (length b).
Proof.
  intros F s n b R. revert F n b. induction R as [p q i N I|p a q l i N R IH I]; intros F n b HF T St Ea Un Et D Sz Fi G Tt Si By.
  - destruct F as [|F]; [unfold list_fuel in HF; cbn in HF; lia|]. rewrite (expand_list F s p _ St N).
    cbn [items_size items_bytes] in Si, By. destruct (item_size _ size (s_pc s) i) as [m|] eqn:Im; [|discriminate]. injection Si as <-.
    destruct (item_bytes _ size (s_pc s) i) as [b1|] eqn:Ib; [|discriminate]. injection By as <-.
    destruct (item_final C F s q i [] None size m b1 ltac:(unfold list_fuel in HF; cbn in HF; lia) T St I ltac:(cbn in Ea; rewrite andb_true_r in Ea; exact Ea)
      ltac:(cbn in Un; rewrite andb_true_r in Un; apply negb_true_iff, Un) Et D Sz Fi G Im Ib)
      as (s' & E & H & O & D').
    exists s'. rewrite E, expr_list_nil, Z.add_0_r, app_nil_r. pose proof (item_step_le _ _ _ _ _ _ Sz Im Ib). do 4 (split; [auto; fail|]). lia.
  - destruct (list_fuel_snoc l i) as [L1 L2]. destruct F as [|F]; [lia|]. rewrite (expand_list F s p _ St N).
    destruct (lrep_node _ _ _ _ R) as (x & Nx). rewrite (expr_list_sub _ _ _ _ _ _ Nx).
    rewrite items_size_snoc in Si. destruct (items_size _ size (s_pc s) l) as [n1|] eqn:S1; [|discriminate].
    rewrite (items_bytes_snoc _ _ _ _ _ _ S1) in By.
    destruct (item_size _ size (s_pc s + n1) i) as [m|] eqn:Im; [|discriminate]. injection Si as <-.
    destruct (items_bytes _ size (s_pc s) l) as [b1|] eqn:B1; [|discriminate].
    destruct (item_bytes _ size (s_pc s + n1) i) as [b2|] eqn:Ib; [|discriminate]. injection By as <-.
    rewrite forallb_app in Ea, Un. apply andb_prop in Ea, Un. destruct Ea as [Ea1 Ea2], Un as [Un1 Un2]. cbn in Ea2, Un2. rewrite andb_true_r in Ea2, Un2.
    destruct (IH F n1 b1 ltac:(lia) T St Ea1 Un1 Et D Sz Fi G Tt eq_refl eq_refl) as (s1 & E1 & H1 & O1 & D1 & Le1).
    assert (P1 : s_pc s1 = s_pc s + n1) by (rewrite <- (obs_get_pc s1), O1; apply pc_pc).
    destruct (writes_more b1 (obs s)) as (M1 & M2 & _ & _ & _ & M6 & _). destruct (writes_same b1 (obs s)) as (_ & _ & _ & _ & M10 & _).
    assert (Mety : s_ety (writes b1 (obs s)) = s_ety s) by (rewrite writes_ety; apply obs_get_ety).
    destruct (item_final C F s1 q i [] None size m b2 ltac:(lia) (h_tab _ _ H1)
      ltac:(rewrite <- (obs_get_stop s1), O1, pc_stop; rewrite M6; obs_simp; exact St) (irep_hv _ _ _ _ _ _ H1 I) Ea2 ltac:(apply negb_true_iff, Un2)
      ltac:(rewrite <- (obs_get_ety s1), O1, pc_ety; rewrite Mety; exact Et) D1 Sz ltac:(rewrite <- (obs_get_final s1), O1, pc_final; rewrite M10; obs_simp; exact Fi)
      (no_gap_writes _ _ _ _ Tt Le1 O1 G)
      ltac:(rewrite P1; exact Im) ltac:(rewrite P1; exact Ib)) as (s2 & E2 & H2 & O2 & D2).
    exists s2. unfold bind. rewrite E1, E2, expr_list_nil. split; [reflexivity|]. split; [exact (hv0_trans _ _ _ H1 H2)|]. split; [|split; [exact D2|]].
    + rewrite O2, O1, P1, Z.add_assoc. rewrite <- writes_app by (obs_simp; exact Tt).
      apply set_pc_writes.
    + rewrite app_length, Nat2Z.inj_add. pose proof (item_step_le _ _ _ _ _ _ Sz Im Ib). lia.
Qed.

Lemma expr_list_errs F l sp s : match expr_list (expand F) l sp s with Ok _ s' | Exit _ s' => s_errs s <= s_errs s' | _ => True end.
Proof.
  pose proof (prs_expr_list _ _ (closed_steps _ Rmsgs_closed) (expand F) (fun p s => expand_prs _ Rmsgs_closed F p s) l sp s) as H.
  unfold prs2 in H. destruct (expr_list (expand F) l sp s); auto; destruct H as [_ (k & _ & H)]; lia.
Qed.
Lemma list_bad C size l p : forall F s n, lrep C s p l -> (list_fuel l <= F)%nat -> tab s -> s_stop s = false -> forallb item_eager l = true ->
  forallb (fun i => negb (item_unknown C i)) l = true ->
  s_ety s = dety size -> s_dsz s = size -> In size [0; 1; 2] -> s_final s = true -> no_gap s -> 0 <= s_total s -> s_opened s && s_org_spec s = true ->
  items_size (fun n => cval (C n)) size (s_pc s) l = Some n -> items_bytes (fun n => cval (C n)) size (s_pc s) l = None ->
  match expand F p s with Ok _ s' | Exit _ s' => s_errs s + 1 <= s_errs s' | _ => True end.
Proof.
  intros F s n R. revert F n. induction R as [p q i N I|p a q l i N R IH I]; intros F n HF T St Ea Un Et D Sz Fi G Tt W Si By.
  - destruct F as [|F]; [unfold list_fuel in HF; cbn in HF; lia|]. rewrite (expand_list F s p _ St N).
    cbn [items_size items_bytes] in Si, By. destruct (item_size _ size (s_pc s) i) as [m|] eqn:Im; [|discriminate]. injection Si as <-.
    destruct (item_bytes _ size (s_pc s) i) as [b1|] eqn:Ib; [discriminate|].
    destruct (item_bad C F s q i [] None size m ltac:(unfold list_fuel in HF; cbn in HF; lia) T St I ltac:(cbn in Ea; rewrite andb_true_r in Ea; exact Ea)
      ltac:(cbn in Un; rewrite andb_true_r in Un; apply negb_true_iff, Un) Et D Sz Fi G W Im Ib)
      as (s' & E & Er).
    rewrite E, expr_list_nil. lia.
  - destruct (list_fuel_snoc l i) as [L1 L2]. destruct F as [|F]; [lia|]. rewrite (expand_list F s p _ St N).
    destruct (lrep_node _ _ _ _ R) as (x & Nx). rewrite (expr_list_sub _ _ _ _ _ _ Nx).
    rewrite items_size_snoc in Si. destruct (items_size _ size (s_pc s) l) as [n1|] eqn:S1; [|discriminate].
    rewrite (items_bytes_snoc _ _ _ _ _ _ S1) in By.
    destruct (item_size _ size (s_pc s + n1) i) as [m|] eqn:Im; [|discriminate]. injection Si as <-.
    rewrite forallb_app in Ea, Un. apply andb_prop in Ea, Un. destruct Ea as [Ea1 Ea2], Un as [Un1 Un2]. cbn in Ea2, Un2. rewrite andb_true_r in Ea2, Un2.
    destruct (items_bytes _ size (s_pc s) l) as [b1|] eqn:B1.
    + destruct (item_bytes _ size (s_pc s + n1) i) as [b2|] eqn:Ib; [discriminate|]. clear By IH.
      destruct (list_final C size l a F s n1 b1 R ltac:(lia) T St Ea1 Un1 Et D Sz Fi G Tt S1 B1) as (s1 & E1 & H1 & O1 & D1 & Le1).
      assert (P1 : s_pc s1 = s_pc s + n1) by (rewrite <- (obs_get_pc s1), O1; apply pc_pc).
      destruct (writes_more b1 (obs s)) as (M1 & M2 & _ & _ & _ & M6 & _). destruct (writes_same b1 (obs s)) as (_ & _ & M9 & _ & M10 & _).
      assert (Mety : s_ety (writes b1 (obs s)) = s_ety s) by (rewrite writes_ety; apply obs_get_ety).
      destruct (item_bad C F s1 q i [] None size m ltac:(lia) (h_tab _ _ H1)
        ltac:(rewrite <- (obs_get_stop s1), O1, pc_stop; rewrite M6; obs_simp; exact St) (irep_hv _ _ _ _ _ _ H1 I) Ea2 ltac:(apply negb_true_iff, Un2)
        ltac:(rewrite <- (obs_get_ety s1), O1, pc_ety; rewrite Mety; exact Et) D1 Sz ltac:(rewrite <- (obs_get_final s1), O1, pc_final; rewrite M10; obs_simp; exact Fi)
        (no_gap_writes _ _ _ _ Tt Le1 O1 G)
        ltac:(rewrite <- (obs_get_opened s1), <- (obs_get_org_spec s1), O1, pc_opened, pc_org_spec; rewrite M1, M2; obs_simp; exact W)
        ltac:(rewrite P1; exact Im) ltac:(rewrite P1; exact Ib)) as (s2 & E2 & Er).
      unfold bind. rewrite E1, E2, expr_list_nil.
      assert (s_errs s1 = s_errs s) by (rewrite <- (obs_get_errs s1), O1, pc_errs; rewrite M9; obs_simp; reflexivity). lia.
    + clear By. specialize (IH F n1 ltac:(lia) T St Ea1 Un1 Et D Sz Fi G Tt W eq_refl eq_refl).
      unfold bind. destruct (expand F a s) as [v s1|c s1|u|]; auto.
      pose proof (expr_list_errs F [q] None s1). destruct (expr_list (expand F) [q] None s1); auto; lia.
Qed.

(** *** Building the list *)
Definition item_plain (s : state) (i : item) : Prop :=
  match i with IExpr e => wfe e = true /\ plain_expr s e | IStr raw => text_of raw <> None end.
Lemma string_node_ok raw t s : text_of raw = Some t -> string_node raw s = Ok (length (s_nodes s)) (set_nodes (s_nodes s ++ [mkNode (KStr t) []]) s).
Proof.
  unfold text_of, string_node. fold (literal raw). destruct (sanitize_string (literal raw)) as [out e| |]; try discriminate.
  destruct e; [|discriminate]. intros [= <-]. unfold bind, ret. apply alloc_eq.
Qed.
Lemma build_item_ok i s : tab s -> item_plain s i ->
  exists q s', build_item i s = Ok (Some q) s' /\ hv s s' /\ obs s' = obs s /\ irep (meaning s) true s' q i.
Proof.
  intros T P. destruct i as [e|raw]; cbn [build_item item_plain irep] in *.
  - destruct P as [W P]. destruct (build_expr_rep e s T W P) as (q & s' & E & V & Er & R & _).
    exists q, s'. split; [exact E|]. split; [apply hv_evo, V|]. split; [|exact R]. rewrite (obs_evo _ _ V), Er. rewrite <- (obs_get_errs s). apply errs_id.
  - destruct (text_of raw) as [t|] eqn:E; [|contradiction]. unfold some, bind, ret. rewrite (string_node_ok _ _ _ E).
    do 2 eexists. split; [reflexivity|]. split; [apply hv_alloc; [reflexivity|exact T]|]. split; [apply obs_set_nodes|].
    exists t. split; [reflexivity|]. apply alloc_nth.
Qed.
Lemma item_plain_hv s s' i : hv0 s s' -> item_plain s i -> item_plain s' i.
Proof.
  intros H. destruct i as [e|raw]; cbn [item_plain]; auto. intros [W P]. split; [exact W|]. intros n Hn. destruct (P n Hn) as [Pn M]. split; auto.
  rewrite (h_res _ _ H); auto.
Qed.
Lemma irep_meaning s0 s u t q i : hv0 s0 s -> item_plain s0 i -> irep (meaning s) u t q i -> irep (meaning s0) u t q i.
Proof.
  intros H P R. destruct i as [e|raw]; cbn [irep] in *; [|exact R]. destruct P as [_ P].
  assert (E : forall n, In n (names e) -> meaning s n = meaning s0 n) by (intros n Hn; apply (h_res _ _ H), P, Hn). clear P.
  induction R as [p v N|p v N|p n a y N D Hy Ey|p n Eu N Pn Ey|p o q e N U L R IH|p o q1 q2 e1 e2 N U L1 L2 R1 IH1 R2 IH2]; cbn [names] in E.
  - apply RepInt with (1 := N).
  - eapply RepPc, N.
  - eapply RepCached; eauto. rewrite <- E; [exact Ey|cbn; auto].
  - apply RepName; auto. rewrite <- E; [exact Ey|cbn; auto].
  - eapply RepUn; eauto.
  - eapply RepBin; eauto; [apply IH1|apply IH2]; intros; apply E, in_or_app; auto.
Qed.

Lemma hv_alloc_obs k l s : cold k = true -> tab s -> hv s (set_nodes (s_nodes s ++ [mkNode k l]) s) /\ obs (set_nodes (s_nodes s ++ [mkNode k l]) s) = obs s.
Proof. intros K T. split; [apply hv_alloc; auto|apply obs_set_nodes]. Qed.
Lemma more_items_ok l : forall s0 s acc done, hv s0 s -> (forall i, In i l -> item_plain s0 i) -> lrep (meaning s0) s acc done ->
  exists p s', more_items acc l s = Ok (Some p) s' /\ hv s s' /\ obs s' = obs s /\ lrep (meaning s0) s' p (done ++ l).
Proof.
  induction l as [|i l IH]; intros s0 s acc done H P R; cbn [more_items].
  - exists acc, s. rewrite app_nil_r. split; [reflexivity|]. split; [apply hv_refl, (h_tab _ _ H)|auto].
  - destruct (build_item_ok i s (h_tab _ _ H) (item_plain_hv _ _ _ H (P i (or_introl eq_refl)))) as (q & s1 & E1 & H1 & O1 & R1).
    apply (irep_meaning s0 s) in R1; [|exact H|apply P; left; reflexivity].
    unfold bindo, bind. rewrite E1. rewrite alloc_eq.
    destruct (hv_alloc_obs (KOpr OExprList) [acc; q] s1 eq_refl (h_tab _ _ H1)) as [H2 O2].
    destruct (IH s0 _ (length (s_nodes s1)) (done ++ [i]) (hv_trans _ _ _ H (hv_trans _ _ _ H1 H2)) ltac:(intros j Hj; apply P; right; exact Hj)
      ltac:(eapply LrepMore; [apply alloc_nth|eapply lrep_hv; [apply h_base; exact (hv_trans _ _ _ H1 H2)|exact R]|eapply irep_hv; [apply h_base|]; eauto])) as (p & s3 & E3 & H3 & O3 & R3).
    exists p, s3. split; [exact E3|]. split; [exact (hv_trans _ _ _ H1 (hv_trans _ _ _ H2 H3))|]. split; [congruence|].
    rewrite <- app_assoc in R3. exact R3.
Qed.
Lemma build_items_ok l s : tab s -> l <> [] -> (forall i, In i l -> item_plain s i) ->
  exists p s', build_items l s = Ok (Some p) s' /\ hv s s' /\ obs s' = obs s /\ lrep (meaning s) s' p l.
Proof.
  intros T L P. destruct l as [|i l]; [contradiction|]. cbn [build_items].
  destruct (build_item_ok i s T (P i (or_introl eq_refl))) as (q & s1 & E1 & H1 & O1 & R1).
  unfold bindo, bind. rewrite E1. rewrite alloc_eq.
  destruct (hv_alloc_obs (KOpr OExprList) [q] s1 eq_refl (h_tab _ _ H1)) as [H2 O2].
  destruct (more_items_ok l s _ (length (s_nodes s1)) [i] (hv_trans _ _ _ H1 H2) ltac:(intros j Hj; apply P; right; exact Hj)
    ltac:(eapply LrepOne; [apply alloc_nth|eapply irep_hv; [apply h_base|]; eauto])) as (p & s3 & E3 & H3 & O3 & R3).
  exists p, s3. split; [exact E3|]. split; [exact (hv_trans _ _ _ H1 (hv_trans _ _ _ H2 H3))|]. split; [congruence|]. exact R3.
Qed.
Lemma data_hv s s' p k d : hv0 s s' -> nth_error (s_nodes s) p = Some (mkNode (KData k d) []) -> nth_error (s_nodes s') p = Some (mkNode (KData k d) []).
Proof. intros H N. destruct (h_node _ _ H _ _ N) as (x' & X1 & X2). inversion X2 as [x0 x0' X| |]; subst. inversion X; subst; exact X1. Qed.
Lemma build_data_ok ex first size l s : tab s -> l <> [] -> (forall i, In i l -> item_plain s i) ->
  exists p q s', build_stmt ex first (SData size l) s = Ok (Some p) s' /\ hv s s' /\ obs s' = obs s /\
    nth_error (s_nodes s') p = Some (mkNode (KData size q) []) /\ lrep (meaning s) s' q l.
Proof.
  intros T L P. cbn [build_stmt]. destruct (build_items_ok l s T L P) as (q & s1 & E1 & H1 & O1 & R1).
  unfold bindo, bind. rewrite E1. unfold some, bind, ret. rewrite alloc_eq.
  destruct (hv_alloc_obs (KData size q) [] s1 eq_refl (h_tab _ _ H1)) as [H2 O2].
  do 3 eexists. split; [reflexivity|]. split; [exact (hv_trans _ _ _ H1 H2)|]. split; [congruence|]. split; [apply alloc_nth|eapply lrep_hv; [apply h_base|]; eauto].
Qed.

(** ** The data statement *)
(** the state x_data hands to the list *)
Definition data_start (size : Z) (s : state) : state := set_dsz size (set_ety (dety size) (set_org_spec true s)).
Lemma expand_data F s p size q : s_stop s = false -> nth_error (s_nodes s) p = Some (mkNode (KData size q) []) ->
  expand (S F) p s = expand F q (data_start size s).
Proof.
  intros St N. cbn [expand]. unfold bind at 1, gets at 1. rewrite St. unfold bind at 1, node_get, bind, gets. rewrite N. reflexivity.
Qed.
Lemma hv_start size s : tab s -> hv s (data_start size s).
Proof.
  intros T. split; [apply hv0_frame; auto|]. apply lk_start; try reflexivity; [|left; reflexivity].
  unfold writing. cbn. intros W. apply andb_prop in W. rewrite (proj1 W). reflexivity.
Qed.
Lemma obs_start size s : obs (data_start size s) = set_ety (dety size) (set_org_spec true (obs s)).
Proof. unfold data_start. obs_simp. reflexivity. Qed.

Lemma data_analysis first size l F s n : tab s -> s_stop s = false -> l <> [] -> In size [0; 1; 2] ->
  (forall i, In i l -> item_plain s i) -> forallb item_eager l = true -> (list_fuel l <= F)%nat -> s_final s = false ->
  items_size (fun n => cval (meaning s n)) size (s_pc s) l = Some n ->
  exists p s1 s2, build_stmt (expand (S F)) first (SData size l) s = Ok (Some p) s1 /\ hv s s1 /\ obs s1 = obs s /\ expand (S F) p s1 = Ok 0 s2 /\ hv0 s s2 /\
    obs s2 = set_pc (s_pc s + n) (set_ety (dety size) (set_org_spec true (obs s))).
Proof.
  intros T St L Sz P Ea HF Fi Si.
  destruct (build_data_ok (expand (S F)) first size l s T L P) as (p & q & s1 & E1 & H1 & O1 & N1 & R1).
  pose proof (hv_start size s1 (h_tab _ _ H1)) as H2.
  destruct (list_analysis (meaning s) size l q F (data_start size s1) n (lrep_hv _ _ _ _ _ H2 R1) HF (h_tab _ _ H2)
     ltac:(change (s_stop s1 = false); rewrite (obs_stop _ _ O1); exact St) Ea eq_refl eq_refl Sz
     ltac:(change (s_final s1 = false); rewrite (obs_field s_final _ _ O1 obs_get_final); exact Fi)
     ltac:(change (s_pc (data_start size s1)) with (s_pc s1); rewrite (obs_pc _ _ O1); exact Si)) as (s2 & E2 & H3 & O2 & _).
  exists p, s1, s2. split; [exact E1|]. split; [exact H1|]. split; [exact O1|]. split.
  - rewrite (expand_data F s1 p size q ltac:(rewrite (obs_stop _ _ O1); exact St) N1). exact E2.
  - split; [exact (hv0_trans _ _ _ H1 (hv0_trans _ _ _ H2 H3))|]. rewrite O2, obs_start, O1. change (s_pc (data_start size s1)) with (s_pc s1).
    rewrite (obs_pc _ _ O1). reflexivity.
Qed.
Definition data_gap (s : state) : Prop := s_opened s = true -> s_pc s <= s_origin s + s_total (header s).
Lemma data_final first size l F s n b : tab s -> s_stop s = false -> l <> [] -> In size [0; 1; 2] ->
  (forall i, In i l -> item_plain s i) -> forallb item_eager l = true -> forallb (fun i => negb (item_unknown (meaning s) i)) l = true ->
  (list_fuel l <= F)%nat -> s_final s = true -> data_gap s -> 0 <= s_total s ->
  items_size (fun n => cval (meaning s n)) size (s_pc s) l = Some n -> items_bytes (fun n => cval (meaning s n)) size (s_pc s) l = Some b ->
  exists p s1 s2, build_stmt (expand (S F)) first (SData size l) s = Ok (Some p) s1 /\ hv s s1 /\ obs s1 = obs s /\ expand (S F) p s1 = Ok 0 s2 /\ hv0 s s2 /\
    obs s2 = set_pc (s_pc s + n) (writes b (set_ety (dety size) (set_org_spec true (obs s)))) /\ n <= Z.of_nat (length b).
Proof.
  intros T St L Sz P Ea Un HF Fi G Tt Si By.
  destruct (build_data_ok (expand (S F)) first size l s T L P) as (p & q & s1 & E1 & H1 & O1 & N1 & R1).
  pose proof (hv_start size s1 (h_tab _ _ H1)) as H2.
  assert (Gd : no_gap (data_start size s1)).
  { unfold no_gap. intros W. change (s_pc (data_start size s1)) with (s_pc s1). change (s_origin (data_start size s1)) with (s_origin s1).
    change (s_opened s1 && true = true) in W. rewrite andb_true_r in W.
    rewrite (obs_pc _ _ O1), (obs_field s_origin _ _ O1 obs_get_origin).
    replace (s_total (header (data_start size s1))) with (s_total (header s1)).
    - rewrite <- (header_obs s1), O1, header_obs. apply G. rewrite <- (obs_field s_opened _ _ O1 obs_get_opened). exact W.
    - unfold header. change (s_total (data_start size s1)) with (s_total s1). change (s_c64 (data_start size s1)) with (s_c64 s1).
      destruct ((s_total s1 =? 0) && s_c64 s1); reflexivity. }
  destruct (list_final (meaning s) size l q F (data_start size s1) n b (lrep_hv _ _ _ _ _ H2 R1) HF (h_tab _ _ H2)
     ltac:(change (s_stop s1 = false); rewrite (obs_stop _ _ O1); exact St) Ea Un eq_refl eq_refl Sz
     ltac:(change (s_final s1 = true); rewrite (obs_field s_final _ _ O1 obs_get_final); exact Fi) Gd
     ltac:(change (0 <= s_total s1); rewrite (obs_field s_total _ _ O1 obs_get_total); exact Tt)
     ltac:(change (s_pc (data_start size s1)) with (s_pc s1); rewrite (obs_pc _ _ O1); exact Si)
     ltac:(change (s_pc (data_start size s1)) with (s_pc s1); rewrite (obs_pc _ _ O1); exact By)) as (s2 & E2 & H3 & O2 & _ & Le).
  exists p, s1, s2. split; [exact E1|]. split; [exact H1|]. split; [exact O1|]. split.
  - rewrite (expand_data F s1 p size q ltac:(rewrite (obs_stop _ _ O1); exact St) N1). exact E2.
  - split; [exact (hv0_trans _ _ _ H1 (hv0_trans _ _ _ H2 H3))|]. split; [|exact Le]. rewrite O2, obs_start, O1. change (s_pc (data_start size s1)) with (s_pc s1).
    rewrite (obs_pc _ _ O1). reflexivity.
Qed.
Lemma data_bad first size l F s n : tab s -> s_stop s = false -> l <> [] -> In size [0; 1; 2] ->
  (forall i, In i l -> item_plain s i) -> forallb item_eager l = true -> forallb (fun i => negb (item_unknown (meaning s) i)) l = true ->
  (list_fuel l <= F)%nat -> s_final s = true -> s_opened s = true -> data_gap s -> 0 <= s_total s ->
  items_size (fun n => cval (meaning s n)) size (s_pc s) l = Some n -> items_bytes (fun n => cval (meaning s n)) size (s_pc s) l = None ->
  exists p s1, build_stmt (expand (S F)) first (SData size l) s = Ok (Some p) s1 /\ hv s s1 /\ obs s1 = obs s /\
    match expand (S F) p s1 with Ok _ s2 | Exit _ s2 => s_errs s + 1 <= s_errs s2 | _ => True end.
Proof.
  intros T St L Sz P Ea Un HF Fi Op G Tt Si By.
  destruct (build_data_ok (expand (S F)) first size l s T L P) as (p & q & s1 & E1 & H1 & O1 & N1 & R1).
  pose proof (hv_start size s1 (h_tab _ _ H1)) as H2.
  assert (Gd : no_gap (data_start size s1)).
  { unfold no_gap. intros W. change (s_pc (data_start size s1)) with (s_pc s1). change (s_origin (data_start size s1)) with (s_origin s1).
    rewrite (obs_pc _ _ O1), (obs_field s_origin _ _ O1 obs_get_origin).
    replace (s_total (header (data_start size s1))) with (s_total (header s1)).
    - rewrite <- (header_obs s1), O1, header_obs. apply G. exact Op.
    - unfold header. change (s_total (data_start size s1)) with (s_total s1). change (s_c64 (data_start size s1)) with (s_c64 s1).
      destruct ((s_total s1 =? 0) && s_c64 s1); reflexivity. }
  pose proof (list_bad (meaning s) size l q F (data_start size s1) n (lrep_hv _ _ _ _ _ H2 R1) HF (h_tab _ _ H2)
     ltac:(change (s_stop s1 = false); rewrite (obs_stop _ _ O1); exact St) Ea Un eq_refl eq_refl Sz
     ltac:(change (s_final s1 = true); rewrite (obs_field s_final _ _ O1 obs_get_final); exact Fi) Gd
     ltac:(change (0 <= s_total s1); rewrite (obs_field s_total _ _ O1 obs_get_total); exact Tt)
     ltac:(change (s_opened s1 && true = true); rewrite andb_true_r, (obs_field s_opened _ _ O1 obs_get_opened); exact Op)
     ltac:(change (s_pc (data_start size s1)) with (s_pc s1); rewrite (obs_pc _ _ O1); exact Si)
     ltac:(change (s_pc (data_start size s1)) with (s_pc s1); rewrite (obs_pc _ _ O1); exact By)) as Bd.
  exists p, s1. split; [exact E1|]. split; [exact H1|]. split; [exact O1|].
  rewrite (expand_data F s1 p size q ltac:(rewrite (obs_stop _ _ O1); exact St) N1).
  change (s_errs (data_start size s1)) with (s_errs s1) in Bd. rewrite (obs_errs _ _ O1) in Bd. exact Bd.
Qed.
