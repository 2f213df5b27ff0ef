(** Whole instructions: from the parsed form to the bytes. *)
From Coq Require Import String Lia.
From Verif Require Import Base BaseProofs Hash Dict DictProofs DictMore Str Opcodes Cpu OpcodesProofs Err State Sym Machine Build Pass
  Gen Inv SymProofs Sem ExprProofs ExprMore OpProofs OpMore.
Open Scope string_scope.
Open Scope list_scope.
Open Scope Z_scope.
Open Scope m_scope.
Ltac Zify.zify_post_hook ::= Z.div_mod_to_equations.

(** ** The addressing mode of an instruction *)
(** the short form of a mode of the source text *)
Definition zp_form (m : Z) : Z :=
  if m =? m_a then m_zp else if m =? m_ax then m_zpx else if m =? m_ay then m_zpy
  else if m =? m_aix then m_izx else if m =? m_ind then m_zpi else m.
Definition is_byte (v : Z) : bool := (0 <=? v) && (v <=? 255).
Definition is_word (v : Z) : bool := (0 <=? v) && (v <=? 65535).
(** what the source modes become for an operand [v], where [has] tells which modes the instruction has; the second
    component tells that the operand is refused *)
Definition select (has : Z -> bool) (m v : Z) : Z * bool :=
  if has m_r then (m_r, false)
  else if is_byte v && has (zp_form m) then (zp_form m, false)
  else if negb (zp_form m =? m) && has m then (m, false)
  else (zp_form m, is_word v && negb (is_byte v)).
(** the same while the operand has no value yet *)
Definition select0 (has : Z -> bool) (m : Z) : Z := if has m_r then m_r else if has m then m else zp_form m.
Definition usable (has : Z -> bool) (m : Z) : bool := has m_r || has m || has (zp_form m).
(** the modes operands of the source text can have (pasm.y:178-187) *)
Definition src_modes : list Z := [m_I; m_a; m_ax; m_ay; m_ind; m_aix; m_izy].

Definition hasg (g : Z -> Z) (m : Z) : bool := negb (g m =? -1).

Lemma select_ok g m v : In m src_modes -> (forall k, -1 <= g k) -> usable (hasg g) m = true ->
  let bm := build_mode g m v false in
  snd bm = g (fst bm) /\ hasg g (fst bm) = true /\ adjust g (fst bm) v = select (hasg g) m v /\
  ((0 <=? fst bm) && (fst bm <? 15) && negb (nbytes (fst bm) =? 0) = true) /\
  ((0 <=? fst (select (hasg g) m v)) && (fst (select (hasg g) m v) <? 15) && (0 <? nbytes (fst (select (hasg g) m v))) = true) /\
  hasg g (fst (select (hasg g) m v)) = true /\ (fst bm =? m_r) = hasg g m_r.
Proof.
  intros I G U.
  assert (Hh : forall k, (g k =? -1) = negb (hasg g k)) by (intros; unfold hasg; now rewrite negb_involutive).
  unfold build_mode, adjust. rewrite !Hh. cbv zeta. rewrite !negb_involutive.
  assert (Hk : forall k, hasg g k = false -> g k = -1) by (intros k Hk; unfold hasg in Hk; apply negb_false_iff, Z.eqb_eq in Hk; exact Hk).
  remember (hasg g) as h eqn:Eh. clear Eh Hh.
  unfold usable, select in *.
  rewrite over_8, over_16. change ((0 <=? v) && (v <=? 255)) with (is_byte v). change ((0 <=? v) && (v <=? 65535)) with (is_word v).
  assert (Hbw : is_byte v = true -> is_word v = true) by (unfold is_byte, is_word; intros; if_lia).
  destruct (is_byte v) eqn:Eb; [rewrite (Hbw eq_refl)|destruct (is_word v)]; clear Hbw Eb;
  (cbn in I; repeat (destruct I as [<-|I]; [
    match goal with |- context[zp_form ?m] => 
      let z := eval cbv [zp_form] in (zp_form m) in let z := eval vm_compute in z in
      destruct (h m_r) eqn:E1; destruct (h m) eqn:E2; destruct (h z) eqn:E3 end;
    vm_compute in U, E1, E2, E3; rewrite ?E1, ?E2, ?E3 in U; try discriminate U; try congruence;
    vm_compute; rewrite ?E1, ?E2, ?E3; vm_compute; rewrite ?E1, ?E2, ?E3; vm_compute; rewrite ?E1, ?E2, ?E3; auto 10
    |]); try (destruct I; fail)); rewrite (Hk _ E2); auto 10.
Qed.

Lemma select0_ok g m v : In m src_modes -> (forall k, -1 <= g k) -> usable (hasg g) m = true ->
  let bm := build_mode g m v true in
  snd bm = g (fst bm) /\ hasg g (fst bm) = true /\ fst bm = select0 (hasg g) m /\
  ((0 <=? fst bm) && (fst bm <? 15) && (0 <? nbytes (fst bm)) = true).
Proof.
  intros I G U.
  assert (Hh : forall k, (g k =? -1) = negb (hasg g k)) by (intros; unfold hasg; now rewrite negb_involutive).
  unfold build_mode. rewrite !Hh. cbv zeta. rewrite !negb_involutive. cbn [negb]. rewrite !andb_false_r. cbn [orb].
  remember (hasg g) as h eqn:Eh. clear Eh Hh.
  unfold usable, select0 in *.
  (cbn in I; repeat (destruct I as [<-|I]; [
    match goal with |- context[zp_form ?m] => 
      let z := eval cbv [zp_form] in (zp_form m) in let z := eval vm_compute in z in
      destruct (h m_r) eqn:E1; destruct (h m) eqn:E2; destruct (h z) eqn:E3 end;
    vm_compute in U, E1, E2, E3; rewrite ?E1, ?E2, ?E3 in U; try discriminate U; try congruence;
    vm_compute; rewrite ?E1, ?E2, ?E3; vm_compute; rewrite ?E1, ?E2, ?E3; vm_compute; rewrite ?E1, ?E2, ?E3; auto 10
    |]); try (destruct I; fail)).
Qed.

(** ** The accumulator *)
Definition is_A (n : cstr) : bool := stricmp n (cs "A") =? 0.
(** the name A is never entered in the symbol table (sym.cc:131-132); its node evaluates to 0 and stays as it is *)
Lemma upd_id {A} (l : list A) p x : nth_error l p = Some x -> upd p x l = l.
Proof. revert p. induction l as [|y l IH]; intros [|p] H; cbn in *; try congruence. f_equal. now apply IH. Qed.
Lemma set_nodes_id s : set_nodes (s_nodes s) s = s.
Proof. destruct s; reflexivity. Qed.
Lemma is_A_head n : is_A n = true -> is_pm_name n = false /\ (hd0 n =? 64) = false /\ (hd0 n =? 92) = false.
Proof.
  unfold is_A. intros H. apply Z.eqb_eq in H. unfold is_pm_name, hd0. destruct n as [|c n]; [vm_compute in H; congruence|].
  unfold stricmp in H. cbn [cs map String.list_ascii_of_string] in H.
  destruct (c =? 43) eqn:E1; [apply Z.eqb_eq in E1; subst c; vm_compute in H; congruence|].
  destruct (c =? 45) eqn:E2; [apply Z.eqb_eq in E2; subst c; vm_compute in H; congruence|].
  destruct (c =? 64) eqn:E3; [apply Z.eqb_eq in E3; subst c; vm_compute in H; congruence|].
  destruct (c =? 92) eqn:E4; [apply Z.eqb_eq in E4; subst c; vm_compute in H; congruence|]. auto.
Qed.
Lemma eval_A F s q n : s_stop s = false -> is_A n = true -> nth_error (s_nodes s) q = Some (mkNode (KId n None) []) ->
  expand (S F) q s = Ok 0 s.
Proof.
  intros St IA N. destruct (is_A_head _ IA) as (Hp & Ha & _). rewrite (expand_eq _ _ _ _ St N). unfold x_node. cbn [n_kind].
  unfold x_id. rewrite Hp, Ha. unfold bind at 1, ret at 1. unfold bind at 1. unfold add_symbol.
  unfold is_A in IA. rewrite IA. unfold bind at 1, ret at 1. unfold bind, node_set, modify, ret. cbn [n_ops].
  rewrite (upd_id _ _ _ N), set_nodes_id. reflexivity.
Qed.
Lemma opcode_node_acc n F s q instr : (1 <= F)%nat -> tab s -> s_stop s = false ->
  nth_error (s_nodes s) q = Some (mkNode (KId n None) []) -> is_A n = true -> get_op_code (s_c02 s) (s_ill s) instr m_r = -1 ->
  let c := get_op_code (s_c02 s) (s_ill s) instr m_A in
  exists p s', opcode_node (expand F) instr m_a [q] s = Ok p s' /\ hv s s' /\
    obs s' = (if c <? 0 then set_errs (s_errs s + 1) (obs s) else obs s) /\
    nth_error (s_nodes s') p = Some (mkNode (KOp instr c m_A 0) []).
Proof.
  intros HF T St Q IA B c. destruct F as [|F]; [lia|]. unfold opcode_node. unfold bind at 1, op_code, gets. rewrite B. change (-1 =? -1) with true. cbv iota.
  unfold bind at 1. rewrite alloc_eq. set (p := length (s_nodes s)).
  set (s1 := set_nodes (s_nodes s ++ [mkNode (KOp instr 0 m_a 0) [q]]) s).
  assert (H1 : hv s s1) by (apply hv_alloc; [reflexivity|exact T]).
  assert (Lq : (q < p)%nat) by (apply nth_error_Some; congruence).
  assert (Q1 : nth_error (s_nodes s1) q = Some (mkNode (KId n None) [])).
  { unfold s1. cbn [s_nodes set_nodes]. rewrite nth_error_app1 by exact Lq. exact Q. }
  cbn [expand_all]. unfold bind at 1. unfold bind at 1. rewrite (eval_A F s1 q n St IA Q1). unfold ret at 1.
  assert (N1 : nth_error (s_nodes s1) p = Some (mkNode (KOp instr 0 m_a 0) [q])) by apply alloc_nth.
  assert (U : exists b, has_uninitialized p s1 = Ok b s1).
  { unfold has_uninitialized, bind, gets. cbn [has_uninit]. unfold bind, node_get, gets. unfold bind. rewrite N1. unfold ret. cbn [n_ops].
    unfold s1. cbn [s_nodes set_nodes]. rewrite app_length. cbn [length]. rewrite Nat.add_1_r. fold s1.
    cbn [has_uninit]. unfold bind, node_get, gets. unfold bind. rewrite Q1. unfold ret. cbn [n_ops].
    unfold is_uninit, bind, node_get, gets. unfold bind. rewrite Q1. unfold ret. cbn [n_kind]. eauto. }
  destruct U as (b & U). unfold bind at 1. rewrite U.
  assert (A : is_id_A q s1 = Ok true s1).
  { unfold is_id_A, node_get, gets, bind. rewrite Q1. unfold ret. cbn [n_kind]. unfold is_A in IA. rewrite IA. reflexivity. }
  unfold bind at 1. change (m_a =? m_a) with true. cbv iota. rewrite A. unfold bind at 1.
  change (get_op_code (s_c02 s1) (s_ill s1) instr m_A) with c. change (short_mode m_A) with m_A.
  assert (Z0 : (if negb (over 0 255) && negb b || (c =? -1) then m_A else m_A) = m_A) by (destruct (_ || _); reflexivity).
  rewrite Z0. unfold bind at 1. change (get_op_code (s_c02 s1) (s_ill s1) instr m_A) with c. change (m_A =? m_A) with true. cbn [negb andb removelast]. cbv iota.
  unfold bind at 1, node_set, modify.
  set (s3 := set_nodes (upd p (mkNode (KOp instr c m_A 0) []) (s_nodes s1)) s1).
  assert (H3 : hv s1 s3) by (eapply hv_node; [reflexivity|apply (h_tab _ _ H1)|exact N1|apply N2op]).
  assert (N3 : nth_error (s_nodes s3) p = Some (mkNode (KOp instr c m_A 0) [])) by (eapply upd_here, N1).
  assert (O3 : obs s3 = obs s) by (unfold s3; rewrite obs_set_nodes; unfold s1; apply obs_set_nodes).
  assert (Q3 : nth_error (s_nodes s3) q = Some (mkNode (KId n None) [])).
  { unfold s3. cbn [s_nodes set_nodes]. rewrite nth_upd_other by lia. exact Q1. }
  unfold bind at 1. unfold bind at 1. rewrite (eval_A F s3 q n ltac:(rewrite (obs_stop _ _ O3); exact St) IA Q3). unfold ret at 1.
  pose proof (hv_trans _ _ _ H1 H3) as H.
  unfold bind, when. destruct (c <? 0).
  - unfold err, modify, ret. exists p. eexists. split; [reflexivity|].
    split; [eapply hv_trans; [exact H|apply hv_err, (h_tab _ _ H3)]|].
    split; [obs_simp; rewrite O3, (obs_errs _ _ O3); reflexivity|exact N3].
  - unfold ret. exists p, s3. auto 10.
Qed.
(** ** Building an instruction with an operand *)
Definition ops_of (s : state) (instr : Z) : Z -> Z := get_op_code (s_c02 s) (s_ill s) instr.
Definition has_mode (s : state) (instr : Z) : Z -> bool := hasg (ops_of s instr).

(** the source mode and the operand of an instruction *)
Definition form_mode (f : opform) : option (Z * expr) :=
  match f with
  | FImp => None
  | FImm e => Some (m_I, e) | FAbs e => Some (m_a, e) | FAbsX e => Some (m_ax, e) | FAbsY e => Some (m_ay, e)
  | FInd e => Some (m_ind, e) | FIndX e => Some (m_aix, e) | FIndY e => Some (m_izy, e)
  end.
Lemma form_src f m e : form_mode f = Some (m, e) -> In m src_modes.
Proof. destruct f; cbn [form_mode]; intros H; inversion H; subst; cbn; auto 10. Qed.
Lemma build_op_form ex instr f m e s : form_mode f = Some (m, e) ->
  build_op ex instr f s = (n <-o build_expr e ;; some (opcode_node ex instr m [n])) s.
Proof. destruct f; cbn [form_mode]; intros H; inversion H; subst; reflexivity. Qed.

Lemma build_op_ok instr f m e v F s : form_mode f = Some (m, e) -> tab s -> s_stop s = false -> wfe e = true -> plain_expr s e ->
  not_A e -> (height e <= F)%nat -> known (meaning s) (s_pc s) e v ->
  let '(m2, c2) := build_mode (ops_of s instr) m v (unknown_name (meaning s) e) in
  exists p q s1, build_op (expand F) instr f s = Ok (Some p) s1 /\ hv s s1 /\
    obs s1 = (if c2 <? 0 then set_errs (s_errs s + 1) (obs s) else obs s) /\ rep (meaning s) false s1 q e /\
    nth_error (s_nodes s1) p = Some (mkNode (KOp instr c2 m2 0) [q]).
Proof.
  intros Hf T St W P NA HF K. destruct (build_mode _ _ _ _) as [m2 c2] eqn:BM.
  rewrite (build_op_form _ _ _ _ _ _ Hf). destruct (build_expr_rep e s T W P) as (q & s0 & E0 & V0 & Er & R & _).
  unfold bindo, bind at 1. rewrite E0.
  assert (O0 : obs s0 = obs s) by (rewrite (obs_evo _ _ V0), Er; rewrite <- (obs_get_errs s); apply errs_id).
  pose proof (opcode_node_ok (meaning s) true e v F s0 q instr m HF (e_tab _ _ V0)) as OK.
  assert (G0 : get_op_code (s_c02 s0) (s_ill s0) instr = ops_of s instr).
  { unfold ops_of. rewrite (obs_field s_c02 _ _ O0 obs_get_c02), (obs_field s_ill _ _ O0 obs_get_ill). reflexivity. }
  rewrite G0, BM in OK. rewrite (obs_pc _ _ O0), (obs_stop _ _ O0) in OK.
  destruct (OK St R K NA) as (p & s1 & E1 & H1 & O1 & R1 & N1 & _).
  exists p, q, s1. unfold some, bind. rewrite E1. unfold ret. split; [reflexivity|].
  split; [exact (hv_trans _ _ _ (hv_evo _ _ V0) H1)|]. rewrite O0, (obs_errs _ _ O0) in O1. auto.
Qed.

(** the bytes of an instruction with opcode [c] in mode [m] at [pc] with operand [v] *)
Definition code (c m pc v : Z) : list Z := c :: operand m pc v.

Lemma expand_op F s p i c m n l : s_stop s = false -> nth_error (s_nodes s) p = Some (mkNode (KOp i c m n) l) ->
  expand (S F) p s = x_op_code (expand F) p s.
Proof. intros St N. rewrite (expand_eq _ _ _ _ St N). reflexivity. Qed.

Lemma ops_range s instr k : -1 <= ops_of s instr k.
Proof. apply get_op_code_range. Qed.
Lemma has_nonneg s instr k : has_mode s instr k = true -> 0 <= ops_of s instr k.
Proof. unfold has_mode, hasg. intros H. apply negb_true_iff, Z.eqb_neq in H. pose proof (ops_range s instr k). lia. Qed.

Theorem instr_ok instr f m e v F s : form_mode f = Some (m, e) -> tab s -> s_stop s = false -> wfe e = true -> plain_expr s e ->
  not_A e -> (height e <= F)%nat -> known (meaning s) (s_pc s) e v -> unknown_name (meaning s) e = false ->
  usable (has_mode s instr) m = true -> 
  let '(k, bad) := select (has_mode s instr) m v in
  far k (s_pc s) v = false -> (s_final s = true -> no_gap (org s)) ->
  exists p s1 s2, build_op (expand F) instr f s = Ok (Some p) s1 /\ expand (S F) p s1 = Ok 0 s2 /\ hv s s2 /\
    obs s2 = step_op (code (ops_of s instr k) k (s_pc s) v) bad (obs s).
Proof.
  intros Hf T St W P NA HF K U Us. pose proof (build_op_ok instr f m e v F s Hf T St W P NA HF K) as OK. rewrite U in OK.
  destruct (select_ok (ops_of s instr) m v (form_src _ _ _ Hf) (ops_range s instr) Us) as (S1 & S2 & S3 & S4 & S5 & S6 & S7).
  fold (has_mode s instr) in *. destruct (build_mode _ _ _ _) as [m2 c2] eqn:BM. cbn [fst snd] in *.
  destruct (select (has_mode s instr) m v) as [k bad] eqn:Sel. intros Fr G.
  assert (C2 : 0 <= c2) by (rewrite S1; apply has_nonneg, S2).
  destruct OK as (p & q & s1 & E1 & H1 & O1 & R1 & N1). destruct (c2 <? 0) eqn:X; [apply Z.ltb_lt in X; lia|]. clear X.
  assert (St1 : s_stop s1 = false) by (rewrite (obs_stop _ _ O1); exact St).
  assert (P1 : s_pc s1 = s_pc s) by apply (obs_pc _ _ O1).
  assert (G1 : get_op_code (s_c02 s1) (s_ill s1) instr = ops_of s instr).
  { unfold ops_of. rewrite (obs_field s_c02 _ _ O1 obs_get_c02), (obs_field s_ill _ _ O1 obs_get_ill). reflexivity. }
  assert (Fr1 : far m2 (s_pc s) v = false).
  { destruct (Z.eqb_spec m2 m_r) as [->|Hn].
    - assert (k = m_r) as <-; [|exact Fr]. symmetry in S7. unfold select in Sel. rewrite S7 in Sel. congruence.
    - unfold far. rewrite (proj2 (Z.eqb_neq _ _) Hn). reflexivity. }
  destruct (x_op_code_ok (meaning s) e v F s1 p q instr c2 m2 0 HF (h_tab _ _ H1) St1 R1) as (s2 & E2 & H2 & O2 & N2).
  { rewrite P1. exact K. } { exact U. } { lia. } { intros Z. rewrite Z in S4. cbn in S4. rewrite andb_false_r in S4. discriminate. }
  { rewrite P1. exact Fr1. } { rewrite G1. exact S1. } { exact C2. }
  { intros Fn. rewrite (obs_field s_final _ _ O1 obs_get_final) in Fn. eapply no_gap_obs; [|exact (G Fn)]. rewrite !obs_org, O1. reflexivity. }
  { exact N1. }
  exists p, s1, s2. split; [exact E1|]. split; [rewrite (expand_op _ _ _ _ _ _ _ _ St1 N1); exact E2|].
  split; [exact (hv_trans _ _ _ H1 H2)|]. rewrite O2, G1, S3, O1, P1. cbn [fst snd]. reflexivity.
Qed.

(** ** Statements without the helpers of the proofs *)
Definition ready (s : state) : Prop :=
  table_ok s /\ (forall k, valids k -> single s k) /\ (forall c, s_scope s = Some c -> valids c) /\ s_stop s = false.
(** [e] has the value [v]: its names are plain and have values, no division by zero is met.  && and || are left out
    (they do not look at their second operand when the first decides); [A] alone is the accumulator. *)
Definition operand_value (s : state) (e : expr) (v : Z) : Prop :=
  wfe e = true /\ plain_names s e /\ eager e = true /\ not_A e /\
  (forall n, In n (names e) -> exists y, resolve s (s_scope s) n = Some y /\ y_init y = true) /\
  sem (value_of s) (s_pc s) e = Some (v, 0).
(** the next byte of the output is the one at the program counter, or a later one *)
Definition no_hole (s : state) : Prop := s_pc s <= s_origin s + s_total s.

(** the bytes [l] are written (in the final pass, with the file open and an origin known; a C64 file starts with the
    load address), the program counter moves by their number.  The output is kept last byte first. *)
Definition emits (l : list Z) (s s' : state) : Prop :=
  s_pc s' = s_pc s + Z.of_nat (length l) /\
  s_out s' = (if s_final s && s_opened s && (s_org_spec s || (0 <? s_pc_assigned s))
              then rev l ++ (if (s_total s =? 0) && s_c64 s then [s_origin s / 256 mod 256; s_origin s mod 256] else []) ++ s_out s
              else s_out s).
Definition byte (v : Z) : Z := v mod 256.

Lemma ready_tab s : ready s -> tab s /\ s_stop s = false.
Proof. intros (A & B & C & D). split; [split; auto|auto]. Qed.
Lemma operand_known s e v : operand_value s e v ->
  wfe e = true /\ plain_expr s e /\ not_A e /\ known (meaning s) (s_pc s) e v /\ unknown_name (meaning s) e = false.
Proof.
  intros (W & P & Eg & NA & I & V). split; [exact W|]. split; [apply plain_names_expr, P|]. split; [exact NA|].
  split; [split; [|exact Eg]|].
  - rewrite <- V. apply sem_ext. intros n _. symmetry. apply value_of_env.
  - unfold unknown_name. apply Bool.not_true_iff_false. intros X. apply existsb_exists in X as (n & Hn & X).
    destruct (I n Hn) as (y & Hy & Yi). unfold meaning, core, ycore, cuninit in X. rewrite Hy, Yi in X. destruct (_ || _); discriminate.
Qed.
Lemma no_hole_gap s : no_hole s -> no_gap (org s).
Proof.
  intros H _. destruct (org_same s) as (_ & P & _). rewrite P.
  assert (X : s_origin (org s) = s_origin s /\ s_total (org s) = s_total s /\ s_c64 (org s) = s_c64 s) by (unfold org; destruct (0 <? _); auto).
  destruct X as (X1 & X2 & X3). rewrite X1. unfold no_hole in H.
  assert (s_total (org s) <= s_total (header (org s))).
  { unfold header. destruct ((s_total (org s) =? 0) && s_c64 (org s)); [|lia]. unfold put. cbn [s_total set_out set_total length]. lia. }
  lia.
Qed.
Lemma value_of_hv s s' n : hv0 s s' -> plain n -> value_of s' n = value_of s n.
Proof. intros H P. rewrite !value_of_env, (h_res _ _ H) by auto. reflexivity. Qed.

Lemma out_put l s : s_out (put l s) = rev (map byte l) ++ s_out s.
Proof. reflexivity. Qed.
Lemma out_header s : s_out (header s) = (if (s_total s =? 0) && s_c64 s then [s_origin s / 256 mod 256; s_origin s mod 256] else []) ++ s_out s.
Proof. unfold header. destruct ((s_total s =? 0) && s_c64 s); reflexivity. Qed.
Lemma org_more s : s_origin (org s) = s_origin s /\ s_total (org s) = s_total s /\ s_c64 (org s) = s_c64 s /\
  s_opened (org s) = s_opened s /\ s_org_spec (org s) = s_org_spec s || (0 <? s_pc_assigned s) /\ s_out (org s) = s_out s /\ s_warns (org s) = s_warns s.
Proof. unfold org. destruct (0 <? _); [rewrite orb_true_r|rewrite orb_false_r]; cbn; auto 10. Qed.

Lemma step_op_emits l bad s s' : obs s' = step_op l bad (obs s) ->
  emits (map byte l) s s' /\ s_errs s' = s_errs s + (if bad then 1 else 0).
Proof.
  intros O. unfold step_op in O. rewrite <- obs_org in O.
  destruct (org_same s) as (_ & D2 & _ & _ & _ & D6 & D7). destruct (org_more s) as (D1 & D3 & D4 & D5 & D8 & D9 & _).
  set (s2 := if bad then set_errs (s_errs (org s) + 1) (org s) else org s).
  assert (O' : obs s' = obs (let s3 := if s_final s then writes l s2 else s2 in
     set_code_gen (s_code_gen s3 + Z.of_nat (length l)) (set_pc (s_pc s3 + Z.of_nat (length l)) s3))).
  { assert (A2 : obs s2 = if bad then set_errs (s_errs (obs (org s)) + 1) (obs (org s)) else obs (org s)).
    { unfold s2. destruct bad; [|reflexivity]. rewrite obs_set_errs, obs_get_errs. reflexivity. }
    rewrite obs_get_final in O. rewrite O, <- A2. cbv zeta.
    assert (A3 : (if s_final s then writes l (obs s2) else obs s2) = obs (if s_final s then writes l s2 else s2)).
    { destruct (s_final s); [rewrite obs_writes|]; reflexivity. }
    rewrite A3, obs_set_code_gen, obs_set_pc, obs_get_code_gen, obs_get_pc. reflexivity. }
  clear O. rename O' into O.
  assert (B : s_out s2 = s_out s /\ s_pc s2 = s_pc s /\ s_opened s2 = s_opened s /\ s_org_spec s2 = s_org_spec s || (0 <? s_pc_assigned s) /\
     s_total s2 = s_total s /\ s_c64 s2 = s_c64 s /\ s_origin s2 = s_origin s /\ s_errs s2 = s_errs s + (if bad then 1 else 0)).
  { unfold s2. destruct bad; cbn [s_out s_pc s_opened s_org_spec s_total s_c64 s_origin s_errs set_errs]; rewrite ?D1, ?D2, ?D3, ?D4, ?D5, ?D7, ?D8, ?D9, ?Z.add_0_r; auto 10. }
  destruct B as (B1 & B2 & B3 & B4 & B5 & B6 & B7 & B8).
  pose proof (f_equal s_pc O) as X1. pose proof (f_equal s_out O) as X2. pose proof (f_equal s_errs O) as X3.
  rewrite !obs_get_pc in X1. rewrite !obs_get_out in X2. rewrite !obs_get_errs in X3.
  cbn [s_pc s_out s_errs set_code_gen set_pc] in X1, X2, X3. destruct (writes_same l s2) as (Y1 & _ & Y2 & _).
  split; [split|].
  - rewrite map_length, X1. destruct (s_final s); rewrite ?Y1, B2; reflexivity.
  - rewrite X2. destruct (s_final s); [|exact B1]. cbn [andb]. unfold writes. rewrite B3, B4.
    destruct (s_opened s && _); [|exact B1]. rewrite out_put, out_header, B1, B5, B6, B7. reflexivity.
  - rewrite X3. destruct (s_final s); rewrite ?Y2; exact B8.
Qed.

(** one instruction with an operand *)
Theorem instruction instr f m e v F s : form_mode f = Some (m, e) -> ready s -> operand_value s e v -> (height e <= F)%nat ->
  usable (has_mode s instr) m = true -> (s_final s = true -> no_hole s) ->
  let '(k, bad) := select (has_mode s instr) m v in
  (k = m_r -> -127 <= v - (s_pc s + 2) <= 128) ->
  exists p s1 s2, build_op (expand F) instr f s = Ok (Some p) s1 /\ expand (S F) p s1 = Ok 0 s2 /\
    emits (map byte (code (ops_of s instr k) k (s_pc s) v)) s s2 /\ s_errs s2 = s_errs s + (if bad then 1 else 0) /\
    (forall n, plain n -> value_of s2 n = value_of s n).
Proof.
  intros Hf Rd OV HF Us NH. destruct (ready_tab _ Rd) as [T St]. destruct (operand_known _ _ _ OV) as (W & P & NA & K & U).
  pose proof (instr_ok instr f m e v F s Hf T St W P NA HF K U Us) as I.
  destruct (select (has_mode s instr) m v) as [k bad]. intros Rg.
  destruct I as (p & s1 & s2 & E1 & E2 & H & O).
  { unfold far. destruct (Z.eqb_spec k m_r) as [E|]; [|reflexivity]. specialize (Rg E). cbn [andb]. apply orb_false_iff. split; apply Z.ltb_ge; lia. }
  { intros Fn. apply no_hole_gap, NH, Fn. }
  exists p, s1, s2. destruct (step_op_emits _ _ _ _ O) as [Em Er]. split; [exact E1|]. split; [exact E2|]. split; [exact Em|].
  split; [exact Er|]. intros n Hn. apply value_of_hv; [apply h_base|]; auto.
Qed.
