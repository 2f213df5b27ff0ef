(** What defining and using a + or - label does (expand.cc x_equ, x_plus_minus). *)
From Coq Require Import String Lia Permutation Sorting.Sorted.
From Verif Require Import Base BaseProofs Hash Dict DictProofs Str Opcodes Err State Sym Machine SymProofs SymMore.
Open Scope list_scope.
Open Scope Z_scope.
Open Scope m_scope.

Definition here (file : cstr) (line : Z) (e : pmsym) : Prop := stricmp file (pm_file e) = 0 /\ pm_line e = line.

Lemma sorted_filter {A} (R : A -> A -> Prop) (P : A -> bool) t : StronglySorted R t -> StronglySorted R (filter P t).
Proof.
  induction 1 as [|x t S IH F]; cbn [filter]; [constructor|]. destruct (P x); [|exact IH]. constructor; [exact IH|].
  rewrite Forall_forall in *. intros y Hy. apply filter_In in Hy. apply F, Hy.
Qed.
Lemma sorted_last {A} (R : A -> A -> Prop) t e x : StronglySorted R t -> nth_error (rev t) 0 = Some e -> In x t -> x = e \/ R x e.
Proof.
  intros S N I. destruct (rev t) as [|y r] eqn:E; [discriminate|]. injection N as ->.
  assert (T : t = rev r ++ [e]) by (rewrite <- (rev_involutive t), E; reflexivity). subst t. clear E.
  apply in_app_or in I. destruct I as [I|[->|[]]]; [right|auto].
  induction (rev r) as [|z l IH]; [destruct I|]. inversion S as [|? ? S1 F]; subst. destruct I as [->|I]; [|auto].
  rewrite Forall_forall in F. apply F, in_or_app. right. left. reflexivity.
Qed.
Lemma sorted_first {A} (R : A -> A -> Prop) t e x : StronglySorted R t -> nth_error t 0 = Some e -> In x t -> x = e \/ R e x.
Proof.
  intros S N I. destruct t as [|y r]; [discriminate|]. injection N as ->. destruct I as [->|I]; [auto|].
  inversion S as [|? ? S1 F]; subst. rewrite Forall_forall in F. auto.
Qed.
Lemma here_fk file line e : valids file -> valids (pm_file e) -> here file line e -> fk file = fk (pm_file e).
Proof. intros V1 V2 [H _]. apply stricmp_0_iff; auto. Qed.
Lemma here_cmp a b : valids (pm_file a) -> valids (pm_file b) -> fk (pm_file a) = fk (pm_file b) -> pm_line a = pm_line b -> pm_cmp a b = 0.
Proof. intros Va Vb E L. unfold pm_cmp. apply (proj2 (stricmp_0_iff _ _ Va Vb)) in E. rewrite E. cbn. lia. Qed.
Lemma one_here t file line a b : pm_sorted t -> valids file -> In a t -> In b t -> here file line a -> here file line b -> a = b.
Proof.
  intros [S V] Vf Ia Ib Ha Hb. rewrite Forall_forall in V. pose proof (V _ Ia) as Va. pose proof (V _ Ib) as Vb.
  assert (E : fk (pm_file a) = fk (pm_file b)) by (rewrite <- (here_fk _ _ _ Vf Va Ha); apply (here_fk _ _ _ Vf Vb Hb)).
  assert (L : pm_line a = pm_line b) by (destruct Ha, Hb; congruence).
  pose proof (here_cmp _ _ Va Vb E L) as C1. pose proof (here_cmp _ _ Vb Va (eq_sym E) (eq_sym L)) as C2. clear Ha Hb V.
  induction S as [|x t S IH F]; [destruct Ia|]. rewrite Forall_forall in F.
  destruct Ia as [->|Ia], Ib as [->|Ib]; auto; [specialize (F _ Ib)|specialize (F _ Ia)]; lia.
Qed.

Definition index_here (minus : bool) (t : list pmsym) (file : cstr) (line : Z) : Z :=
  if minus then find_minus t 1 file line else find_plus t 1 file (line - 1).
Lemma find_here minus t file line e : pm_sorted t -> valids file -> In e t -> here file line e ->
  0 <= index_here minus t file line /\ nth_error t (Z.to_nat (index_here minus t file line)) = Some e.
Proof.
  intros S V I H. pose proof S as [S1 V1]. rewrite Forall_forall in V1. pose proof (V1 _ I) as Ve. pose proof H as [H1 H2]. unfold index_here. destruct minus.
  - assert (Ic : In e (minus_cands t file line)) by (apply filter_In; split; [exact I|unfold in_file; rewrite H1; cbn; lia]).
    destruct (find_minus_nth t 1 file line S V) as (A & B & C). { destruct (minus_cands t file line); [destruct Ic|cbn; lia]. }
    split; [exact A|]. rewrite B. change (Z.to_nat (1 - 1)) with O in *. destruct (nth_error (rev (minus_cands t file line)) 0) as [e1|] eqn:N; [|congruence]. f_equal.
    destruct (sorted_last _ _ _ _ (sorted_filter _ _ _ S1) N Ic) as [->|R]; [reflexivity|]. exfalso.
    assert (I1 : In e1 (minus_cands t file line)) by (apply in_rev; eapply nth_error_In; exact N). apply filter_In in I1. destruct I1 as [I1 P]. apply andb_true_iff in P. destruct P as [P1 P2].
    apply (in_file_eq _ _ V (V1 _ I1)) in P1. pose proof (here_fk _ _ _ V Ve H). pose proof (pm_lt_same _ _ Ve (V1 _ I1) ltac:(congruence) R). lia.
  - assert (Ic : In e (plus_cands t file (line - 1))) by (apply filter_In; split; [exact I|unfold in_file; rewrite H1; cbn; lia]).
    destruct (find_plus_nth t 1 file (line - 1) S V) as (A & B & C). { destruct (plus_cands t file (line - 1)); [destruct Ic|cbn; lia]. }
    split; [exact A|]. rewrite B. change (Z.to_nat (1 - 1)) with O in *. destruct (nth_error (plus_cands t file (line - 1)) 0) as [e1|] eqn:N; [|congruence]. f_equal.
    destruct (sorted_first _ _ _ _ (sorted_filter _ _ _ S1) N Ic) as [->|R]; [reflexivity|]. exfalso.
    assert (I1 : In e1 (plus_cands t file (line - 1))) by (eapply nth_error_In; exact N). apply filter_In in I1. destruct I1 as [I1 P]. apply andb_true_iff in P. destruct P as [P1 P2].
    apply (in_file_eq _ _ V (V1 _ I1)) in P1. pose proof (here_fk _ _ _ V Ve H). pose proof (pm_lt_same _ _ (V1 _ I1) Ve ltac:(congruence) R). lia.
Qed.

(** giving a label another value *)
Lemma upd_split {A} (y e : A) t : forall k, nth_error t k = Some e -> exists l1 l2, t = l1 ++ e :: l2 /\ upd k y t = l1 ++ y :: l2.
Proof.
  induction t as [|x t IH]; intros [|k] N; try discriminate.
  - injection N as ->. exists [], t. split; reflexivity.
  - destruct (IH k N) as (l1 & l2 & E1 & E2). exists (x :: l1), l2. cbn [upd app]. rewrite <- E1, E2. split; reflexivity.
Qed.
Lemma swap_sorted e y l1 l2 : pm_file y = pm_file e -> pm_line y = pm_line e -> pm_sorted (l1 ++ e :: l2) -> pm_sorted (l1 ++ y :: l2).
Proof.
  intros Hf Hl [S V]. assert (C1 : forall x, pm_cmp x y = pm_cmp x e) by (intros; unfold pm_cmp; rewrite Hf, Hl; reflexivity).
  assert (C2 : forall x, pm_cmp y x = pm_cmp e x) by (intros; unfold pm_cmp; rewrite Hf, Hl; reflexivity). split.
  - clear V. induction l1 as [|x l1 IH]; cbn [app] in *; inversion S as [|? ? S1 F]; subst; constructor; auto; rewrite Forall_forall in *; intros z Hz.
    + rewrite C2. apply F, Hz.
    + apply in_app_or in Hz. destruct Hz as [Hz|[<-|Hz]]; [apply F, in_or_app; auto|rewrite C1; apply F, in_or_app; right; left; reflexivity|apply F, in_or_app; right; right; exact Hz].
  - rewrite Forall_forall in *. intros z Hz. apply in_app_or in Hz. destruct Hz as [Hz|[<-|Hz]]; [apply V, in_or_app; auto|rewrite Hf; apply V, in_or_app; right; left; reflexivity|apply V, in_or_app; right; right; exact Hz].
Qed.

Lemma find_def_some t file line : forall i j, find_def t file line i = Some j -> exists e, In e t /\ pm_cmp e (mkPm file line 0) = 0.
Proof.
  induction t as [|x t IH]; intros i j H; [discriminate|]. cbn [find_def] in H. destruct (Z.eqb_spec (pm_cmp x (mkPm file line 0)) 0) as [E|_].
  - exists x. split; [left; reflexivity|exact E].
  - destruct (IH _ _ H) as (e & I & E). exists e. split; [right; exact I|exact E].
Qed.
Lemma cmp_here file line e : valids file -> valids (pm_file e) -> pm_cmp e (mkPm file line 0) = 0 <-> here file line e.
Proof.
  intros V Ve. unfold pm_cmp, here. cbn [pm_file pm_line]. pose proof (stricmp_0_iff _ _ V Ve) as I1. pose proof (stricmp_0_iff _ _ Ve V) as I2.
  cbv zeta. destruct (Z.eqb_spec (stricmp (pm_file e) file) 0) as [E|E].
  - assert (stricmp file (pm_file e) = 0) by (apply I1; symmetry; apply I2, E). split; [intros; split; [assumption|lia]|intros [_ ?]; lia].
  - split; [intros X; contradiction|]. intros [X _]. exfalso. apply E, I2. symmetry. apply I1, X.
Qed.
Lemma pm_table_set minus t s : pm_table minus (set_pm_table minus t s) = t. Proof. destruct minus; reflexivity. Qed.
Lemma pm_table_other minus t s : pm_table (negb minus) (set_pm_table minus t s) = pm_table (negb minus) s. Proof. destruct minus; reflexivity. Qed.
Lemma set_pm_file minus t s : s_file (set_pm_table minus t s) = s_file s /\ s_line (set_pm_table minus t s) = s_line s /\ s_changed (set_pm_table minus t s) = s_changed s.
Proof. destruct minus; repeat split. Qed.
Lemma pm_table_changed minus c s : pm_table minus (set_changed c s) = pm_table minus s. Proof. destruct minus; reflexivity. Qed.

(** the second half: the label is in the table *)
Definition store (minus : bool) (name : cstr) (op : Z) (file : cstr) (line : Z) : M Z :=
  t <- gets (pm_table minus) ;;
  let depth := Z.of_nat (length name) in
  let index := if minus then find_minus t depth file line else find_plus t depth file (line - 1) in
  (if 0 <=? index then
     match nth_error t (Z.to_nat index) with
     | None => ub UbIndex
     | Some e =>
         when (negb (pm_value e =? op))
           (modify (set_pm_table minus (upd (Z.to_nat index) (mkPm (pm_file e) (pm_line e) op) t)) ;;;
            modify (fun s => set_changed (s_changed s + 1) s))
     end
   else ret tt) ;;;
  ret op.
Definition stored (minus : bool) (op : Z) (file : cstr) (line : Z) (t : list pmsym) (s' : state) : Prop :=
  pm_sorted (pm_table minus s') /\ (exists e, In e (pm_table minus s') /\ here file line e) /\
  (forall e, In e (pm_table minus s') -> here file line e -> pm_value e = op) /\
  (forall e, ~ here file line e -> In e (pm_table minus s') <-> In e t).
Lemma store_ok minus c op file line e s : pm_sorted (pm_table minus s) -> valids file -> In e (pm_table minus s) -> here file line e ->
  exists s', store minus [c] op file line s = Ok op s' /\ stored minus op file line (pm_table minus s) s' /\ pm_table (negb minus) s' = pm_table (negb minus) s /\
    s_changed s' = s_changed s + (if pm_value e =? op then 0 else 1).
Proof.
  intros S V I H. destruct (find_here minus _ _ _ _ S V I H) as [A N]. unfold store, bind, gets, ret. cbn [length]. change (Z.of_nat 1) with 1.
  change (if minus then find_minus (pm_table minus s) 1 file line else find_plus (pm_table minus s) 1 file (line - 1)) with (index_here minus (pm_table minus s) file line).
  rewrite (proj2 (Z.leb_le _ _) A), N. destruct (Z.eqb_spec (pm_value e) op) as [E|E]; cbn [negb when].
  - eexists. split; [reflexivity|]. split; [|split; [reflexivity|lia]]. split; [exact S|]. split; [exists e; auto|]. split; [|tauto].
    intros x Ix Hx. rewrite (one_here _ _ _ _ _ S V Ix I Hx H). exact E.
  - unfold modify, bind. eexists. split; [reflexivity|]. set (y := mkPm (pm_file e) (pm_line e) op).
    destruct (upd_split y e _ _ N) as (l1 & l2 & E1 & E2). rewrite E2. unfold stored. rewrite !pm_table_changed, pm_table_set, pm_table_other.
    assert (Hy : here file line y) by exact H. rewrite E1 in S. pose proof (swap_sorted e y l1 l2 eq_refl eq_refl S) as Sy.
    assert (Iy : In y (l1 ++ y :: l2)) by (apply in_or_app; right; left; reflexivity).
    split; [|split; [reflexivity|destruct minus; cbn; lia]]. split; [exact Sy|]. split; [exists y; auto|]. split.
    + intros x Ix Hx. rewrite (one_here _ _ _ _ _ Sy V Ix Iy Hx Hy). reflexivity.
    + intros x Hx. rewrite E1. rewrite !in_app_iff. cbn [In]. split; (intros [X|[X|X]]; [auto| |auto]); subst; contradiction.
Qed.

Theorem equ_pm_ok minus c op s : pm_sorted (pm_table minus s) -> valids (s_file s) -> s_mstack s = [] ->
  exists s', equ_pm minus [c] op s = Ok op s' /\ stored minus op (s_file s) (s_line s) (pm_table minus s) s' /\ pm_table (negb minus) s' = pm_table (negb minus) s /\
    ((forall e, In e (pm_table minus s) -> here (s_file s) (s_line s) e -> pm_value e = op) -> s_changed s' = s_changed s) /\
    (forall e, In e (pm_table minus s) -> here (s_file s) (s_line s) e -> pm_value e <> op -> s_changed s' = s_changed s + 1).
Proof.
  intros S V M. pose proof S as [S1 V1]. rewrite Forall_forall in V1. set (file := s_file s) in *. set (line := s_line s) in *.
  assert (E0 : equ_pm minus [c] op s = (match find_def (pm_table minus s) file line 0 with None => add_pm minus file line op | Some _ => ret tt end ;;; store minus [c] op file line) s) by reflexivity.
  rewrite E0. clear E0. destruct (find_def (pm_table minus s) file line 0) as [j|] eqn:Fd.
  - destruct (find_def_some _ _ _ _ _ Fd) as (e & I & C). apply (cmp_here _ _ _ V (V1 _ I)) in C.
    destruct (store_ok minus c op file line e s S V I C) as (s' & E & St & O & Ch). exists s'. unfold bind at 1, ret at 1. split; [exact E|]. split; [exact St|]. split; [exact O|]. split.
    + intros A. rewrite Ch, (A e I C), Z.eqb_refl. lia.
    + intros x Ix Hx N. rewrite (one_here _ _ _ _ _ S V Ix I Hx C) in N. rewrite Ch. apply Z.eqb_neq in N. rewrite N. reflexivity.
  - set (e := mkPm file line op). set (s1 := set_pm_table minus (pm_insert e (pm_table minus s)) s).
    assert (E1 : add_pm minus file line op s = Ok tt s1) by (unfold add_pm, bind, gets; rewrite M; reflexivity).
    unfold bind at 1. rewrite E1.
    assert (T1 : pm_table minus s1 = pm_insert e (pm_table minus s)) by apply pm_table_set.
    assert (Sn : pm_sorted (pm_table minus s1)) by (rewrite T1; apply pm_insert_sorted; assumption).
    assert (I : In e (pm_table minus s1)) by (rewrite T1; apply pm_insert_in; auto).
    assert (He : here file line e) by (split; [apply stricmp_0_iff; auto|reflexivity]).
    destruct (store_ok minus c op file line e s1 Sn V I He) as (s' & E & St & O & Ch). exists s'. split; [exact E|].
    assert (No : forall x, In x (pm_table minus s) -> ~ here file line x).
    { intros x Ix Hx. apply (find_def_none _ _ _ _ Fd x Ix). apply cmp_here; auto. }
    change (pm_value e) with op in Ch. rewrite Z.eqb_refl in Ch. destruct (set_pm_file minus (pm_insert e (pm_table minus s)) s) as (_ & _ & X). fold s1 in X.
    split; [|split; [rewrite O; apply pm_table_other|split; [intros _; lia|intros x Ix Hx; destruct (No x Ix Hx)]]].
    destruct St as (A & B & C & D). split; [exact A|]. split; [exact B|]. split; [exact C|]. intros x Hx. rewrite (D x Hx), T1, pm_insert_in. split; [|auto].
    intros [->|?]; [contradiction|assumption].
Qed.

(** the statement [- = e] or [+ = e], which is also how a label on a line of its own is defined *)
Theorem equ_ok (ex : nat -> M Z) (minus lab : bool) n0 n1 i l op s0 s : ex n1 s0 = Ok op s ->
  nth_error (s_nodes s) n0 = Some (mkNode (if lab then KLabel [if minus then 45 else 43] i else KId [if minus then 45 else 43] i) l) ->
  x_equ ex (mkNode (KOpr OEqu) [n0; n1]) s0 = equ_pm minus [if minus then 45 else 43] op s.
Proof.
  intros E N. unfold x_equ, opn. cbn [n_ops nth_error]. unfold bind at 1, ret at 1. unfold bind at 1. rewrite E. unfold bind at 1, ret at 1.
  unfold bind at 1, node_get. unfold bind at 1, gets. rewrite N. unfold ret at 1. destruct lab, minus; reflexivity.
Qed.

(** using a label gives its value *)
Theorem used_ok p x mk name i s v s' e : pm_valid name = true ->
  let minus := hd0 name =? 45 in let t := pm_table minus s in let index := if minus then find_minus t (Z.of_nat (length name)) (s_file s) (s_line s) else find_plus t (Z.of_nat (length name)) (s_file s) (s_line s) in
  0 <= index -> nth_error t (Z.to_nat index) = Some e -> x_plus_minus p x mk name i s = Ok v s' -> v = pm_value e.
Proof.
  intros Pv minus t index I N E. unfold x_plus_minus in E. rewrite Pv in E. cbn [negb] in E. unfold bind at 1 2 3, gets at 1 2 3 in E.
  fold minus in E. cbv zeta in E. fold t in E. change (if minus then find_minus t (Z.of_nat (length name)) (s_file s) (s_line s) else find_plus t (Z.of_nat (length name)) (s_file s) (s_line s)) with index in E.
  unfold bind at 1 in E. destruct (match i with Some a => ret (Some a) | None => add_symbol name end s) as [[a|] s1| | |]; try discriminate.
  unfold bind at 1, sym_get at 1 in E. unfold bind at 1, gets at 1 in E. destruct (nth_error (s_syms s1) a) as [y|] eqn:Y; [|discriminate]. unfold ret at 1 in E.
  rewrite (proj2 (Z.leb_le _ _) I), N in E. unfold sym_set, node_set, modify, bind, sym_get, gets, bind in E. cbn [s_syms set_nodes set_syms] in E.
  rewrite upd_nth_eq in E by (apply nth_error_Some; congruence). injection E as <- _. reflexivity.
Qed.
