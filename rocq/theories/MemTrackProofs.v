From Verif Require Import Base BaseProofs MemTrack.

(** ** Specification: the blocks the client owns *)
Definition blocks := list (Z * Z).      (* address, size *)

Fixpoint bsize (b : blocks) (p : Z) : option Z :=
  match b with [] => None | (k, s) :: b' => if k =? p then Some s else bsize b' p end.
Fixpoint bremove (b : blocks) (p : Z) : blocks :=
  match b with [] => [] | (k, s) :: b' => if k =? p then b' else (k, s) :: bremove b' p end.
Fixpoint bset (b : blocks) (p s' : Z) : blocks :=
  match b with [] => [] | (k, s) :: b' => if k =? p then (k, s') :: b' else (k, s) :: bset b' p s' end.

Fixpoint btotal (b : blocks) : Z := match b with [] => 0 | (_, s) :: b' => s + btotal b' end.

(** A well-behaved client whose blocks are never moved: [seen] are the addresses handed out so far *)
Fixpoint client (seen : list Z) (b : blocks) (os : list mop) : option (list Z * blocks) :=
  match os with
  | [] => Some (seen, b)
  | MMalloc s a :: os' => if existsb (Z.eqb a) seen then None else client (a :: seen) ((a, s) :: b) os'
  | MRealloc p s a :: os' =>
      match bsize b p with
      | Some _ => if a =? p then client seen (bset b p s) os' else None
      | None => None
      end
  | MFree p :: os' => match bsize b p with Some _ => client seen (bremove b p) os' | None => None end
  end.

Definition live (t : list (Z * mentry)) : blocks :=
  flat_map (fun ke => if e_deleted (snd ke) =? 0 then [(fst ke, e_size (snd ke))] else []) t.

Lemma mfind_none t p : ~ In p (map fst t) -> mfind t p = None.
Proof.
  induction t as [|[k e] t IH]; cbn [map fst mfind In]; intros H; [reflexivity|].
  destruct (Z.eqb_spec k p); [tauto|]. apply IH. tauto.
Qed.

Lemma bsize_live_in t p s : bsize (live t) p = Some s -> In p (map fst t).
Proof.
  induction t as [|[k e] t IH]; cbn [live flat_map map fst snd]; [discriminate|].
  destruct (e_deleted e =? 0); cbn [app bsize].
  - destruct (Z.eqb_spec k p); [now left|]. intros H. right. now apply IH.
  - intros H. right. now apply IH.
Qed.

Lemma mfind_live t p s : NoDup (map fst t) -> bsize (live t) p = Some s ->
  exists e, mfind t p = Some e /\ e_size e = s /\ e_deleted e = 0.
Proof.
  induction t as [|[k e] t IH]; cbn [live flat_map map fst snd mfind]; intros HN; [discriminate|].
  inversion HN; subst. destruct (Z.eqb_spec (e_deleted e) 0); cbn [app bsize].
  - destruct (Z.eqb_spec k p); [intros [= <-]; eauto|]. now apply IH.
  - intros H. destruct (Z.eqb_spec k p) as [->|]; [exfalso; eapply H1, bsize_live_in; exact H|]. now apply IH.
Qed.

Lemma mset_fst t p e : map fst (mset t p e) = map fst t.
Proof. induction t as [|[k e0] t IH]; cbn [mset map fst]; [reflexivity|]. destruct (k =? p); cbn [map fst]; congruence. Qed.

Lemma live_set t p e s0 s : NoDup (map fst t) -> bsize (live t) p = Some s0 -> e_deleted e = 0 -> e_size e = s ->
  live (mset t p e) = bset (live t) p s.
Proof.
  intros HN HB He Hs. revert HB. induction t as [|[k e0] t IH]; cbn [live flat_map fst snd mset]; [discriminate|].
  inversion HN; subst. intros HB. destruct (Z.eqb_spec k p) as [->|Hk].
  - destruct (Z.eqb_spec (e_deleted e0) 0) as [H0|H0].
    + cbn [flat_map fst snd app bset]. rewrite He, !Z.eqb_refl. reflexivity.
    + cbn [app] in HB. exfalso. eapply H1, bsize_live_in. exact HB.
  - destruct (Z.eqb_spec (e_deleted e0) 0) as [H0|H0]; cbn [flat_map fst snd app bset bsize] in *.
    + rewrite H0. cbn [Z.eqb app]. destruct (Z.eqb_spec k p); [congruence|]. f_equal. now apply IH.
    + destruct (Z.eqb_spec (e_deleted e0) 0); [congruence|]. cbn [app]. now apply IH.
Qed.

Lemma live_del t p e s0 : NoDup (map fst t) -> bsize (live t) p = Some s0 -> e_deleted e <> 0 ->
  live (mset t p e) = bremove (live t) p.
Proof.
  intros HN HB He. revert HB. induction t as [|[k e0] t IH]; cbn [live flat_map fst snd mset]; [discriminate|].
  inversion HN; subst. intros HB. destruct (Z.eqb_spec k p) as [->|Hk].
  - destruct (Z.eqb_spec (e_deleted e0) 0) as [H0|H0].
    + cbn [flat_map fst snd app bremove]. destruct (Z.eqb_spec (e_deleted e) 0); [congruence|]. rewrite Z.eqb_refl. reflexivity.
    + cbn [app] in HB. exfalso. eapply H1, bsize_live_in. exact HB.
  - destruct (Z.eqb_spec (e_deleted e0) 0) as [H0|H0]; cbn [flat_map fst snd app bremove bsize] in *.
    + rewrite H0. cbn [Z.eqb app]. destruct (Z.eqb_spec k p); [congruence|]. f_equal. now apply IH.
    + destruct (Z.eqb_spec (e_deleted e0) 0); [congruence|]. cbn [app]. now apply IH.
Qed.

Lemma btotal_set b p s0 s : bsize b p = Some s0 -> btotal (bset b p s) = btotal b - s0 + s.
Proof.
  induction b as [|[k x] b IH]; cbn [bsize bset btotal]; [discriminate|].
  destruct (k =? p); cbn [btotal]; [intros [= <-]; lia|]. intros H. rewrite IH by exact H. lia.
Qed.

Lemma btotal_remove b p s0 : bsize b p = Some s0 -> btotal (bremove b p) = btotal b - s0.
Proof.
  induction b as [|[k x] b IH]; cbn [bsize bremove btotal]; [discriminate|].
  destruct (k =? p); cbn [btotal]; [intros [= <-]; lia|]. intros H. rewrite IH by exact H. lia.
Qed.

Definition minv (seen : list Z) (b : blocks) (m : mstate) : Prop :=
  NoDup (map fst (tab m)) /\ (forall p, In p (map fst (tab m)) -> In p seen) /\ live (tab m) = b /\ m_total m = btotal b.

Lemma mem_run_client os : forall seen b m seen' b', minv seen b m -> client seen b os = Some (seen', b') ->
  exists m', mem_run m os = Some m' /\ minv seen' b' m' /\ m_errors m' = m_errors m.
Proof.
  induction os as [|o os IH]; intros seen b m seen' b' (HN & HS & HL & HT); cbn [client mem_run].
  - intros [= <- <-]. exists m. repeat split; assumption.
  - destruct o as [s a|p s a|p]; cbn [mem_step].
    + destruct (existsb (Z.eqb a) seen) eqn:E; [discriminate|]. intros HC.
      apply IH with (m := pasm_malloc s a m) in HC as (m' & R & I & E'); [exists m'; repeat split; try apply I; try assumption|].
      assert (~ In a seen) as Hna. { intros HI. assert (existsb (Z.eqb a) seen = true); [|congruence]. apply existsb_exists. exists a. split; [exact HI|apply Z.eqb_refl]. }
      unfold minv, pasm_malloc, tab; cbn [m_tab m_total map fst live flat_map snd e_deleted e_size Z.eqb app btotal].
      fold (live (tab m)). fold (tab m). repeat split.
      * constructor; [|exact HN]. intros HI. now apply Hna, HS.
      * intros p [->|HI]; [now left|right; now apply HS].
      * change (flat_map _ (tab m)) with (live (tab m)). now rewrite HL.
      * lia.
    + destruct (bsize b p) as [s0|] eqn:E; [|discriminate]. destruct (Z.eqb_spec a p) as [->|]; [|discriminate]. intros HC.
      rewrite <- HL in E. destruct (mfind_live _ _ _ HN E) as (e & F1 & F2 & F3).
      apply IH with (m := pasm_realloc p s p m) in HC as (m' & R & I & E').
      * exists m'; split; [exact R|]. split; [exact I|]. rewrite E'. unfold pasm_realloc. rewrite F1. reflexivity.
      * unfold minv, pasm_realloc. rewrite F1. set (tm := tab m) in *. unfold tab; cbn [m_tab m_total]. rewrite mset_fst. repeat split; try assumption.
        -- rewrite (live_set _ _ _ _ s HN E); cbn [e_deleted e_size]; [now rewrite HL|exact F3|reflexivity].
        -- rewrite <- HL, (btotal_set _ _ _ s E). rewrite HL. lia.
    + destruct (bsize b p) as [s0|] eqn:E; [|discriminate]. intros HC.
      rewrite <- HL in E. destruct (mfind_live _ _ _ HN E) as (e & F1 & F2 & F3).
      unfold pasm_free. assert (m_tab m = Some (tab m)) as ->.
      { unfold tab in F1 |- *. destruct (m_tab m); [reflexivity|discriminate]. }
      rewrite F1, F3. cbn [Z.eqb].
      match goal with |- context [mem_run ?mm _] => set (m1 := mm) end.
      assert (I1 : minv seen (bremove b p) m1).
      { set (tm := tab m) in *. unfold m1, minv, tab; cbn [m_tab m_total]. rewrite mset_fst. repeat split; try assumption.
        - rewrite (live_del _ _ _ _ HN E); cbn [e_deleted]; [now rewrite HL|lia].
        - rewrite <- HL, (btotal_remove _ _ _ E). rewrite HL. lia. }
      destruct (IH _ _ _ _ _ I1 HC) as (m' & R & I & E').
      exists m'. split; [exact R|]. split; [exact I|]. rewrite E'. reflexivity.
Qed.

Lemma mem_run_total os seen b : client [] [] os = Some (seen, b) ->
  exists m, mem_run mem0 os = Some m /\ m_total m = btotal b /\ m_errors m = 0.
Proof.
  intros H. apply mem_run_client with (m := mem0) in H as (m & R & (H1 & H2 & H3 & H4) & E).
  - exists m. repeat split; assumption.
  - unfold minv, mem0, tab. cbn. repeat split; [constructor|tauto].
Qed.
