(** No line of source is printed twice, whatever the records are. *)
From Coq Require Import Lia.
From Verif Require Import Base BaseProofs State Machine File FileProofs List ListRel ListProofs ListFile ListLines.
Open Scope list_scope.
Open Scope Z_scope.

(** the file (by its place in the list of the files read) and the number of every line printed *)
Fixpoint keys (ps : list piece) : list (nat * Z) :=
  match ps with
  | [] => []
  | PRow _ (Some (i, n, _)) :: ps => (i, n) :: keys ps
  | _ :: ps => keys ps
  end.
Lemma keys_app a b : keys (a ++ b) = keys a ++ keys b.
Proof. induction a as [|p a IH]; [reflexivity|]. destruct p as [| |o [[[i n] t]|]]; cbn [app keys]; rewrite IH; reflexivity. Qed.

(** line [n] of the list has been shown *)
Definition sh (l : list fline) (n : Z) : Prop := exists f, In f l /\ f_no f = n /\ f_shown f <> 0.
(** [l'] is [l] with the lines of [ps] shown: each of them once, and none that was shown before *)
Record shows (i : nat) (l : list fline) (ps : list piece) (l' : list fline) : Prop := mkShows {
  s_nos : map f_no l' = map f_no l;
  s_once : NoDup (keys ps);
  s_fresh : forall k, In k (keys ps) -> fst k = i /\ ~ sh l (snd k) /\ sh l' (snd k);
  s_keep : forall n, sh l n -> sh l' n }.
Lemma sh_cons f l n : sh (f :: l) n <-> (f_no f = n /\ f_shown f <> 0) \/ sh l n.
Proof.
  split.
  - intros (g & [<-|H] & E & S); [left; auto|right; exists g; auto].
  - intros [[E S]|(g & H & E & S)]; [exists f; cbn; auto|exists g; cbn; auto].
Qed.
Lemma sh_app a b n : sh (a ++ b) n <-> sh a n \/ sh b n.
Proof. induction a as [|f a IH]; cbn [app]; [split; [auto|intros [(f & [] & _)|H]; exact H]|]. rewrite !sh_cons, IH. tauto. Qed.
Lemma sh_no l n : sh l n -> In n (map f_no l).
Proof. intros (f & H & <- & _). apply in_map. exact H. Qed.
Lemma shows_nil i l : shows i l [] l.
Proof. constructor; [reflexivity|constructor|intros k []|auto]. Qed.
Lemma shows_one i out f l : ~ In (f_no f) (map f_no l) -> shows i (f :: l) [fst (show out i f)] (snd (show out i f) :: l).
Proof.
  intros N. unfold show. destruct (f_shown f =? 0) eqn:E; cbn [fst snd].
  - apply Z.eqb_eq in E. constructor; [reflexivity|repeat constructor; intros []| |].
    + intros k [<-|[]]. cbn [fst snd]. split; [reflexivity|]. rewrite !sh_cons. cbn [f_no f_shown]. split; [|left; split; [reflexivity|lia]].
      intros [[_ X]|X]; [exact (X E)|]. apply N, sh_no, X.
    + intros n. rewrite !sh_cons. cbn [f_no f_shown]. intros [[X Y]|X]; [destruct (Y E)|auto].
  - constructor; [reflexivity|constructor|intros k []|auto].
Qed.
Lemma shows_cons i f f' l l' p ps : NoDup (map f_no (f :: l)) -> shows i (f :: l) [p] (f' :: l) -> shows i l ps l' -> shows i (f :: l) (p :: ps) (f' :: l').
Proof.
  intros N [A1 A2 A3 A4] [B1 B2 B3 B4]. cbn [map] in *. inversion N as [|? ? N1 N2]; subst. injection A1 as A1.
  assert (K : keys (p :: ps) = keys [p] ++ keys ps) by (change (p :: ps) with ([p] ++ ps); apply keys_app). constructor.
  - cbn [map]. congruence.
  - rewrite K. assert (D : forall k, In k (keys [p]) -> ~ In k (keys ps)).
    { intros k X Y. destruct (A3 k X) as (_ & X1 & X2). destruct (B3 k Y) as (_ & Y1 & Y2). rewrite sh_cons in X1, X2. apply sh_no in Y2. rewrite B1 in Y2.
      destruct X2 as [[X2 _]|X2]; [rewrite <- X2, A1 in Y2; exact (N1 Y2)|tauto]. }
    clear K. destruct p as [| |o [[[a b] c]|]]; cbn [keys app] in *; auto. constructor; [apply D; left; reflexivity|exact B2].
  - intros k X. rewrite K in X. apply in_app_or in X as [X|X].
    + destruct (A3 k X) as (X0 & X1 & X2). split; [exact X0|]. split; [exact X1|]. rewrite sh_cons in *. destruct X2 as [X2|X2]; [left; exact X2|right; auto].
    + destruct (B3 k X) as (X0 & X1 & X2). split; [exact X0|]. rewrite !sh_cons. split; [|right; exact X2]. intros [[Y _]|Y]; [|exact (X1 Y)].
      apply sh_no in X2. rewrite B1, <- Y in X2. exact (N1 X2).
  - intros n X. specialize (A4 n). rewrite !sh_cons in *. destruct X as [X|X]; [|right; auto]. destruct (A4 (or_introl X)) as [Y|Y]; [left; exact Y|right; auto].
Qed.
Lemma shows_skip i a l ps l' : NoDup (map f_no (a ++ l)) -> shows i l ps l' -> shows i (a ++ l) ps (a ++ l').
Proof.
  intros N [B1 B2 B3 B4]. constructor; [rewrite !map_app, B1; reflexivity|exact B2| |intros n; rewrite !sh_app; intros [X|X]; [left; exact X|right; auto]].
  intros k X. destruct (B3 k X) as (X0 & X1 & X2). split; [exact X0|]. rewrite !sh_app. split; [|right; exact X2]. intros [Y|Y]; [|exact (X1 Y)].
  apply sh_no in X2, Y. rewrite B1 in X2. rewrite map_app in N. clear - N X2 Y. induction (map f_no a) as [|x q IH]; [destruct Y|]. cbn [app] in N. inversion N; subst.
  destruct Y as [Y|Y]; [apply H1, in_or_app; right; rewrite Y; exact X2|auto].
Qed.
Lemma shows_rest i last : forall l, NoDup (map f_no l) -> shows i l (fst (show_rest i last l)) (snd (show_rest i last l)).
Proof.
  induction l as [|f l IH]; intros N; cbn [show_rest]; [apply shows_nil|]. destruct (f_no f <=? last); [|apply shows_nil]. cbn [map] in N. inversion N as [|? ? N1 N2]; subst.
  pose proof (shows_one i [] f l N1) as S. specialize (IH N2). destruct (show [] i f) as [p f']. destruct (show_rest i last l) as [ps l']. cbn [fst snd] in *.
  apply shows_cons; auto.
Qed.

Section Files.
Variable rd : cstr -> option cstr.
Definition es_ok (es : list fentry) : Prop := Forall (fun e => NoDup (map f_no (snd e))) es.
Definition shk (es : list fentry) (k : nat * Z) : Prop := sh (lines_at es (fst k)) (snd k).
Lemma load_nodup f : NoDup (map f_no (load rd f)).
Proof.
  rewrite load_shade. unfold shade. rewrite map_map. cbn [f_no]. generalize (text_numbered rd f). generalize (text_lines rd f) as L. intros L. generalize 0 as b.
  induction L as [|x L IH]; intros b; cbn [map]; [constructor|]. intros [E N]. constructor; [|exact (IH _ N)]. intros X. apply in_map_iff in X as (y & Ey & Y).
  pose proof (numbered_gt _ _ _ N Y). lia.
Qed.
Lemma with_ok es f : es_ok es -> es_ok (with_entry rd es f).
Proof. intros H. unfold with_entry. destruct (_ <? _)%nat; [exact H|]. apply Forall_app. split; [exact H|]. repeat constructor. apply load_nodup. Qed.
Lemma with_shk es f k : shk (with_entry rd es f) k <-> shk es k.
Proof.
  unfold with_entry. destruct (_ <? _)%nat; [reflexivity|]. unfold shk, lines_at.
  destruct (Nat.lt_ge_cases (fst k) (length es)) as [L|L]; [rewrite nth_error_app1 by exact L; reflexivity|].
  rewrite nth_error_app2 by exact L. rewrite (proj2 (nth_error_None es (fst k)) L). destruct (fst k - length es)%nat as [|d]; cbn [nth_error].
  - split; intros (g & G & _ & S); [|destruct G]. exfalso. rewrite load_shade in G. unfold shade in G. apply in_map_iff in G as (x & <- & X).
    pose proof (numbered_gt _ _ _ (text_numbered rd f) X). cbn [f_shown] in S. replace (fst x <=? 0) with false in S by lia. exact (S eq_refl).
  - destruct d; reflexivity.
Qed.
Lemma lines_ok es i : es_ok es -> NoDup (map f_no (lines_at es i)).
Proof. intros H. unfold lines_at. destruct (nth_error es i) as [(n, l)|] eqn:E; [|constructor]. unfold es_ok in H. rewrite Forall_forall in H. apply nth_error_In in E. exact (H _ E). Qed.
(** what a change to one entry shows *)
Lemma set_shows es i ps l' : es_ok es -> (lines_at es i <> []) -> shows i (lines_at es i) ps l' ->
  es_ok (set_lines es i l') /\ (forall k, In k (keys ps) -> ~ shk es k /\ shk (set_lines es i l') k) /\ (forall k, shk es k -> shk (set_lines es i l') k).
Proof.
  intros O Ne [A1 A2 A3 A4]. unfold set_lines, lines_at in *. destruct (nth_error es i) as [(n, l)|] eqn:E; [|destruct (Ne eq_refl)].
  assert (L : (i < length es)%nat) by (apply nth_error_Some; congruence).
  assert (Z1 : forall k, shk (upd i (n, l') es) k <-> (fst k = i /\ sh l' (snd k)) \/ (fst k <> i /\ shk es k)).
  { intros k. unfold shk, lines_at. destruct (Nat.eq_dec (fst k) i) as [X|X].
    - rewrite X. rewrite upd_nth by exact L. split; [auto|intros [[_ Y]|[Y _]]; [exact Y|destruct (Y eq_refl)]].
    - rewrite upd_other by auto. tauto. }
  assert (Z2 : forall k, fst k = i -> (shk es k <-> sh l (snd k))) by (intros k X; unfold shk, lines_at; rewrite X, E; reflexivity).
  split; [|split].
  - unfold es_ok in *. rewrite Forall_forall in *. intros e He. apply In_nth_error in He as (j & Hj). destruct (Nat.eq_dec i j) as [<-|X].
    + rewrite upd_nth in Hj by exact L. injection Hj as <-. cbn [snd]. rewrite A1. exact (O _ (nth_error_In _ _ E)).
    + rewrite upd_other in Hj by exact X. exact (O _ (nth_error_In _ _ Hj)).
  - intros k K. destruct (A3 k K) as (X0 & X1 & X2). rewrite Z1, Z2 by exact X0. auto.
  - intros k K. rewrite Z1. destruct (Nat.eq_dec (fst k) i) as [X|X]; [left; split; [exact X|]; apply A4, Z2; auto|auto].
Qed.
Lemma join es es' p q : NoDup (keys p) -> (forall k, In k (keys p) -> ~ shk es k /\ shk es' k) -> (forall k, shk es k -> shk es' k) ->
  NoDup (keys q) -> (forall k, In k (keys q) -> ~ shk es' k) -> NoDup (keys (p ++ q)) /\ (forall k, In k (keys (p ++ q)) -> ~ shk es k).
Proof.
  intros N1 A B N2 C. rewrite keys_app. split.
  - revert N1 A. induction (keys p) as [|k l IH]; intros N1 A; [exact N2|]. inversion N1; subst. cbn [app]. constructor.
    + intros X. apply in_app_or in X as [X|X]; [auto|]. apply (C k X). apply A. left. reflexivity.
    + apply IH; [assumption|]. intros k' K'. apply A. right. exact K'.
  - intros k X. apply in_app_or in X as [X|X]; [apply A, X|]. intros Y. exact (C k X (B k Y)).
Qed.
Lemma records_once : forall rs cur st es ps, es_ok es -> records rd rs cur st es = Some ps -> NoDup (keys ps) /\ forall k, In k (keys ps) -> ~ shk es k.
Proof.
  induction rs as [|r rs IH]; intros cur st es ps O; cbn [records]; [intros E; injection E as <-; split; [constructor|intros k []]|].
  set (head := if stricmp cur (l_file r) =? 0 then [] else [PHead (l_file r)]).
  assert (Hh : forall x, keys (head ++ x) = keys x) by (intros x; unfold head; destruct (_ =? _); reflexivity).
  assert (skip : forall st es, es_ok es -> option_map (app head) (records rd rs (l_file r) st es) = Some ps -> NoDup (keys ps) /\ forall k, In k (keys ps) -> ~ shk es k).
  { intros st' es' O' E. destruct (records rd rs (l_file r) st' es') as [q|] eqn:Eq; [|discriminate]. injection E as <-. rewrite Hh. eapply IH; eauto. }
  destruct (negb _); [apply skip; exact O|]. destruct (l_dir r); [apply skip; exact O|]. destruct (l_pstate r =? 0); [apply skip; exact O|].
  destruct (end_line r rs =? 0); [apply skip; exact O|]. pose proof (with_ok es (l_file r) O) as O'.
  assert (back : forall k, ~ shk (with_entry rd es (l_file r)) k -> ~ shk es k) by (intros k; rewrite with_shk; auto).
  set (es1 := with_entry rd es (l_file r)) in *. set (i := find_entry es1 (l_file r)). set (l := lines_at es1 i). destruct (skipn (seek l (l_line r)) l) as [|f l'] eqn:Sk.
  { intros E. destruct (skip st es1 O' E) as [X Y]. split; [exact X|]. intros k K. apply back, Y, K. }
  pose proof (lines_ok es1 i O') as Nd. fold l in Nd. pose proof (skip_split _ _ _ _ _ Sk) as El.
  assert (Nf : NoDup (map f_no (f :: l'))).
  { rewrite El, map_app in Nd. clear - Nd. induction (map f_no (firstn (seek l (l_line r)) l)) as [|x q IHq]; [exact Nd|]. cbn [app] in Nd. inversion Nd; auto. }
  cbn [map] in Nf. inversion Nf as [|? ? N1 N2]; subst.
  pose proof (shows_one i (body_text (l_body r)) f l' N1) as S1. pose proof (shows_rest i (end_line r rs) l' N2) as S2.
  destruct (show (body_text (l_body r)) i f) as [p f']. cbn [fst snd] in S1. destruct (fits _ p); [|discriminate].
  destruct (show_rest i (end_line r rs) l') as [q l'']. cbn [fst snd] in S2.
  pose proof (shows_cons _ _ _ _ _ _ _ Nf S1 S2) as S3.
  assert (S4 : shows i l (p :: q) (firstn (seek l (l_line r)) l ++ f' :: l'')).
  { rewrite El at 1. apply shows_skip; [rewrite <- El; exact Nd|exact S3]. }
  destruct (set_shows es1 i (p :: q) _ O' ltac:(fold l; intros X; rewrite X in Sk; destruct (seek _ _); discriminate) S4) as (O2 & A & B).
  destruct (records rd rs (l_file r) st _) as [ps'|] eqn:Er; [|discriminate]. cbn [option_map]. intros E. injection E as <-. rewrite Hh.
  destruct (IH _ _ _ _ O2 Er) as [C1 C2].
  destruct (join es1 _ (p :: q) ps' (s_once _ _ _ _ S4) A B C1 C2) as [D1 D2]. split; [exact D1|]. intros k K. apply back, D2, K.
Qed.
Lemma before_once r : forall n line es ps es', es_ok es -> before rd n line r es = Some (ps, es') ->
  es_ok es' /\ NoDup (keys ps) /\ (forall k, In k (keys ps) -> ~ shk es k /\ shk es' k) /\ (forall k, shk es k -> shk es' k).
Proof.
  induction n as [|n IH]; intros line es ps es' O; cbn [before]; [intros E; injection E as <- <-; split; [exact O|]; split; [constructor|]; split; [intros k []|auto]|].
  pose proof (with_ok es (l_file r) O) as O'.
  assert (back : forall k, shk (with_entry rd es (l_file r)) k <-> shk es k) by (intros k; apply with_shk).
  set (es1 := with_entry rd es (l_file r)) in *. set (i := find_entry es1 (l_file r)). set (l := lines_at es1 i).
  assert (skip : before rd n (line + 1) r es1 = Some (ps, es') -> es_ok es' /\ NoDup (keys ps) /\ (forall k, In k (keys ps) -> ~ shk es k /\ shk es' k) /\ (forall k, shk es k -> shk es' k)).
  { intros E. destruct (IH _ _ _ _ O' E) as (X1 & X2 & X3 & X4). split; [exact X1|]. split; [exact X2|]. split; [intros k K; rewrite <- back; auto|intros k K; apply X4, back, K]. }
  destruct (l_dir r); [exact skip|]. destruct (nth_error l (seek l line)) as [f|] eqn:Ef; [|discriminate].
  pose proof (lines_ok es1 i O') as Nd. fold l in Nd.
  assert (Sp : exists a b, l = a ++ f :: b /\ forall f', upd (seek l line) f' l = a ++ f' :: b).
  { clear - Ef. revert Ef. generalize (seek l line) as j. induction l as [|x l IH]; intros [|j] E; try discriminate; cbn [nth_error] in E.
    - injection E as ->. exists [], l. split; reflexivity.
    - destruct (IH j E) as (a & b & -> & H). exists (x :: a), b. split; [reflexivity|]. intros f'. cbn [upd app]. rewrite H. reflexivity. }
  destruct Sp as (a & b & El & Eu).
  assert (Nf : NoDup (map f_no (f :: b))).
  { rewrite El, map_app in Nd. clear - Nd. induction (map f_no a) as [|x q IHq]; [exact Nd|]. cbn [app] in Nd. inversion Nd; auto. }
  cbn [map] in Nf. inversion Nf as [|? ? N1 N2]; subst. pose proof (shows_one i [] f b N1) as S1.
  destruct (show [] i f) as [p f']. cbn [fst snd] in S1. destruct (f_shown f =? 0); [|exact skip]. destruct (fits [] p); [|discriminate].
  assert (S4 : shows i l [p] (upd (seek l line) f' l)).
  { rewrite Eu. rewrite El at 1. apply shows_skip; [rewrite <- El; exact Nd|exact S1]. }
  destruct (set_shows es1 i [p] _ O' ltac:(fold l; intros X; rewrite X in Ef; destruct (seek _ _); discriminate) S4) as (O2 & A & B). fold l in O2, A, B |- *.
  destruct (before rd n (line + 1) r (set_lines es1 i (upd (seek l line) f' l))) as [[q es2]|] eqn:Eb.
  2:{ intros X. discriminate X. }
  intros E. injection E as <- <-.
  destruct (IH _ _ _ _ O2 Eb) as (X1 & X2 & X3 & X4). split; [exact X1|].
  destruct (join es1 _ [p] q (s_once _ _ _ _ S4) A B X2 ltac:(intros k K; apply X3, K)) as [D1 D2]. split; [exact D1|]. split.
  - intros k K. rewrite <- back. split; [apply D2, K|]. change (p :: q) with ([p] ++ q) in K. rewrite keys_app in K. apply in_app_or in K as [K|K]; [apply X4, A, K|apply X3, K].
  - intros k K. apply X4, B, back, K.
Qed.
Theorem list_file_once rs ps : generate_list_file rd rs = Some ps -> NoDup (keys ps).
Proof.
  unfold generate_list_file. destruct rs as [|r rs]; [discriminate|]. destruct (before rd _ 1 r []) as [(p, es)|] eqn:Eb; [|discriminate].
  destruct (before_once r _ _ _ _ _ (Forall_nil _) Eb) as (O & N1 & A & B). destruct (records rd (r :: rs) (l_file r) 1 es) as [q|] eqn:E; [|discriminate].
  destruct (records_once _ _ _ _ _ O E) as [N2 C]. cbn [option_map]. intros X. injection X as <-. cbn [app keys]. apply (join [] es p q N1 A B N2 C).
Qed.
End Files.
