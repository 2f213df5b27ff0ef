From Verif Require Import Base BaseProofs Err.

(** number of reports of each kind *)
Definition is_err (o : eop) : bool := match o with EError _ | EError2 _ _ => true | EWarn _ => false end.
Definition opnum (o : eop) : Z := match o with EError n | EWarn n | EError2 n _ => n end.
Definition short (o : eop) : Prop := match o with EError2 _ p => Z.of_nat (length p) <= 1990 | _ => True end.

(** the text a report should print *)
Definition report (o : eop) : cstr :=
  match o with EError n | EWarn n => msg n | EError2 n p => msg n ++ 32 :: p end.

Lemma msg_short n : Z.of_nat (length (msg n)) <= 50.
Proof.
  unfold msg. assert (forallb (fun m => Z.of_nat (length m) <=? 50) errors = true) as H by (vm_compute; reflexivity).
  rewrite forallb_forall in H. destruct (nth_in_or_default (Z.to_nat n) errors []) as [HI| ->]; [|cbn; lia].
  specialize (H _ HI). lia.
Qed.

Lemma err_run_count os : forall e, Forall (fun o => 0 < opnum o < 49) os -> Forall short os ->
  exists e', err_run e os = Some e' /\
    err_count e' = err_count e + Z.of_nat (length (filter is_err os)) /\
    warn_count e' = warn_count e + Z.of_nat (length (filter (fun o => negb (is_err o)) os)) /\
    e_out e' = e_out e ++ map report os.
Proof.
  induction os as [|o os IH]; intros e HF HS.
  - exists e. cbn. rewrite app_nil_r. repeat split; lia.
  - inversion HF as [|? ? Ho HF']; subst. inversion HS as [|? ? Hs HS']; subst. cbn [err_run].
    assert (exists e1, err_step e o = Some e1 /\ err_count e1 = err_count e + (if is_err o then 1 else 0) /\
       warn_count e1 = warn_count e + (if is_err o then 0 else 1) /\ e_out e1 = e_out e ++ [report o]) as (e1 & R & E1 & E2 & E3).
    { destruct o as [n|n|n p]; cbn [opnum short err_step report is_err] in *.
      - unfold error, error_start, error_max. replace ((0 <? n) && (n <? 49)) with true by lia. eexists. split; [reflexivity|]. cbn. repeat split; lia.
      - unfold warn, error_start, error_max. replace ((0 <? n) && (n <? 49)) with true by lia. eexists. split; [reflexivity|]. cbn. repeat split; lia.
      - unfold error2, error_start, error_max. replace ((0 <? n) && (n <? 49)) with true by lia.
        pose proof (msg_short n). destruct (Z.ltb_spec (Z.of_nat (length (msg n)) + Z.of_nat (length p) + 2) 2048); [|lia].
        eexists. split; [reflexivity|]. cbn. repeat split; lia. }
    rewrite R. destruct (IH e1 HF' HS') as (e' & R' & F1 & F2 & F3). exists e'. split; [exact R'|].
    cbn [filter map]. rewrite F3, E3, F1, F2, E1, E2, <- app_assoc. destruct (is_err o); cbn [length negb app]; repeat split; lia.
Qed.

(** any report counts at least one error, at most two *)
Lemma err_step_mono e o e' : err_step e o = Some e' ->
  err_count e' = err_count e + (if is_err o then 1 else 0) \/
  (exists n p, o = EError2 n p /\ 2048 <= Z.of_nat (length (msg n)) + Z.of_nat (length p) + 2 /\ err_count e' = err_count e + 2).
Proof.
  destruct o as [n|n|n p]; cbn [err_step is_err].
  - unfold error. destruct ((_ <? n) && _); [|discriminate]. intros [= <-]. left. reflexivity.
  - unfold warn. destruct ((_ <? n) && _); [|discriminate]. intros [= <-]. left. cbn. lia.
  - unfold error2. destruct ((_ <? n) && _) eqn:E; [|discriminate].
    destruct (Z.ltb_spec (Z.of_nat (length (msg n)) + Z.of_nat (length p) + 2) 2048) as [H|H].
    + intros [= <-]. left. reflexivity.
    + unfold error. rewrite E. intros [= <-]. right. exists n, p. split; [reflexivity|]. split; [exact H|]. cbn [err_count yyerror]. lia.
Qed.
