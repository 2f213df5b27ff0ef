From Verif Require Import Base BaseProofs Str.
Ltac Zify.zify_post_hook ::= Z.div_mod_to_equations.

Lemma hex_pairs_len s : forall o r, hex_pairs s = (o, r) -> (length r + 2 * length o = length s)%nat.
Proof.
  induction s as [s IH] using (well_founded_induction (Wf_nat.well_founded_ltof _ (@length Z))).
  unfold Wf_nat.ltof in IH. destruct s as [|a [|b s']]; intros o r E; cbn [hex_pairs] in E.
  1,2: injection E as <- <-; cbn; lia.
  destruct (isxdigit a && isxdigit b).
  - destruct (hex_pairs s') as [o' r'] eqn:E'. injection E as <- <-.
    specialize (IH s' ltac:(cbn; lia) _ _ E'). cbn [length]. lia.
  - injection E as <- <-. cbn; lia.
Qed.

Lemma san_mono n s : forall m, (length s < n)%nat -> (n <= m)%nat -> san m s = san n s.
Proof.
  revert s; induction n as [|n IH]; intros s m Hl Hm; [lia|].
  destruct m as [|m]; [lia|]. cbn [san]. destruct s as [|c s1]; [reflexivity|]. cbn [length] in Hl.
  destruct (c =? BSL).
  - destruct s1 as [|e s2]; [reflexivity|]. cbn [length] in Hl.
    destruct (tolower e =? 120).
    + destruct s2 as [|x s3]; [reflexivity|].
      destruct (hex_pairs (x :: s3)) as [o r] eqn:E. pose proof (hex_pairs_len _ _ _ E) as HL.
      cbn [length] in *. f_equal. apply IH; lia.
    + destruct (esc_char e) as [v er]. f_equal. apply IH; lia.
  - f_equal. apply IH; lia.
Qed.

Lemma san_fuel n s : (length s < n)%nat -> san n s = sanitize_string s.
Proof. intros H. unfold sanitize_string. apply san_mono; lia. Qed.

Lemma san_S n s : san (S n) s =
      match s with
      | [] => SOk [] 0
      | c :: s1 =>
          if c =? BSL then
            match s1 with
            | [] => SUB
            | e :: s2 =>
                if tolower e =? 120 then
                  match s2 with
                  | [] => SUB
                  | _ => let '(o, r) := hex_pairs s2 in sapp o (san n r)
                  end
                else let '(v, er) := esc_char e in scons v er (san n s2)
            end
          else scons c 0 (san n s1)
      end.
Proof. reflexivity. Qed.

(** unfolding equations *)
Lemma sanitize_nil : sanitize_string [] = SOk [] 0.
Proof. reflexivity. Qed.

Lemma sanitize_plain c s : c <> BSL -> sanitize_string (c :: s) = scons c 0 (sanitize_string s).
Proof. intros H. unfold sanitize_string at 1. rewrite san_S. cbn [length]. apply Z.eqb_neq in H. rewrite H. reflexivity. Qed.

Lemma sanitize_esc e s : tolower e <> 120 ->
  sanitize_string (BSL :: e :: s) = scons (fst (esc_char e)) (snd (esc_char e)) (sanitize_string s).
Proof.
  intros H. unfold sanitize_string at 1. rewrite san_S. cbn [length]. rewrite Z.eqb_refl. apply Z.eqb_neq in H. rewrite H.
  destruct (esc_char e) as [v er]. cbn [fst snd]. f_equal. apply san_fuel. lia.
Qed.

Lemma sanitize_hex e s : tolower e = 120 -> s <> [] ->
  sanitize_string (BSL :: e :: s) = sapp (fst (hex_pairs s)) (sanitize_string (snd (hex_pairs s))).
Proof.
  intros H Hs. unfold sanitize_string at 1. rewrite san_S. cbn [length]. rewrite Z.eqb_refl, H, Z.eqb_refl. destruct s as [|x s]; [congruence|].
  destruct (hex_pairs (x :: s)) as [o r] eqn:E. cbn [fst snd]. f_equal. apply san_fuel.
  pose proof (hex_pairs_len _ _ _ E). cbn [length] in *. lia.
Qed.

(** induction principle over strings by length *)
Lemma len_ind (P : cstr -> Prop) : (forall s, (forall t, (length t < length s)%nat -> P t) -> P s) -> forall s, P s.
Proof.
  intros H s. induction s as [s IH] using (well_founded_induction (Wf_nat.well_founded_ltof _ (@length Z))).
  apply H. exact IH.
Qed.

Lemma sanitize_not_fuel s : sanitize_string s <> SFuel.
Proof.
  induction s as [s IH] using len_ind. destruct s as [|c s1]; [discriminate|].
  destruct (Z.eq_dec c BSL) as [->|Hc].
  - destruct s1 as [|e s2]; [discriminate|].
    destruct (Z.eq_dec (tolower e) 120) as [He|He].
    + destruct s2 as [|x s3]; [unfold sanitize_string; cbn [san length]; rewrite Z.eqb_refl, He; discriminate|].
      rewrite sanitize_hex by (assumption || discriminate).
      destruct (hex_pairs (x :: s3)) as [o r] eqn:E. cbn [fst snd].
      pose proof (hex_pairs_len _ _ _ E) as HL.
      specialize (IH r ltac:(cbn [length] in *; lia)). destruct (sanitize_string r); cbn [sapp]; congruence.
    + rewrite sanitize_esc by assumption. specialize (IH s2 ltac:(cbn [length]; lia)).
      destruct (sanitize_string s2); cbn [scons]; congruence.
  - rewrite sanitize_plain by assumption. specialize (IH s1 ltac:(cbn [length]; lia)).
    destruct (sanitize_string s1); cbn [scons]; congruence.
Qed.

Lemma sanitize_identity s : Forall (fun c => c <> 92) s -> sanitize_string s = SOk s 0.
Proof.
  induction 1 as [|c s Hc HF IH]; [reflexivity|].
  rewrite sanitize_plain by exact Hc. rewrite IH. reflexivity.
Qed.

Lemma sanitize_length s out e : sanitize_string s = SOk out e -> (length out <= length s)%nat.
Proof.
  revert out e. induction s as [s IH] using len_ind. intros out e0 E. destruct s as [|c s1].
  { injection E as <- <-. cbn; lia. }
  destruct (Z.eq_dec c BSL) as [->|Hc].
  - destruct s1 as [|e s2]; [discriminate|].
    destruct (Z.eq_dec (tolower e) 120) as [He|He].
    + destruct s2 as [|x s3]; [unfold sanitize_string in E; cbn [san length] in E; rewrite Z.eqb_refl, He in E; discriminate|].
      rewrite sanitize_hex in E by (assumption || discriminate).
      destruct (hex_pairs (x :: s3)) as [o r] eqn:EH. cbn [fst snd] in E.
      pose proof (hex_pairs_len _ _ _ EH) as HL.
      destruct (sanitize_string r) as [out' n'| |] eqn:Er; cbn [sapp] in E; try discriminate.
      injection E as <- <-. specialize (IH r ltac:(cbn [length] in *; lia) _ _ Er).
      rewrite app_length. cbn [length] in *. lia.
    + rewrite sanitize_esc in E by assumption.
      destruct (sanitize_string s2) as [out' n'| |] eqn:Er; cbn [scons] in E; try discriminate.
      injection E as <- <-. specialize (IH s2 ltac:(cbn [length]; lia) _ _ Er). cbn [length]. lia.
  - rewrite sanitize_plain in E by assumption.
    destruct (sanitize_string s1) as [out' n'| |] eqn:Er; cbn [scons] in E; try discriminate.
    injection E as <- <-. specialize (IH s1 ltac:(cbn [length]; lia) _ _ Er). cbn [length]. lia.
Qed.

(** ** round trip with an independent hex escaper *)
Definition hexdigit (n : Z) : Z := if n <? 10 then 48 + n else 55 + n.     (* 0-9 A-F *)
Definition enc_byte (b : Z) : cstr := [92; 120; hexdigit (b / 16); hexdigit (b mod 16)].
Definition enc_bytes (bs : list Z) : cstr := concat (map enc_byte bs).
Definition sbyte (b : Z) : Z := if b <? 128 then b else b - 256.

Lemma hexdigit_ok n : 0 <= n < 16 -> isxdigit (hexdigit n) = true /\ hexval (hexdigit n) = n.
Proof.
  intros H. assert (n = 0 \/ n = 1 \/ n = 2 \/ n = 3 \/ n = 4 \/ n = 5 \/ n = 6 \/ n = 7 \/ n = 8 \/ n = 9 \/
   n = 10 \/ n = 11 \/ n = 12 \/ n = 13 \/ n = 14 \/ n = 15) as HH by lia.
  repeat (destruct HH as [->|HH]; [split; reflexivity|]). subst. split; reflexivity.
Qed.

Lemma hex_pairs_stop s : match s with [] => True | c :: _ => isxdigit c = false end -> hex_pairs s = ([], s).
Proof. destruct s as [|a [|b s]]; cbn [hex_pairs]; auto. intros ->. reflexivity. Qed.

Lemma sanitize_enc_byte b s : 0 <= b < 256 -> match s with [] => True | c :: _ => isxdigit c = false end ->
  sanitize_string (enc_byte b ++ s) = sapp [sbyte b] (sanitize_string s).
Proof.
  intros Hb Hs. unfold enc_byte. cbn [app]. change 92 with BSL at 1.
  rewrite sanitize_hex by (reflexivity || discriminate).
  destruct (hexdigit_ok (b / 16) ltac:(lia)) as [X1 X2]. destruct (hexdigit_ok (b mod 16) ltac:(lia)) as [Y1 Y2].
  cbn [hex_pairs]. rewrite X1, Y1. cbn [andb]. rewrite (hex_pairs_stop s Hs). cbn [fst snd].
  rewrite X2, Y2. replace (to_char (16 * (b / 16) + b mod 16)) with (sbyte b); [reflexivity|].
  unfold to_char, sbyte. rewrite <- Z.div_mod by lia. reflexivity.
Qed.

Lemma sanitize_enc bs : Forall (fun b => 0 <= b < 256) bs ->
  sanitize_string (enc_bytes bs) = SOk (map sbyte bs) 0.
Proof.
  induction 1 as [|b bs Hb HF IH]; [reflexivity|].
  unfold enc_bytes in *. cbn [map concat]. rewrite sanitize_enc_byte; [|exact Hb|].
  - rewrite IH. reflexivity.
  - destruct bs; [exact I|reflexivity].
Qed.

(** ** documented escapes *)
Definition doc_escapes : list (Z * Z) :=
  [(97, 7); (98, 8); (102, 12); (110, 10); (114, 13); (116, 9); (118, 11);
   (65, 7); (66, 8); (70, 12); (78, 10); (82, 13); (84, 9); (86, 11);
   (39, 39); (34, 34); (92, 92)].

Lemma sanitize_doc e v s : In (e, v) doc_escapes ->
  sanitize_string (92 :: e :: s) = sapp [v] (sanitize_string s).
Proof.
  intros H. change 92 with BSL. cbn [doc_escapes In] in H.
  repeat (destruct H as [H|H]; [injection H as <- <-; rewrite sanitize_esc by discriminate;
    cbn; destruct (sanitize_string s); reflexivity|]). destruct H.
Qed.

(** ** safety: no overrun unless the text ends in a backslash or in \x *)
Definition ends_bad (s : cstr) : Prop :=
  (exists p, s = p ++ [92]) \/ (exists p, s = p ++ [92; 120]) \/ (exists p, s = p ++ [92; 88]).

Lemma ends_bad_app p s : ends_bad s -> ends_bad (p ++ s).
Proof.
  intros [[q ->]|[[q ->]|[q ->]]]; [left|right; left|right; right]; exists (p ++ q); now rewrite app_assoc.
Qed.

Lemma hex_pairs_suffix s : forall o r, hex_pairs s = (o, r) -> exists p, s = p ++ r.
Proof.
  induction s as [s IH] using len_ind. destruct s as [|a [|b s']]; intros o r E; cbn [hex_pairs] in E.
  1,2: injection E as <- <-; now exists [].
  destruct (isxdigit a && isxdigit b).
  - destruct (hex_pairs s') as [o' r'] eqn:E'. injection E as <- <-.
    destruct (IH s' ltac:(cbn; lia) _ _ E') as (p & ->). exists (a :: b :: p). reflexivity.
  - injection E as <- <-. now exists [].
Qed.

Lemma sanitize_ub_ends s : sanitize_string s = SUB -> ends_bad s.
Proof.
  induction s as [s IH] using len_ind. intros E. destruct s as [|c s1]; [discriminate|].
  destruct (Z.eq_dec c BSL) as [->|Hc].
  - destruct s1 as [|e s2]; [left; now exists []|].
    destruct (Z.eq_dec (tolower e) 120) as [He|He].
    + destruct s2 as [|x s3].
      { assert (e = 120 \/ e = 88) as [->| ->] by (unfold tolower in He; if_lia).
        - right; left; now exists [].
        - right; right; now exists []. }
      rewrite sanitize_hex in E by (assumption || discriminate).
      destruct (hex_pairs (x :: s3)) as [o r] eqn:EH. cbn [fst snd] in E.
      pose proof (hex_pairs_len _ _ _ EH) as HL. destruct (hex_pairs_suffix _ _ _ EH) as (p & Hp).
      destruct (sanitize_string r) as [out' n'| |] eqn:Er; cbn [sapp] in E; try discriminate.
      specialize (IH r ltac:(cbn [length] in *; lia) Er).
      rewrite Hp. change (BSL :: e :: p ++ r) with ((BSL :: e :: p) ++ r). now apply ends_bad_app.
    + rewrite sanitize_esc in E by assumption.
      destruct (sanitize_string s2) as [out' n'| |] eqn:Er; cbn [scons] in E; try discriminate.
      specialize (IH s2 ltac:(cbn [length]; lia) Er).
      change (BSL :: e :: s2) with ([BSL; e] ++ s2). now apply ends_bad_app.
  - rewrite sanitize_plain in E by assumption.
    destruct (sanitize_string s1) as [out' n'| |] eqn:Er; cbn [scons] in E; try discriminate.
    specialize (IH s1 ltac:(cbn [length]; lia) Er). change (c :: s1) with ([c] ++ s1). now apply ends_bad_app.
Qed.

Lemma sanitize_defined s : ~ ends_bad s -> exists out n, sanitize_string s = SOk out n.
Proof.
  intros H. destruct (sanitize_string s) as [out n| |] eqn:E; eauto.
  - exfalso. apply H. now apply sanitize_ub_ends.
  - exfalso. now apply (sanitize_not_fuel s).
Qed.
