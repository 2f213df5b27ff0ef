From Coq Require Import String.
From Verif Require Import Base BaseProofs CNum Args.
Open Scope string_scope.
Open Scope list_scope.
Open Scope Z_scope.
Ltac Zify.zify_post_hook ::= Z.div_mod_to_equations.

(** ** numerals *)
(** positional value of a digit list, most significant first (specification) *)
Fixpoint posval (base : Z) (ds : list Z) : Z :=
  match ds with
  | [] => 0
  | d :: ds' => d * base ^ Z.of_nat (length ds') + posval base ds'
  end.

Definition dig (d : Z) : Z := if d <? 10 then 48 + d else 87 + d.    (* lower-case digits *)

Lemma digit_val_dig d : 0 <= d < 16 -> digit_val (dig d) = Some d.
Proof.
  intros H. assert (d = 0 \/ d = 1 \/ d = 2 \/ d = 3 \/ d = 4 \/ d = 5 \/ d = 6 \/ d = 7 \/ d = 8 \/ d = 9 \/
   d = 10 \/ d = 11 \/ d = 12 \/ d = 13 \/ d = 14 \/ d = 15) as HH by lia.
  repeat (destruct HH as [->|HH]; [reflexivity|]). subst. reflexivity.
Qed.

Lemma acc_digits_pos base ds : 2 <= base <= 16 -> Forall (fun d => 0 <= d < base) ds ->
  forall acc, acc_digits base acc (map dig ds) = acc * base ^ Z.of_nat (length ds) + posval base ds.
Proof.
  intros Hb. induction 1 as [|d ds Hd HF IH]; intros acc; cbn [map acc_digits posval length].
  - cbn. lia.
  - rewrite digit_val_dig by lia. destruct (Z.ltb_spec d base); [|lia]. rewrite IH.
    rewrite Nat2Z.inj_succ, Z.pow_succ_r by lia. ring.
Qed.

Lemma posval_range base ds : 2 <= base -> Forall (fun d => 0 <= d < base) ds ->
  0 <= posval base ds < base ^ Z.of_nat (length ds).
Proof.
  intros Hb. induction 1 as [|d ds Hd HF IH]; cbn [posval length]; [cbn; lia|].
  rewrite Nat2Z.inj_succ, Z.pow_succ_r by lia.
  assert (0 < base ^ Z.of_nat (length ds)) by (apply Z.pow_pos_nonneg; lia). nia.
Qed.

Lemma dig_range d : 0 <= d < 16 -> (48 <= dig d <= 57) \/ (97 <= dig d <= 102).
Proof. intros H. unfold dig. if_lia. Qed.

Lemma strtoi_dec_like base ds : 2 <= base <= 10 -> Forall (fun d => 0 <= d < base) ds ->
  posval base ds < 2 ^ 31 -> strtoi base (map dig ds) = posval base ds.
Proof.
  intros Hb HF HR. unfold strtoi, strtol.
  assert (E1 : skip_space (map dig ds) = map dig ds).
  { destruct ds as [|d ds]; [reflexivity|]. inversion HF; subst. cbn [map skip_space].
    replace (isspace (dig d)) with false; [reflexivity|].
    pose proof (dig_range d ltac:(lia)). unfold isspace. lia. }
  rewrite E1.
  assert (E2 : take_sign (map dig ds) = (false, map dig ds)).
  { destruct ds as [|d ds]; [reflexivity|]. inversion HF; subst. cbn [map take_sign].
    pose proof (dig_range d ltac:(lia)). destruct (Z.eqb_spec (dig d) 45); [lia|]. destruct (Z.eqb_spec (dig d) 43); [lia|]. reflexivity. }
  rewrite E2. cbv beta iota zeta.
  assert (E3 : skip_0x base (map dig ds) = map dig ds).
  { destruct ds as [|d0 [|d1 [|d2 ds]]]; try reflexivity. cbn [map skip_0x].
    destruct (Z.eqb_spec base 16); [lia|]. reflexivity. }
  rewrite E3, acc_digits_pos by (lia || assumption). pose proof (posval_range base ds ltac:(lia) HF).
  unfold clamp64, i32. lia.
Qed.

Lemma strtoi_hex ds : Forall (fun d => 0 <= d < 16) ds ->
  posval 16 ds < 2 ^ 31 -> strtoi 16 (map dig ds) = posval 16 ds.
Proof.
  intros HF HR. unfold strtoi, strtol.
  assert (E1 : skip_space (map dig ds) = map dig ds).
  { destruct ds as [|d ds]; [reflexivity|]. inversion HF; subst. cbn [map skip_space].
    replace (isspace (dig d)) with false; [reflexivity|].
    pose proof (dig_range d ltac:(lia)). unfold isspace. lia. }
  rewrite E1.
  assert (E2 : take_sign (map dig ds) = (false, map dig ds)).
  { destruct ds as [|d ds]; [reflexivity|]. inversion HF; subst. cbn [map take_sign].
    pose proof (dig_range d ltac:(lia)). destruct (Z.eqb_spec (dig d) 45); [lia|]. destruct (Z.eqb_spec (dig d) 43); [lia|]. reflexivity. }
  rewrite E2. cbv beta iota zeta.
  assert (E3 : skip_0x 16 (map dig ds) = map dig ds).
  { destruct ds as [|d0 [|d1 [|d2 ds]]]; try reflexivity. cbn [map skip_0x].
    inversion HF as [|? ? H0 HF0]; subst. inversion HF0 as [|? ? H1 _]; subst.
    replace (tolower (dig d1) =? 120) with false; [now rewrite andb_false_r|].
    pose proof (dig_range d1 ltac:(lia)). unfold tolower. symmetry. if_lia. }
  rewrite E3, acc_digits_pos by (lia || assumption). pose proof (posval_range 16 ds ltac:(lia) HF).
  unfold clamp64, i32. lia.
Qed.

Lemma def_value_hex ds : Forall (fun d => 0 <= d < 16) ds -> posval 16 ds < 2 ^ 31 ->
  def_value (36 :: map dig ds) = posval 16 ds.
Proof. intros. unfold def_value. now apply strtoi_hex. Qed.

Lemma def_value_0x ds : ds <> [] -> Forall (fun d => 0 <= d < 16) ds -> posval 16 ds < 2 ^ 31 ->
  def_value (48 :: 120 :: map dig ds) = posval 16 ds.
Proof.
  intros Hn HF HR. unfold def_value. destruct ds as [|d ds]; [congruence|].
  destruct (Z.ltb_spec 2 (Z.of_nat (length (48 :: 120 :: map dig (d :: ds))))) as [L|L].
  - now apply strtoi_hex.
  - cbn [length map] in L. lia.
Qed.

Lemma def_value_bin ds : Forall (fun d => 0 <= d < 2) ds -> posval 2 ds < 2 ^ 31 ->
  def_value (37 :: map dig ds) = posval 2 ds.
Proof. intros. unfold def_value. apply strtoi_dec_like; try assumption; lia. Qed.

Lemma def_value_0b ds : ds <> [] -> Forall (fun d => 0 <= d < 2) ds -> posval 2 ds < 2 ^ 31 ->
  def_value (48 :: 98 :: map dig ds) = posval 2 ds.
Proof.
  intros Hn HF HR. unfold def_value. destruct ds as [|d ds]; [congruence|].
  destruct (Z.ltb_spec 2 (Z.of_nat (length (48 :: 98 :: map dig (d :: ds))))) as [L|L].
  - apply strtoi_dec_like; try assumption; lia.
  - cbn [length map] in L. lia.
Qed.

Lemma def_value_dec_short ds : Forall (fun d => 0 <= d < 10) ds -> (length ds <= 2)%nat ->
  def_value (map dig ds) = posval 10 ds.
Proof.
  intros HF HL. assert (HR : posval 10 ds < 2 ^ 31).
  { pose proof (posval_range 10 ds ltac:(lia) HF).
    destruct ds as [|a [|b [|c ds]]]; cbn [length] in *; try lia. }
  rewrite <- (strtoi_dec_like 10 ds ltac:(lia) HF HR).
  unfold def_value. destruct ds as [|d ds]; [reflexivity|].
  inversion HF; subst. pose proof (dig_range d ltac:(lia)) as HD.
  assert (HL' : (length (map dig (d :: ds)) <= 2)%nat) by (rewrite map_length; exact HL).
  cbn [map] in *.
  destruct (Z.ltb_spec 2 (Z.of_nat (length (dig d :: map dig ds)))) as [L|L]; [lia|].
  destruct (dig d) eqn:E; try reflexivity; repeat (destruct p; try reflexivity; try lia).
Qed.

(** every decimal numeral of three or more digits is read as 0 *)
Lemma def_value_dec_long ds : Forall (fun d => 0 <= d < 10) ds -> (2 < length ds)%nat ->
  def_value (map dig ds) = 0.
Proof.
  intros HF HL. unfold def_value. destruct ds as [|d [|d1 ds]]; cbn [length] in HL; try lia.
  inversion HF as [|? ? H0 HF0]; subst. inversion HF0 as [|? ? H1 _]; subst.
  assert (H57 : 48 <= dig d <= 57) by (unfold dig; if_lia).
  assert (H57' : 48 <= dig d1 <= 57) by (unfold dig; if_lia).
  cbn [map].
  destruct (Z.ltb_spec 2 (Z.of_nat (length (dig d :: dig d1 :: map dig ds)))) as [L|L];
    [|cbn [length] in L; rewrite map_length in L; lia].
  destruct (dig d) eqn:E; try reflexivity; repeat (destruct p; try reflexivity; try lia);
  destruct (dig d1) eqn:E1; try reflexivity; repeat (destruct p; try reflexivity; try lia).
Qed.

(** ** the whole command line *)
Inductive opt := OOut (f : cstr) | OSym (f : cstr) | ODir (f : cstr) | OLog (f : cstr) | OList (f : cstr)
  | OC64 | OVerbose | OCpu (c02 : bool) | OIllegal | ONowarn | ODef (n v : cstr) | OIn (f : cstr).

Definition render (o : opt) : list cstr :=
  match o with
  | OOut f => [cs "-o"; f] | OSym f => [cs "-s"; f] | ODir f => [cs "-dir"; f] | OLog f => [cs "-log"; f]
  | OList f => [cs "-l"; f] | OC64 => [cs "-c64"] | OVerbose => [cs "-v"]
  | OCpu true => [cs "-65C02"] | OCpu false => [cs "-6502"] | OIllegal => [cs "-i"] | ONowarn => [cs "-nowarn"]
  | ODef n v => [cs "-d"; n; v] | OIn f => [f]
  end.

(** an input file name is any argument that does not start with - or / *)
Definition plain (f : cstr) : Prop := match f with [] => False | c :: _ => c <> 45 /\ c <> 47 end.
Definition opt_ok (o : opt) : Prop := match o with OIn f => plain f | _ => True end.

Definition kind (o : opt) : nat :=
  match o with OOut _ => 0 | OSym _ => 1 | ODir _ => 2 | OLog _ => 3 | OList _ => 4 | OC64 => 5 | OVerbose => 6
  | OCpu _ => 7 | OIllegal => 8 | ONowarn => 9 | ODef _ _ => 10 | OIn _ => 11 end.

(** the options that may occur only once *)
Definition once (l : list opt) : Prop := NoDup (filter (fun n => Nat.ltb n 10) (map kind l)).

Fixpoint find_opt {A} (f : opt -> option A) (l : list opt) : option A :=
  match l with [] => None | o :: l' => match f o with Some x => Some x | None => find_opt f l' end end.

(** what the options say (specification) *)
Definition meaning (l : list opt) : cfg :=
  mkCfg (find_opt (fun o => match o with OOut f => Some f | _ => None end) l)
        (find_opt (fun o => match o with OSym f => Some f | _ => None end) l)
        (find_opt (fun o => match o with ODir f => Some f | _ => None end) l)
        (find_opt (fun o => match o with OLog f => Some f | _ => None end) l)
        (find_opt (fun o => match o with OList f => Some f | _ => None end) l)
        (existsb (fun o => match o with OC64 => true | _ => false end) l)
        (existsb (fun o => match o with OVerbose => true | _ => false end) l)
        (find_opt (fun o => match o with OCpu b => Some b | _ => None end) l)
        (existsb (fun o => match o with OIllegal => true | _ => false end) l)
        (existsb (fun o => match o with ONowarn => true | _ => false end) l)
        (flat_map (fun o => match o with ODef n v => [(n, def_value v)] | _ => [] end) l)
        (flat_map (fun o => match o with OIn f => [f] | _ => [] end) l).

Definition oor {A} (a b : option A) : option A := match a with Some x => Some x | None => b end.

Definition merge (c m : cfg) : cfg :=
  mkCfg (oor (c_out c) (c_out m)) (oor (c_sym c) (c_sym m)) (oor (c_dir c) (c_dir m)) (oor (c_log c) (c_log m))
        (oor (c_list c) (c_list m)) (c_c64 c || c_c64 m) (c_verbose c || c_verbose m) (oor (c_cpu c) (c_cpu m))
        (c_illegal c || c_illegal m) (c_nowarn c || c_nowarn m) (c_defs c ++ c_defs m) (c_inputs c ++ c_inputs m).

(** options already consumed, as recorded in the configuration *)
Definition used (c : cfg) (k : nat) : bool :=
  match k with
  | 0 => isSome (c_out c) | 1 => isSome (c_sym c) | 2 => isSome (c_dir c) | 3 => isSome (c_log c) | 4 => isSome (c_list c)
  | 5 => c_c64 c | 6 => c_verbose c | 7 => isSome (c_cpu c) | 8 => c_illegal c | 9 => c_nowarn c | _ => false
  end%nat.

Lemma plain_not_opt f name : plain f -> is_opt f name = false.
Proof.
  destruct f as [|c f]; cbn [plain]; [tauto|]. intros [H1 H2]. unfold is_opt. cbn [stricmp].
  cbv zeta. change (tolower 45) with 45. change (tolower 47) with 47.
  destruct (Z.eqb_spec (tolower c - 45) 0) as [E|E]; [exfalso; apply H1; unfold tolower in E; if_lia|].
  destruct (Z.eqb_spec (tolower c - 47) 0) as [E'|E']; [exfalso; apply H2; unfold tolower in E'; if_lia|].
  lia.
Qed.

Lemma parse_merge l : forall c, Forall opt_ok l -> once l ->
  (forall k, In k (filter (fun n => Nat.ltb n 10) (map kind l)) -> used c k = false) ->
  c_inputs c ++ c_inputs (meaning l) <> [] ->
  parse_args (flat_map render l) c = AOk (merge c (meaning l)).
Proof.
  induction l as [|o l IH]; intros c Hok Hon Hused Hin.
  - cbn [flat_map parse_args]. cbn in Hin. rewrite app_nil_r in Hin.
    destruct (c_inputs c) as [|x t] eqn:E; [congruence|].
    f_equal. unfold merge, meaning, oor. cbn [find_opt existsb flat_map c_out c_sym c_dir c_log c_list c_c64 c_verbose c_cpu c_illegal c_nowarn c_defs c_inputs].
    destruct c as [a b d e f g h i j k m n]. cbn in *. rewrite !orb_false_r, !app_nil_r.
    destruct a, b, d, e, f, i; reflexivity.
  - inversion Hok as [|? ? Ho Hok']; subst.
    assert (Hon' : once l).
    { unfold once in *. cbn [map filter] in Hon. destruct (Nat.ltb (kind o) 10); [now inversion Hon|exact Hon]. }
    assert (Hk : (kind o < 10)%nat -> used c (kind o) = false /\ ~ In (kind o) (filter (fun n => Nat.ltb n 10) (map kind l))).
    { intros HL. apply Nat.ltb_lt in HL. split.
      - apply Hused. cbn [map filter]. rewrite HL. now left.
      - unfold once in Hon. cbn [map filter] in Hon. rewrite HL in Hon. now inversion Hon. }
    assert (Hu' : forall k, In k (filter (fun n => Nat.ltb n 10) (map kind l)) -> used c k = false).
    { intros k HI. apply Hused. cbn [map filter]. destruct (Nat.ltb (kind o) 10); [now right|exact HI]. }
    assert (Hnone : forall (P : opt -> bool) (k : nat), (k < 10)%nat -> (forall o', P o' = true -> kind o' = k) ->
              ~ In k (filter (fun n => Nat.ltb n 10) (map kind l)) -> existsb P l = false).
    { intros P k Hk10 HP HnI. destruct (existsb P l) eqn:E; [|reflexivity]. exfalso. apply HnI.
      apply existsb_exists in E as (o' & Ho' & HPo). apply filter_In. split; [|now apply Nat.ltb_lt].
      apply in_map_iff. exists o'. split; [now apply HP|exact Ho']. }
    assert (Hfnone : forall A (F : opt -> option A) (k : nat), (k < 10)%nat -> (forall o', F o' <> None -> kind o' = k) ->
              ~ In k (filter (fun n => Nat.ltb n 10) (map kind l)) -> find_opt F l = None).
    { intros A F k Hk10 HF HnI. destruct (find_opt F l) eqn:E; [|reflexivity]. exfalso. apply HnI.
      clear -E HF Hk10. induction l as [|o' l' IHl]; [discriminate|]. cbn [find_opt] in E. cbn [map filter].
      destruct (F o') eqn:EF.
      - assert (kind o' = k) as -> by (apply HF; congruence). apply Nat.ltb_lt in Hk10. rewrite Hk10. now left.
      - destruct (Nat.ltb (kind o') 10); [right|]; now apply IHl. }
    assert (Main : forall c', used c' = used c \/ (kind o < 10)%nat /\ (forall k, k <> kind o -> used c' k = used c k) ->
       merge c' (meaning l) = merge c (meaning (o :: l)) ->
       parse_args (flat_map render l) c' = AOk (merge c (meaning (o :: l)))).
    { intros c' Hc' Hm. rewrite <- Hm. apply IH; try assumption.
      - intros k HI. destruct Hc' as [->|[HK Hc']]; [now apply Hu'|].
        destruct (Nat.eq_dec k (kind o)) as [->|Hne].
        + exfalso. now apply (proj2 (Hk HK)).
        + rewrite Hc' by exact Hne. now apply Hu'.
      - change (c_inputs c' ++ c_inputs (meaning l)) with (c_inputs (merge c' (meaning l))). rewrite Hm. exact Hin. }
    Local Ltac fin := intros [|[|[|[|[|[|[|[|[|[|k]]]]]]]]]] Hne; cbn in *; congruence.
    destruct o as [f|f|f|f|f| | |b| | |n v|f]; cbn [flat_map render app kind] in *;
    try (destruct (Hk ltac:(lia)) as [Hk1 Hk2]; cbn [used] in Hk1).
    + change (parse_args (cs "-o" :: f :: flat_map render l) c) with
        (if isSome (c_out c) then AExit (-1) (Some EOutTwice) else parse_args (flat_map render l) (set_out f c)).
      rewrite Hk1. apply Main; [right; split; [lia|fin]|].
      unfold merge. destruct c as [ca cb cd ce cf cg ch ci cj ck cm cn]. destruct ca; [discriminate|]. reflexivity.
    + change (parse_args (cs "-s" :: f :: flat_map render l) c) with
        (if isSome (c_sym c) then AExit (-1) (Some ESymTwice) else parse_args (flat_map render l) (set_sym f c)).
      rewrite Hk1. apply Main; [right; split; [lia|fin]|].
      unfold merge. destruct c as [ca cb cd ce cf cg ch ci cj ck cm cn]. destruct cb; [discriminate|]. reflexivity.
    + change (parse_args (cs "-dir" :: f :: flat_map render l) c) with
        (if isSome (c_dir c) then AExit (-1) (Some EDirTwice) else parse_args (flat_map render l) (set_dir f c)).
      rewrite Hk1. apply Main; [right; split; [lia|fin]|].
      unfold merge. destruct c as [ca cb cd ce cf cg ch ci cj ck cm cn]. destruct cd; [discriminate|]. reflexivity.
    + change (parse_args (cs "-log" :: f :: flat_map render l) c) with
        (if isSome (c_log c) then AExit (-1) (Some ELogTwice) else parse_args (flat_map render l) (set_log f c)).
      rewrite Hk1. apply Main; [right; split; [lia|fin]|].
      unfold merge. destruct c as [ca cb cd ce cf cg ch ci cj ck cm cn]. destruct ce; [discriminate|]. reflexivity.
    + change (parse_args (cs "-l" :: f :: flat_map render l) c) with
        (if isSome (c_list c) then AExit (-1) (Some EListTwice) else parse_args (flat_map render l) (set_list f c)).
      rewrite Hk1. apply Main; [right; split; [lia|fin]|].
      unfold merge. destruct c as [ca cb cd ce cf cg ch ci cj ck cm cn]. destruct cf; [discriminate|]. reflexivity.
    + change (parse_args (cs "-c64" :: flat_map render l) c) with
        (if c_c64 c then AExit (-1) (Some EC64Twice) else parse_args (flat_map render l) (set_c64 c)).
      rewrite Hk1. apply Main; [right; split; [lia|fin]|].
      unfold merge. destruct c as [ca cb cd ce cf cg ch ci cj ck cm cn]. cbn in Hk1. subst. reflexivity.
    + change (parse_args (cs "-v" :: flat_map render l) c) with
        (if c_verbose c then AExit (-1) (Some EVerboseTwice) else parse_args (flat_map render l) (set_verbose c)).
      rewrite Hk1. apply Main; [right; split; [lia|fin]|].
      unfold merge. destruct c as [ca cb cd ce cf cg ch ci cj ck cm cn]. cbn in Hk1. subst. reflexivity.
    + destruct b; cbn [render app].
      * change (parse_args (cs "-65C02" :: flat_map render l) c) with
        (if isSome (c_cpu c) then AExit (-1) (Some ECpuTwice) else parse_args (flat_map render l) (set_cpu true c)).
        rewrite Hk1. apply Main; [right; split; [lia|fin]|].
        unfold merge. destruct c as [ca cb cd ce cf cg ch ci cj ck cm cn]. destruct ci; [discriminate|]. reflexivity.
      * change (parse_args (cs "-6502" :: flat_map render l) c) with
        (if isSome (c_cpu c) then AExit (-1) (Some ECpuTwice) else parse_args (flat_map render l) (set_cpu false c)).
        rewrite Hk1. apply Main; [right; split; [lia|fin]|].
        unfold merge. destruct c as [ca cb cd ce cf cg ch ci cj ck cm cn]. destruct ci; [discriminate|]. reflexivity.
    + change (parse_args (cs "-i" :: flat_map render l) c) with
        (if c_illegal c then AExit (-1) (Some EIllegalTwice) else parse_args (flat_map render l) (set_illegal c)).
      rewrite Hk1. apply Main; [right; split; [lia|fin]|].
      unfold merge. destruct c as [ca cb cd ce cf cg ch ci cj ck cm cn]. cbn in Hk1. subst. reflexivity.
    + change (parse_args (cs "-nowarn" :: flat_map render l) c) with
        (if c_nowarn c then AExit (-1) (Some ENowarnTwice) else parse_args (flat_map render l) (set_nowarn c)).
      rewrite Hk1. apply Main; [right; split; [lia|fin]|].
      unfold merge. destruct c as [ca cb cd ce cf cg ch ci cj ck cm cn]. cbn in Hk1. subst. reflexivity.
    + change (parse_args (cs "-d" :: n :: v :: flat_map render l) c) with
        (parse_args (flat_map render l) (add_def n (def_value v) c)).
      apply Main; [left; reflexivity|].
      unfold merge. cbn. now rewrite <- app_assoc.
    + cbn [opt_ok] in Ho.
      assert (parse_args (f :: flat_map render l) c = parse_args (flat_map render l) (add_input f c)) as ->.
      { cbn [parse_args]. rewrite !(plain_not_opt f) by exact Ho. reflexivity. }
      apply Main; [left; reflexivity|].
      unfold merge. cbn. now rewrite <- app_assoc.
Qed.

Lemma parse_arguments_meaning l : Forall opt_ok l -> once l -> c_inputs (meaning l) <> [] ->
  parse_arguments (flat_map render l) = AOk (meaning l).
Proof.
  intros H1 H2 H3. unfold parse_arguments. rewrite parse_merge; try assumption.
  - reflexivity.
  - intros [|[|[|[|[|[|[|[|[|[|k]]]]]]]]]] _; reflexivity.
Qed.
