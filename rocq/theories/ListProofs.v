(** Reading a listing back: a reader of the rows, and what the rows of the list file are. *)
From Coq Require Import String Lia.
From Verif Require Import Base BaseProofs Opcodes State Machine File FileProofs Eol List ListRel.
Open Scope string_scope.
Open Scope list_scope.
Open Scope Z_scope.

(** ** A reader of rows, written without regard to how rows are made *)
Definition hexval (c : Z) : option Z :=
  if (48 <=? c) && (c <=? 57) then Some (c - 48) else if (65 <=? c) && (c <=? 70) then Some (c - 55) else None.
Definition hex2 (a b : Z) : option Z :=
  match hexval a, hexval b with Some x, Some y => Some (16 * x + y) | _, _ => None end.
(** " $HH" as often as it comes *)
Fixpoint hex_pairs (t : cstr) : list Z * cstr :=
  match t with
  | c :: ((d :: a :: b :: r) as t') =>
      if (c =? 32) && (d =? 36) then
        match hex2 a b with
        | Some v => let '(l, r) := hex_pairs r in (v :: l, r)
        | None => ([], t)
        end
      else ([], t)
  | _ => ([], t)
  end.
Fixpoint skip_spaces (t : cstr) : cstr :=
  match t with c :: r => if c =? 32 then skip_spaces r else t | [] => [] end.
(** "$HH" or "'c'", with ", " between them *)
Fixpoint items (t : cstr) : option (list Z) :=
  match t with
  | q :: a :: b :: r =>
      match (if q =? 36 then hex2 a b else if (q =? 39) && (b =? 39) then Some a else None) with
      | Some v =>
          match r with
          | [] => Some [v]
          | c :: d :: r => if (c =? 44) && (d =? 32) then option_map (cons v) (items r) else None
          | _ => None
          end
      | None => None
      end
  | _ => None
  end.
Definition same_bytes (l l' : list Z) : bool := if list_eq_dec Z.eq_dec l (map (fun v => v mod 256) l') then true else false.
Definition spaced (r : cstr) : bool := match r with c :: _ => c =? 32 | [] => false end.
Definition after_db (t : cstr) : option cstr :=
  match t with
  | a :: b :: c :: d :: r => if (a =? 46) && ((b =? 100) && ((c =? 98) && (d =? 32))) then Some r else None
  | _ => None
  end.
(** the bytes of a row: "$HHHH:", the bytes in hex, spaces, and the statement; a .db statement must have the same bytes *)
Definition read_row (t : cstr) : option (list Z) :=
  match t with
  | [] => Some []
  | d :: a :: b :: c :: e :: k :: r =>
      if (d =? 36) && (k =? 58) then
        match hex2 a b, hex2 c e with
        | Some _, Some _ =>
            let '(l, r) := hex_pairs r in
            if spaced r then
              match after_db (skip_spaces r) with
              | Some r => match items r with Some l' => if same_bytes l l' then Some l else None | None => None end
              | None => Some l
              end
            else None
        | _, _ => None
        end
      else None
  | _ => None
  end.
Fixpoint read_rows (ts : list cstr) : option (list Z) :=
  match ts with
  | [] => Some []
  | t :: ts => match read_row t, read_rows ts with Some a, Some b => Some (a ++ b) | _, _ => None end
  end.
(** the column left of the source, of every row *)
Fixpoint columns (ps : list piece) : list cstr :=
  match ps with
  | [] => []
  | PRow out _ :: ps => out :: columns ps
  | _ :: ps => columns ps
  end.

(** ** Hex digits *)
Lemma hexval_dig d : 0 <= d < 16 -> hexval (hexdig d) = Some d.
Proof.
  intros H. unfold hexval, hexdig. destruct (d <? 10) eqn:E.
  - replace (48 <=? 48 + d) with true by lia. replace (48 + d <=? 57) with true by lia. cbn [andb]. f_equal. lia.
  - replace (55 + d <=? 57) with false by lia. rewrite andb_false_r. replace (65 <=? 55 + d) with true by lia. replace (55 + d <=? 70) with true by lia.
    cbn [andb]. f_equal. lia.
Qed.
Lemma hex_n_app k : forall v acc, hex_n k v acc = hex_n k v [] ++ acc.
Proof.
  induction k as [|k IH]; intros v acc; cbn [hex_n]; [reflexivity|]. rewrite IH, (IH _ [_]), <- app_assoc. reflexivity.
Qed.
Lemma hex_n_len k : forall v acc, length (hex_n k v acc) = (k + length acc)%nat.
Proof. induction k as [|k IH]; intros v acc; cbn [hex_n]; [reflexivity|]. rewrite IH. cbn [length]. lia. Qed.
Definition is_dig (c : Z) : Prop := exists d, 0 <= d < 16 /\ c = hexdig d.
Lemma hex_n_digs k : forall v acc, Forall is_dig acc -> Forall is_dig (hex_n k v acc).
Proof.
  induction k as [|k IH]; intros v acc H; cbn [hex_n]; [exact H|]. apply IH. constructor; [|exact H].
  exists (v mod 16). split; [apply Z.mod_pos_bound; lia|reflexivity].
Qed.
Lemma u32_pos v : 0 <= u32 v.
Proof. unfold u32. apply Z.mod_pos_bound. lia. Qed.
Lemma hexi2_small v : 0 <= v < 256 -> hexi 2 v = [hexdig (v / 16); hexdig (v mod 16)].
Proof.
  intros H. unfold hexi, hex_w. assert (E : u32 v = v) by (unfold u32; apply Z.mod_small; lia). rewrite E.
  assert (L : Z.log2 v / 4 <= 1).
  { assert (Z.log2 v < 8); [|apply Z.lt_succ_r; apply Z.div_lt_upper_bound; lia].
    destruct (Z.eq_dec v 0) as [->|N]; [cbn; lia|]. apply Z.log2_lt_pow2; lia. }
  pose proof (Z.log2_nonneg v). assert (0 <= Z.log2 v / 4) by (apply Z.div_pos; lia).
  replace (Nat.max 2 (S (Z.to_nat (Z.log2 v / 4)))) with 2%nat by lia. cbn [hex_n]. rewrite (Z.mod_small (v / 16) 16); [reflexivity|].
  split; [apply Z.div_pos; lia|apply Z.div_lt_upper_bound; lia].
Qed.
(** a value that does not fit in a byte has more than two digits *)
Lemma hexi2_large v : ~ u32 v < 256 -> exists a b c r, hexi 2 v = a :: b :: c :: r /\ is_dig a /\ is_dig b /\ is_dig c /\ Forall is_dig r.
Proof.
  intros H. pose proof (u32_pos v) as P. unfold hexi, hex_w. set (w := u32 v) in *.
  assert (L : 2 <= Z.log2 w / 4).
  { assert (8 <= Z.log2 w) by (apply Z.log2_le_pow2; lia). apply Z.div_le_lower_bound; lia. }
  assert (G : (3 <= length (hex_n (Nat.max 2 (S (Z.to_nat (Z.log2 w / 4)))) w []))%nat) by (rewrite hex_n_len; cbn [length]; lia).
  pose proof (hex_n_digs (Nat.max 2 (S (Z.to_nat (Z.log2 w / 4)))) w [] (Forall_nil _)) as D. revert G D.
  destruct (hex_n _ _ _) as [|a [|b [|c r]]]; cbn [length]; try lia. intros _ D. exists a, b, c, r.
  inversion D as [|? ? Da D1]; subst. inversion D1 as [|? ? Db D2]; subst. inversion D2; subst. auto.
Qed.
Lemma u32_small_mod v : u32 v < 256 -> hexi 2 v = [hexdig (v mod 256 / 16); hexdig (v mod 16)] /\ u32 v = v mod 256.
Proof.
  intros H. pose proof (u32_pos v) as P. assert (E : u32 v = v mod 256).
  { rewrite <- (Z.mod_small (u32 v) 256) by lia. unfold u32. symmetry. apply Znumtheory.Zmod_div_mod; try lia. exists 16777216. reflexivity. }
  split; [|exact E]. replace (hexi 2 v) with (hexi 2 (u32 v)).
  - rewrite hexi2_small by lia. rewrite E. f_equal. f_equal. f_equal. symmetry. apply Znumtheory.Zmod_div_mod; try lia. exists 16. reflexivity.
  - unfold hexi. f_equal. unfold u32. rewrite Z.mod_mod by lia. reflexivity.
Qed.
Lemma hex2_small v : 0 <= v < 256 -> hex2 (hexdig (v / 16)) (hexdig (v mod 16)) = Some v.
Proof.
  intros H. unfold hex2. rewrite !hexval_dig.
  - f_equal. rewrite (Z.div_mod v 16) at 3 by lia. lia.
  - apply Z.mod_pos_bound. lia.
  - split; [apply Z.div_pos; lia|apply Z.div_lt_upper_bound; lia].
Qed.
Lemma mod256_16 v : v mod 256 mod 16 = v mod 16.
Proof. symmetry. apply Znumtheory.Zmod_div_mod; try lia. exists 16. reflexivity. Qed.
Lemma dig_not d c : is_dig d -> (c < 48 \/ 57 < c < 65 \/ 70 < c) -> d <> c.
Proof. intros (x & H & ->) N. unfold hexdig. destruct (x <? 10) eqn:E; lia. Qed.

(** ** The columns of a row *)
(** the next thing is not another byte *)
Definition stops (r : cstr) : Prop := match r with c :: d :: _ => (c =? 32) && (d =? 36) = false | _ => True end.
Lemma hex_pairs_stops r : stops r -> hex_pairs r = ([], r).
Proof. destruct r as [|c [|d [|a [|b r]]]]; try reflexivity. cbn [stops hex_pairs]. intros ->. reflexivity. Qed.
Lemma hex_pairs_step a b r : hex_pairs (32 :: 36 :: a :: b :: r) =
  match hex2 a b with Some v => let '(l, r) := hex_pairs r in (v :: l, r) | None => ([], 32 :: 36 :: a :: b :: r) end.
Proof. reflexivity. Qed.
Lemma hex_pairs_cons v t : 0 <= v < 256 -> hex_pairs (cs " $" ++ hexi 2 v ++ t) = (let '(l, r) := hex_pairs t in (v :: l, r)).
Proof.
  intros H. rewrite hexi2_small by exact H. change (cs " $") with [32; 36]. cbn [app]. rewrite hex_pairs_step.
  rewrite hex2_small by exact H. reflexivity.
Qed.
Lemma pairs_bytes l : forall r, stops r -> spaced (snd (hex_pairs (bytes_text l ++ r))) = true ->
  hex_pairs (bytes_text l ++ r) = (map (fun b => b mod 256) l, r).
Proof.
  induction l as [|v l IH]; intros r Hr; cbn [bytes_text map concat app].
  - intros _. apply hex_pairs_stops. exact Hr.
  - fold (bytes_text l). rewrite <- !app_assoc. intros Hs. destruct (Z_lt_dec (u32 v) 256) as [L|L].
    + destruct (u32_small_mod v L) as [E1 E2].
      assert (E3 : hexi 2 v = hexi 2 (v mod 256)).
      { rewrite E1, hexi2_small by (apply Z.mod_pos_bound; lia). rewrite mod256_16. reflexivity. }
      rewrite E3, hex_pairs_cons in Hs |- * by (apply Z.mod_pos_bound; lia).
      specialize (IH r Hr). destruct (hex_pairs (bytes_text l ++ r)) as [l1 r1]. cbn [snd] in *. specialize (IH Hs). injection IH as -> ->. reflexivity.
    + exfalso. destruct (hexi2_large v L) as (a & b & c & q & E & Da & Db & Dc & _). rewrite E in Hs. revert Hs. change (cs " $") with [32; 36].
      cbn [app]. rewrite hex_pairs_step. destruct Da as (x & Hx & ->), Db as (y & Hy & ->).
      unfold hex2. rewrite !hexval_dig by assumption.
      assert (N : forall t, hex_pairs (c :: t) = ([], c :: t)).
      { intros t. cbn [hex_pairs]. destruct t as [|? [|? [|? ?]]]; try reflexivity.
        replace (c =? 32) with false; [reflexivity|]. symmetry. apply Z.eqb_neq. apply (dig_not _ _ Dc). lia. }
      rewrite N. cbn [snd spaced]. intros Hs. apply (dig_not c 32 Dc); [lia|]. apply Z.eqb_eq. exact Hs.
Qed.
Lemma pairs_bytes_ok l r : Forall (fun b => 0 <= b < 256) l -> stops r -> hex_pairs (bytes_text l ++ r) = (l, r).
Proof.
  intros H Hr. induction H as [|v l Hv H IH]; cbn [bytes_text map concat app]; [apply hex_pairs_stops; exact Hr|].
  fold (bytes_text l). rewrite <- !app_assoc, hex_pairs_cons by exact Hv. rewrite IH. reflexivity.
Qed.
Lemma skip_repeat n r : skip_spaces (repeat 32 n ++ r) = skip_spaces r.
Proof. induction n as [|n IH]; [reflexivity|]. cbn. exact IH. Qed.

(** ** Items *)
Definition item3 (x : cstr) (v : Z) : Prop :=
  exists q a b, x = [q; a; b] /\ (if q =? 36 then hex2 a b else if (q =? 39) && (b =? 39) then Some a else None) = Some v.
Lemma items_step q a b v r : (if q =? 36 then hex2 a b else if (q =? 39) && (b =? 39) then Some a else None) = Some v ->
  items (q :: a :: b :: 44 :: 32 :: r) = option_map (cons v) (items r).
Proof. intros E. cbn [items]. rewrite E. reflexivity. Qed.
Lemma commas_cons x y r : commas (x :: y :: r) = x ++ cs ", " ++ commas (y :: r).
Proof. reflexivity. Qed.
Lemma items_commas xs vs : Forall2 item3 xs vs -> xs <> [] -> items (commas xs) = Some vs.
Proof.
  induction 1 as [|x v xs vs Hx H IH]; intros N; [destruct (N eq_refl)|]. destruct Hx as (q & a & b & -> & E).
  destruct H as [|x' v' xs vs Hx' H].
  - cbn [commas items]. rewrite E. reflexivity.
  - specialize (IH ltac:(discriminate)). rewrite commas_cons. change (cs ", ") with [44; 32]. cbn [app]. rewrite (items_step _ _ _ _ _ E).
    rewrite IH. reflexivity.
Qed.
Lemma items_trail xs vs r : Forall2 item3 xs vs -> items (commas xs ++ 32 :: r) = None.
Proof.
  induction 1 as [|x v xs vs Hx H IH]; [destruct r as [|? [|? ?]]; reflexivity|]. destruct Hx as (q & a & b & -> & E).
  destruct H as [|x' v' xs vs Hx' H].
  - cbn [commas items app]. rewrite E. destruct r; reflexivity.
  - rewrite commas_cons, <- !app_assoc. change (cs ", ") with [44; 32]. cbn [app]. rewrite (items_step _ _ _ _ _ E).
    rewrite IH. reflexivity.
Qed.
Lemma item_hex v : 0 <= v < 256 -> item3 (cs "$" ++ hexi 2 v) v.
Proof.
  intros H. rewrite hexi2_small by exact H. do 3 eexists. split; [reflexivity|]. cbn [Z.eqb Pos.eqb]. apply hex2_small. exact H.
Qed.
Lemma item_quote c : item3 (quote_char c) c.
Proof. do 3 eexists. split; [reflexivity|]. reflexivity. Qed.
Lemma item_full c : exists v, item3 (full_char c) v /\ v mod 256 = c mod 256.
Proof.
  unfold full_char. destruct (isprint c).
  - exists c. split; [apply item_quote|reflexivity].
  - exists (c mod 256). split; [apply item_hex; apply Z.mod_pos_bound; lia|apply Z.mod_mod; lia].
Qed.
Lemma items_full g : exists vs, Forall2 item3 (map full_char g) vs /\ map (fun v => v mod 256) vs = map (fun v => v mod 256) g.
Proof.
  induction g as [|c g (vs & H & E)]; [exists []; split; constructor|]. destruct (item_full c) as (v & Hv & Ev). exists (v :: vs). split; [constructor; assumption|].
  cbn [map]. rewrite Ev, E. reflexivity.
Qed.

(** ** Rows *)
Definition row (pc : Z) (l : list Z) (stmt : cstr) : cstr := fill_to src_lst_indent (pc_text pc ++ bytes_text l) ++ stmt.
Lemma row_eq pc l stmt : exists n, row pc l stmt = cs "$" ++ hexi 2 (pc / 256) ++ hexi 2 (Z.land pc 255) ++ 58 :: bytes_text l ++ repeat 32 n ++ stmt /\
  ((length l <= 4)%nat -> 0 <= pc < 65536 -> Forall (fun b => 0 <= b < 256) l -> (0 < n)%nat).
Proof.
  unfold row, fill_to. exists (src_lst_indent - length (pc_text pc ++ bytes_text l))%nat. split.
  - unfold pc_text. change (cs ":") with [58]. rewrite <- !app_assoc. reflexivity.
  - intros L P B. assert (Lb : forall l, Forall (fun b => 0 <= b < 256) l -> length (bytes_text l) = (4 * length l)%nat).
    { induction 1 as [|v k Hv H IH]; [reflexivity|]. unfold bytes_text in *. cbn [map concat]. rewrite !app_length, IH, hexi2_small by exact Hv. cbn [length cs]. lia. }
    rewrite app_length, (Lb _ B). unfold pc_text.
    rewrite !app_length, (hexi2_small (pc / 256)), (hexi2_small (Z.land pc 255)).
    + cbn [length]. unfold src_lst_indent. change (length (cs "$")) with 1%nat. change (length (cs ":")) with 1%nat. lia.
    + change 255 with (Z.ones 8). rewrite Z.land_ones by lia. apply Z.mod_pos_bound. lia.
    + split; [apply Z.div_pos; lia|apply Z.div_lt_upper_bound; lia].
Qed.
Definition read_rest (t : cstr) : option (list Z) :=
  let '(l, r) := hex_pairs t in
  if spaced r then
    match after_db (skip_spaces r) with
    | Some r => match items r with Some l' => if same_bytes l l' then Some l else None | None => None end
    | None => Some l
    end
  else None.
Lemma land255 pc : 0 <= Z.land pc 255 < 256.
Proof. change 255 with (Z.ones 8). rewrite Z.land_ones by lia. apply Z.mod_pos_bound. lia. Qed.
Lemma read_pc pc t : 0 <= pc < 65536 -> read_row (cs "$" ++ hexi 2 (pc / 256) ++ hexi 2 (Z.land pc 255) ++ 58 :: t) = read_rest t.
Proof.
  intros P. pose proof (land255 pc) as L. assert (H : 0 <= pc / 256 < 256) by (split; [apply Z.div_pos; lia|apply Z.div_lt_upper_bound; lia]).
  rewrite (hexi2_small (pc / 256)), (hexi2_small (Z.land pc 255)) by assumption. change (cs "$") with [36]. cbn [app read_row].
  rewrite !Z.eqb_refl. cbn [andb]. rewrite !hex2_small by assumption. reflexivity.
Qed.
Lemma read_pc_some pc t l : read_row (cs "$" ++ hexi 2 (pc / 256) ++ hexi 2 (Z.land pc 255) ++ 58 :: t) = Some l -> read_rest t = Some l.
Proof.
  pose proof (land255 pc) as L. rewrite (hexi2_small (Z.land pc 255)) by assumption. change (cs "$") with [36].
  assert (D2 : is_dig (hexdig (Z.land pc 255 / 16))) by (eexists; split; [|reflexivity]; split; [apply Z.div_pos; lia|apply Z.div_lt_upper_bound; lia]).
  assert (D3 : is_dig (hexdig (Z.land pc 255 mod 16))) by (eexists; split; [|reflexivity]; apply Z.mod_pos_bound; lia).
  destruct (Z_lt_dec (u32 (pc / 256)) 256) as [S|S].
  - destruct (u32_small_mod _ S) as [-> _]. cbn [app read_row]. destruct (hex2 _ _); rewrite !Z.eqb_refl; cbn [andb]; [|discriminate].
    destruct (hex2 _ _); [|discriminate]. intros E. exact E.
  - destruct (hexi2_large _ S) as (a & b & c & q & -> & _ & _ & _ & Dq).
    assert (K : forall d a b c e k r, is_dig k -> read_row (d :: a :: b :: c :: e :: k :: r) = None).
    { intros d a' b' c' e k r Dk. cbn [read_row]. replace (k =? 58) with false; [rewrite andb_false_r; reflexivity|].
      symmetry. apply Z.eqb_neq. apply dig_not; [exact Dk|lia]. }
    destruct q as [|e [|f q]]; cbn [app]; rewrite K; auto; try discriminate. inversion Dq as [|? ? _ D4]; subst. inversion D4; subst. assumption.
Qed.
Lemma db_text r : after_db (cs ".db " ++ r) = Some r.
Proof. reflexivity. Qed.
Lemma skip_db r : skip_spaces (cs ".db " ++ r) = cs ".db " ++ r.
Proof. reflexivity. Qed.
(** a statement that does not start with a space or with a dot *)
Definition named_stmt (t : cstr) : Prop := exists c r, t = c :: r /\ c <> 32 /\ c <> 46 /\ c <> 36.
Lemma named_skip t : named_stmt t -> skip_spaces t = t /\ after_db t = None.
Proof.
  intros (c & r & -> & H1 & H2 & _). apply Z.eqb_neq in H1, H2. cbn [skip_spaces]. rewrite H1. split; [reflexivity|].
  destruct r as [|? [|? [|? ?]]]; try reflexivity. cbn [after_db]. rewrite H2. reflexivity.
Qed.
Lemma instr_named i r : named_stmt (instruction_to_string i ++ r).
Proof.
  assert (K : forall k d, Forall (fun x => match cs x with c :: _ => c <> 32 /\ c <> 46 /\ c <> 36 | [] => False end) (d :: k) -> forall n, named_stmt (cs (nth n k d) ++ r)).
  { intros k d H n. inversion H as [|? ? Hd Hk]; subst. destruct (nth_in_or_default n k d) as [X| ->].
    - rewrite Forall_forall in Hk. specialize (Hk _ X). destruct (cs (nth n k d)) as [|c t]; [destruct Hk|]. exists c, (t ++ r). split; [reflexivity|exact Hk].
    - destruct (cs d) as [|c t]; [destruct Hd|]. exists c, (t ++ r). split; [reflexivity|exact Hd]. }
  apply K. unfold instr_look_up. repeat constructor; discriminate.
Qed.
Definition starts (stmt : cstr) : Prop := (exists r, stmt = cs ".db " ++ r) \/ named_stmt stmt.
Lemma starts_stops n stmt : starts stmt -> stops (repeat 32 n ++ stmt).
Proof.
  intros H. destruct n as [|[|n]]; cbn [repeat app].
  - destruct H as [(r & ->)|(c & r & -> & H & _)]; [reflexivity|]. cbn [stops]. destruct r; [exact I|]. apply Z.eqb_neq in H. rewrite H. reflexivity.
  - destruct H as [(r & ->)|(c & r & -> & _ & _ & H)]; [reflexivity|]. cbn [stops]. apply Z.eqb_neq in H. rewrite H. reflexivity.
  - reflexivity.
Qed.
(** a row that is read has the bytes it was made of *)
Lemma row_some pc l stmt k : starts stmt -> read_row (row pc l stmt) = Some k -> k = map (fun b => b mod 256) l.
Proof.
  intros St. destruct (row_eq pc l stmt) as (n & -> & _). intros E. apply read_pc_some in E. unfold read_rest in E.
  pose proof (pairs_bytes l _ (starts_stops n stmt St)) as P. destruct (hex_pairs (bytes_text l ++ repeat 32 n ++ stmt)) as [l1 r1]. cbn [snd] in P.
  destruct (spaced r1); [|discriminate]. specialize (P eq_refl). injection P as -> ->.
  destruct (after_db _); [|now injection E as <-]. destruct (items _); [|discriminate]. destruct (same_bytes _ _); [|discriminate]. now injection E as <-.
Qed.
Lemma row_read pc l stmt : 0 <= pc < 65536 -> (length l <= 4)%nat -> Forall (fun b => 0 <= b < 256) l -> starts stmt ->
  (forall r, stmt = cs ".db " ++ r -> exists vs, items r = Some vs /\ map (fun v => v mod 256) vs = l) -> read_row (row pc l stmt) = Some l.
Proof.
  intros P L B St It. destruct (row_eq pc l stmt) as (n & -> & Hn). specialize (Hn L P B). rewrite read_pc by exact P. unfold read_rest.
  rewrite pairs_bytes_ok by (auto using starts_stops). destruct n as [|n]; [lia|]. cbn [repeat app spaced]. rewrite Z.eqb_refl.
  change (32 :: repeat 32 n ++ stmt) with (repeat 32 (S n) ++ stmt). rewrite skip_repeat. destruct St as [(r & ->)|N].
  - rewrite skip_db, db_text. destruct (It r eq_refl) as (vs & -> & E). unfold same_bytes. destruct (list_eq_dec _ _ _) as [_|X]; [reflexivity|]. destruct X. symmetry. exact E.
  - destruct (named_skip _ N) as [-> ->]. reflexivity.
Qed.

(** ** The text of a record *)
Lemma row_text b : match b with LNone | LPad _ _ => True | _ => exists pc l stmt, body_text b = row pc l stmt /\ starts stmt /\ body_bytes b = map (fun v => v mod 256) l end.
Proof.
  assert (M : forall l, map (fun v => v mod 256) (map (fun c => c mod 256) l) = map (fun v => v mod 256) l).
  { intros l. rewrite map_map. apply map_ext. intros a. apply Z.mod_mod. lia. }
  destruct b as [|pc opc i m l o|pc l|pc g|pc g pad|pc g]; try exact I; cbn [body_text]; unfold body_bytes.
  - do 3 eexists. split; [reflexivity|]. split; [right; apply instr_named|reflexivity].
  - do 3 eexists. split; [reflexivity|]. split; [left; eexists; reflexivity|reflexivity].
  - unfold group_text. do 3 eexists. split; [reflexivity|]. split; [left; eexists; reflexivity|]. symmetry. apply M.
  - do 3 eexists. split; [reflexivity|]. split; [left; eexists; reflexivity|]. unfold body_bytes. rewrite !map_app, M. destruct pad; reflexivity.
Qed.
Lemma pad_text pc g : read_row (body_text (LPad pc g)) = None.
Proof.
  cbn [body_text]. unfold group_text. rewrite <- !app_assoc.
  match goal with |- read_row (fill_to _ (pc_text pc ++ bytes_text ?l) ++ ?t) = _ => change (read_row (row pc l t) = None); set (stmt := t); set (bl := l) end.
  destruct (row_eq pc bl stmt) as (n & -> & _). destruct (read_row _) as [k|] eqn:E; [|reflexivity]. exfalso. apply read_pc_some in E. unfold read_rest in E.
  assert (St : starts stmt) by (left; eexists; reflexivity).
  pose proof (pairs_bytes bl _ (starts_stops n stmt St)) as P. destruct (hex_pairs (bytes_text bl ++ repeat 32 n ++ stmt)) as [l1 r1]. cbn [snd] in P.
  destruct (spaced r1); [|discriminate]. specialize (P eq_refl). injection P as -> ->. revert E. rewrite skip_repeat. unfold stmt. rewrite skip_db, db_text.
  destruct (items_full g) as (vs & F & _). change (cs " $00") with (32 :: cs "$00"). cbn [app]. rewrite (items_trail _ _ _ F). discriminate.
Qed.
(** reading the text of a record gives the bytes of the record, if it gives anything *)
Lemma read_body_some b l : read_row (body_text b) = Some l -> l = body_bytes b.
Proof.
  pose proof (row_text b) as H. destruct b as [| | | | |pc g].
  - cbn. intros E. injection E as <-. reflexivity.
  - destruct H as (pc' & k & st & -> & S & ->). intros E. exact (row_some _ _ _ _ S E).
  - destruct H as (pc' & k & st & -> & S & ->). intros E. exact (row_some _ _ _ _ S E).
  - destruct H as (pc' & k & st & -> & S & ->). intros E. exact (row_some _ _ _ _ S E).
  - destruct H as (pc' & k & st & -> & S & ->). intros E. exact (row_some _ _ _ _ S E).
  - rewrite pad_text. discriminate.
Qed.
(** and it does give them, for numbers in range and up to four bytes *)
Definition row_ok (b : lbody) : Prop :=
  match b with
  | LNone => True
  | LOp pc opc _ _ l _ => 0 <= pc < 65536 /\ (length l <= 3)%nat /\ Forall (fun b => 0 <= b < 256) (opc :: l)
  | LData pc l => 0 <= pc < 65536 /\ (1 <= length l <= 4)%nat /\ Forall (fun b => 0 <= b < 256) l
  | LStr pc g => 0 <= pc < 65536 /\ (1 <= length g <= 4)%nat
  | LTail pc g pad => 0 <= pc < 65536 /\ (1 <= length g <= 3)%nat
  | LPad _ _ => False
  end.
Lemma map_mod l : Forall (fun b => 0 <= b < 256) l -> map (fun b => b mod 256) l = l.
Proof. induction 1 as [|v l H _ IH]; [reflexivity|]. cbn [map]. rewrite IH, Z.mod_small by exact H. reflexivity. Qed.
Lemma mod_range l : Forall (fun b => 0 <= b < 256) (map (fun b => b mod 256) l).
Proof. induction l; cbn [map]; constructor; [apply Z.mod_pos_bound; lia|assumption]. Qed.
Lemma read_body b : row_ok b -> read_row (body_text b) = Some (body_bytes b).
Proof.
  destruct b as [|pc opc i m l o|pc l|pc g|pc g pad|pc g]; cbn [row_ok]; intros H.
  - reflexivity.
  - destruct H as (P & L & B). cbn [body_text]; unfold body_bytes. rewrite (map_mod _ B).
    refine (row_read pc (opc :: l) _ P _ B (or_intror (instr_named _ _)) _); [cbn [length]; lia|].
    intros r E. exfalso. destruct (instr_named i (cs " " ++ match l with [] => [] | _ => operand_text m o end)) as (c & r' & E' & _ & N & _).
    rewrite E' in E. injection E as E _. exact (N E).
  - destruct H as (P & L & B). cbn [body_text]; unfold body_bytes. rewrite (map_mod _ B).
    refine (row_read pc l _ P _ B (or_introl _) _); [lia|eexists; reflexivity|]. intros r E. apply app_inv_head in E. subst r. exists l. split; [|apply map_mod; exact B].
    apply items_commas; [|destruct l; [cbn in L; lia|discriminate]]. clear L. induction B as [|v l Hv B IH]; cbn [map]; constructor; [apply item_hex; exact Hv|exact IH].
  - destruct H as (P & L). cbn [body_text]; unfold body_bytes. unfold group_text.
    refine (row_read pc _ _ P _ (mod_range g) (or_introl _) _); [rewrite map_length; lia|eexists; reflexivity|].
    intros r E. apply app_inv_head in E. subst r. destruct (items_full g) as (vs & F & Ev). exists vs. split; [|exact Ev]. apply items_commas; [exact F|destruct g; [cbn in L; lia|discriminate]].
  - destruct H as (P & L). cbn [body_text]; unfold body_bytes.
    replace (map (fun b => b mod 256) (g ++ (if pad then [0] else []))) with (map (fun c => c mod 256) g ++ (if pad then [0] else [])) by (rewrite map_app; destruct pad; reflexivity).
    refine (row_read pc _ _ P _ _ (or_introl _) _); [rewrite app_length, map_length; destruct pad; cbn [length]; lia| |eexists; reflexivity|].
    { apply Forall_app. split; [apply mod_range|]. destruct pad; repeat constructor; lia. }
    intros r E. apply app_inv_head in E. subst r. exists (g ++ (if pad then [0] else [])). split; [|rewrite map_app; destruct pad; reflexivity].
    apply items_commas; [|destruct g; [cbn in L; lia|discriminate]]. apply Forall2_app.
    + clear L. induction g as [|c g IH]; cbn [map]; constructor; [apply item_quote|exact IH].
    + destruct pad; constructor; [|constructor]. apply item_hex. lia.
  - destruct H.
Qed.
