(** What looking up or adding a local name does (sym.cc 127-222). *)
From Coq Require Import String Lia.
From Verif Require Import Base BaseProofs Hash Dict DictProofs Str Opcodes Err State Sym Machine Inv SymProofs SymMore.
Open Scope list_scope.
Open Scope Z_scope.
Open Scope m_scope.

(** names as the lexer delivers them: @ in front, no dot, no colon *)
Definition local (n : cstr) : Prop := valids n /\ hd0 n = 64 /\ ~ In 46 n /\ ~ In 58 n.
Definition owner (l : cstr) : Prop := valids l /\ ~ In 46 l /\ ~ In 64 l.
Definition fresh_local (sc : option cstr) (nm : cstr) : symbol := new_symbol false true false false sc nm (under sc nm).

Lemma strip_end x n : n <> [] -> ~ In 58 n -> strip_colon (x ++ n) = x ++ n.
Proof.
  intros E H. unfold strip_colon. rewrite rev_app_distr. destruct (rev n) as [|c r] eqn:R.
  - apply (f_equal (@rev Z)) in R. rewrite rev_involutive in R. contradiction.
  - cbn [app]. assert (c <> 58) by (intros ->; apply H, in_rev; rewrite R; left; reflexivity).
    destruct c as [|p|p]; try reflexivity. do 6 (destruct p; try reflexivity). congruence.
Qed.
Lemma hd_owner l n : ~ In 64 l -> (hd0 (l ++ 95 :: 95 :: n) =? 64) = false.
Proof. intros H. apply Z.eqb_neq. destruct l as [|c l]; cbn; [lia|]. intros ->. apply H. left. reflexivity. Qed.
Lemma add_local_eq l n s : s_label s = Some l -> owner l -> local n ->
  add_symbol n s = (r <- look_up_in (s_scope s) (l ++ 95 :: 95 :: n) ;;
    match r with
    | Some a => ret (Some a)
    | None => a <- sym_insert (under (s_scope s) (l ++ 95 :: 95 :: n)) (fresh_local (s_scope s) (l ++ 95 :: 95 :: n)) ;; ret (Some a)
    end) s.
Proof.
  intros Hl (Vl & Dl & Al) (V & H & D & C). destruct n as [|c n]; [discriminate H|]. cbn [hd0] in H. subst c. unfold add_symbol.
  assert (A : (stricmp (64 :: n) (cs "A") =? 0) = false).
  { apply Z.eqb_neq. intros X. apply stricmp_0_iff in X; [discriminate X|exact V|]. vm_compute. repeat constructor; discriminate. }
  rewrite A. cbn [hd0]. change ((64 =? 43) || (64 =? 45)) with false. cbv beta iota. rewrite (has_char_false _ _ D).
  unfold bind at 1, gets at 1. cbn [hd0]. change (64 =? 92) with false. change (64 =? 64) with true. unfold bind at 1, gets at 1. rewrite Hl. cbv iota beta zeta. unfold local_name.
  change (l ++ 95 :: 95 :: 64 :: n) with (l ++ [95; 95] ++ 64 :: n). rewrite app_assoc. rewrite (strip_end (l ++ [95; 95]) (64 :: n)) by (auto; discriminate). rewrite <- app_assoc. cbn [app].
  rewrite (hd_owner l (64 :: n) Al). destruct (l ++ 95 :: 95 :: 64 :: n) as [|c0 r] eqn:E; [destruct l; discriminate|]. reflexivity.
Qed.
Lemma add_local_spec l n s : table_ok s -> s_label s = Some l -> owner l -> local n -> (forall c, s_scope s = Some c -> valids c) ->
  let nm := l ++ 95 :: 95 :: n in let key := under (s_scope s) nm in
  exists a s', add_symbol n s = Ok (Some a) s' /\ table_ok s' /\ s_scope s' = s_scope s /\
  match resolve s (s_scope s) nm with
  | Some y => nth_error (s_syms s) a = Some y /\ forall k, untimed (dl s' k) = untimed (dl s k)
  | None => dl s' key = Some (fresh_local (s_scope s) nm) /\ nth_error (s_syms s') a = Some (fresh_local (s_scope s) nm) /\
            forall k, valids k -> fk k <> fk key -> single s k -> dl s' k = dl s k
  end.
Proof.
  intros T Hl Ol Ln Hsc nm key. rewrite (add_local_eq l n s Hl Ol Ln). fold nm. destruct Ol as (Vl & Dl & Al). destruct Ln as (V & H & D & C).
  assert (Vn : valids nm) by (apply Forall_app; split; [exact Vl|]; repeat (constructor; [split; lia|]); exact V).
  destruct (look_up_in_spec (s_scope s) nm s (proj1 T) Vn Hsc) as (r & s1 & E & Hr). unfold bind at 1. rewrite E.
  destruct r as [a|].
  - destruct Hr as (y & Hy & Hres & ->). rewrite Hres. exists a, (set_syms (upd a (y_times_inc y) (s_syms s)) s).
    split; [reflexivity|]. split; [split; [apply WF_upd; apply T|apply T]|]. split; [reflexivity|].
    split; [exact Hy|]. intros k. apply dl_bump, Hy.
  - destruct Hr as [Hres ->]. rewrite Hres.
    assert (Vk : valids key) by (apply valids_under; auto).
    destruct (sym_insert_ok key (fresh_local (s_scope s) nm) s T Vk) as (a & s' & E1).
    destruct (sym_insert_spec _ _ _ _ _ T Vk E1) as (T' & O & N).
    assert (Dk : dl s key = None).
    { unfold resolve in Hres. unfold key, under. destruct (s_scope s) as [c|]; auto. destruct (dl s (dotted c nm)); congruence. }
    pose proof (recs_nil s key T Vk Dk) as R0. destruct (N R0) as [N1 N2].
    assert (Nd : ~ In 46 nm) by (unfold nm; rewrite in_app_iff; cbn [In]; intros [X|[X|[X|X]]]; [auto|lia|lia|auto]).
    assert (San : sanitize_symbol (fresh_local (s_scope s) nm) = fresh_local (s_scope s) nm).
    { unfold sanitize_symbol, fresh_local, new_symbol. cbn [y_mparam y_scope y_name]. rewrite split_last_none by exact Nd. destruct (s_scope s); reflexivity. }
    rewrite San in *. exists a, s'. split; [unfold bind, ret; fold key; rewrite E1; reflexivity|]. split; [exact T'|].
    split; [apply sym_insert_inv in E1; destruct E1 as (d & h & y' & _ & _ & ->); reflexivity|].
    split; [rewrite (dl_recs _ _ T' Vk), N1; reflexivity|]. split; [exact N2|].
    intros k Hk Ek S. rewrite (dl_recs _ _ T' Hk), (dl_recs _ _ T Hk). unfold single in S.
    destruct (O k Ek) as [-> | ->]; auto. destruct (recs s k) as [|x [|]]; cbn in *; auto; lia.
Qed.
(** a name of another label, or another name, keeps its meaning *)
Theorem add_local_apart l n l' n' s : table_ok s -> (forall k, valids k -> single s k) -> s_label s = Some l -> s_scope s = None -> owner l -> local n -> owner l' -> local n' ->
  fk l <> fk l' \/ fk n <> fk n' ->
  exists a s', add_symbol n s = Ok (Some a) s' /\ table_ok s' /\ dl s' (l ++ 95 :: 95 :: n) <> None /\ nth_error (s_syms s') a = dl s' (l ++ 95 :: 95 :: n) /\
    (dl s (l ++ 95 :: 95 :: n) <> None -> untimed (dl s' (l ++ 95 :: 95 :: n)) = untimed (dl s (l ++ 95 :: 95 :: n))) /\
    untimed (dl s' (l' ++ 95 :: 95 :: n')) = untimed (dl s (l' ++ 95 :: 95 :: n')).
Proof.
  intros T Sg Hl Sc Ol Ln Ol' Ln' Ne. destruct (add_local_spec l n s T Hl Ol Ln ltac:(intros c; congruence)) as (a & s' & E & T' & _ & H). rewrite Sc in H. cbn [resolve under] in H.
  exists a, s'. split; [exact E|]. split; [exact T'|].
  assert (Vn : valids (l ++ 95 :: 95 :: n)) by (apply Forall_app; split; [apply Ol|]; repeat (constructor; [split; lia|]); apply Ln).
  assert (Vn' : valids (l' ++ 95 :: 95 :: n')) by (apply Forall_app; split; [apply Ol'|]; repeat (constructor; [split; lia|]); apply Ln').
  destruct (dl s (l ++ 95 :: 95 :: n)) as [y|] eqn:Dl.
  - destruct H as [Hy H]. pose proof (H (l ++ 95 :: 95 :: n)) as H1. rewrite Dl in H1. split; [destruct (dl s' (l ++ 95 :: 95 :: n)); [discriminate|discriminate H1]|].
    split; [|split; [intros _; exact H1|apply H]].
    rewrite (add_local_eq l n s Hl Ol Ln), Sc in E. unfold look_up_in, sym_search, bind, gets in E. unfold dl, dlookup in Dl. cbn [fst snd] in Dl.
    destruct (dict_search (s_dict s) (l ++ 95 :: 95 :: n)) as [b|] eqn:X; [|discriminate].
    unfold sym_get, bind, gets in E. rewrite Dl in E. unfold ret, sym_set, modify in E. injection E as <- <-. unfold dl, dlookup. cbn [fst snd s_dict s_syms set_syms]. rewrite X. reflexivity.
  - destruct H as (H1 & H2 & H3). split; [congruence|]. split; [congruence|]. split; [congruence|]. f_equal. apply H3; [exact Vn'| |apply Sg, Vn'].
    intros X. destruct (local_name_inj l' n' l n) as [A B]; [apply Ol'|apply Ol|apply Ln'|apply Ln|exact X|]. destruct Ne; congruence.
Qed.
