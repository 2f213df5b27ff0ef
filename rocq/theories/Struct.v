(** What statements with variables, conditions and loops stand for: a program that runs, where data directives append
    their bytes.  [env] holds the values of the names, [pc] is the value of *.  Nothing here refers to the assembler's
    state. *)
From Coq Require Import String Lia.
From Verif Require Import Base Opcodes Str State Sem OpProofs InstrProofs DataProofs Layout.
Open Scope string_scope.
Open Scope list_scope.
Open Scope Z_scope.

(** the value of an expression: no undefined arithmetic, no error reported *)
Definition val_of (env : cstr -> Z) (pc : Z) (e : expr) : option Z := match sem env pc e with Some (v, 0) => Some v | _ => None end.
(** [n] gets the value [v]; upper and lower case are the same *)
Definition with_value (env : cstr -> Z) (n : cstr) (v : Z) : cstr -> Z :=
  fun m => if list_eq_dec Z.eq_dec (map tolower m) (map tolower n) then v else env m.
(** a .FOR variable has passed the end *)
Definition beyond (end_ step v : Z) : Prop := (0 < step /\ end_ < v) \/ (step < 0 /\ v < end_).

Section Run.
(** the processor: 65C02, undocumented opcodes *)
Variables c02 ill : bool.
(** an instruction whose operand, an address or a byte, has a value: in the mode that fits the value; branches must reach *)
Definition instr_bytes (env : cstr -> Z) (pc instr : Z) (f : opform) : option (list Z) :=
  match form f with
  | inl k => Some [opc c02 ill instr k]
  | inr (m, e) =>
      match val_of env pc e with
      | Some v => let '(k, refused) := select (has c02 ill instr) m v in
          if negb (is_word v) || refused || far k pc v then None else Some (code (opc c02 ill instr k) k pc v)
      | None => None
      end
  end.
(** [runs env pc st env' pc' o]: the statement run in [env] at [pc] leads to [env'] and [pc'] and has the bytes [o] *)
Inductive runs : (cstr -> Z) -> Z -> stmt -> (cstr -> Z) -> Z -> list Z -> Prop :=
| RunEmpty env pc : runs env pc SEmpty env pc []
| RunData env pc size l o : size = 1 \/ size = 2 -> items_bytes env size pc l = Some o ->
    runs env pc (SData size l) env (pc + Z.of_nat (length o)) o
| RunOp env pc instr f o : instr_bytes env pc instr f = Some o -> runs env pc (SOp instr f) env (pc + Z.of_nat (length o)) o
| RunAssign env pc n e v : val_of env pc e = Some v -> runs env pc (SAssign n e) (with_value env n v) pc []
| RunThen env pc e b el v env' pc' o : val_of env pc e = Some v -> v <> 0 -> body_runs env pc b env' pc' o -> runs env pc (SIf e b el) env' pc' o
| RunElse env pc e b el env' pc' o : val_of env pc e = Some 0 -> body_runs env pc el env' pc' o -> runs env pc (SIf e b (Some el)) env' pc' o
| RunNot env pc e b : val_of env pc e = Some 0 -> runs env pc (SIf e b None) env pc []
| RunWhile env pc e b env' pc' o : while_runs e b env pc env' pc' o -> runs env pc (SWhile e b) env' pc' o
| RunRepeat env pc e b env' pc' o : do_runs true e b env pc env' pc' o -> runs env pc (SRepeat b e) env' pc' o
| RunDo env pc e b env' pc' o : do_runs false e b env pc env' pc' o -> runs env pc (SDo b e) env' pc' o
| RunFor env pc n e0 e1 step b next k v w env' pc' o :
    (match step with Some e => val_of env pc e | None => Some 1 end) = Some k -> val_of env pc e0 = Some v ->
    val_of (with_value env n v) pc e1 = Some w -> map tolower next = map tolower n ->
    for_runs n w k b (with_value env n v) pc env' pc' o -> runs env pc (SFor n e0 e1 step b next) env' pc' o
(** the statements of a body one after the other *)
with body_runs : (cstr -> Z) -> Z -> list (Z * stmt) -> (cstr -> Z) -> Z -> list Z -> Prop :=
| BodyNil env pc : body_runs env pc [] env pc []
| BodySnoc env pc l ln st env1 pc1 o1 env2 pc2 o2 : body_runs env pc l env1 pc1 o1 -> runs env1 pc1 st env2 pc2 o2 ->
    body_runs env pc (l ++ [(ln, st)]) env2 pc2 (o1 ++ o2)
(** as long as the condition is not 0; a turn must not leave the 64K *)
with while_runs : expr -> list (Z * stmt) -> (cstr -> Z) -> Z -> (cstr -> Z) -> Z -> list Z -> Prop :=
| WhileEnd e b env pc : val_of env pc e = Some 0 -> while_runs e b env pc env pc []
| WhileTurn e b env pc v env1 pc1 o1 env2 pc2 o2 : val_of env pc e = Some v -> v <> 0 -> body_runs env pc b env1 pc1 o1 -> pc1 <= 65535 ->
    while_runs e b env1 pc1 env2 pc2 o2 -> while_runs e b env pc env2 pc2 (o1 ++ o2)
(** the body, then the condition: until it is not 0, or while it is not 0 *)
with do_runs : bool -> expr -> list (Z * stmt) -> (cstr -> Z) -> Z -> (cstr -> Z) -> Z -> list Z -> Prop :=
| DoEnd (until : bool) e b env pc env1 pc1 o v : body_runs env pc b env1 pc1 o -> pc1 <= 65535 -> val_of env1 pc1 e = Some v ->
    (if until then v <> 0 else v = 0) -> do_runs until e b env pc env1 pc1 o
| DoTurn (until : bool) e b env pc env1 pc1 o1 v env2 pc2 o2 : body_runs env pc b env1 pc1 o1 -> pc1 <= 65535 -> val_of env1 pc1 e = Some v ->
    (if until then v = 0 else v <> 0) -> do_runs until e b env1 pc1 env2 pc2 o2 -> do_runs until e b env pc env2 pc2 (o1 ++ o2)
(** until the variable has passed the end; the step is added after each turn *)
with for_runs : cstr -> Z -> Z -> list (Z * stmt) -> (cstr -> Z) -> Z -> (cstr -> Z) -> Z -> list Z -> Prop :=
| ForEnd n w k b env pc : beyond w k (env n) -> for_runs n w k b env pc env pc []
| ForTurn n w k b env pc env1 pc1 o1 env2 pc2 o2 : ~ beyond w k (env n) -> body_runs env pc b env1 pc1 o1 -> pc1 <= 65535 ->
    for_runs n w k b (with_value env1 n (env1 n + k)) pc1 env2 pc2 o2 -> for_runs n w k b env pc env2 pc2 (o1 ++ o2).

Scheme runs_mut := Minimality for runs Sort Prop
  with body_mut := Minimality for body_runs Sort Prop
  with while_mut := Minimality for while_runs Sort Prop
  with do_mut := Minimality for do_runs Sort Prop
  with for_mut := Minimality for for_runs Sort Prop.
Combined Scheme all_runs from runs_mut, body_mut, while_mut, do_mut, for_mut.
End Run.

(** the names a statement mentions, and those it assigns to *)
Definition item_uses (i : item) : list cstr := match i with IExpr e => names e | IStr _ => [] end.
Definition operand_of (f : opform) : list expr := match form f with inl _ => [] | inr (_, e) => [e] end.
Fixpoint uses (st : stmt) : list cstr :=
  let body l := flat_map (fun x : Z * stmt => uses (snd x)) l in
  match st with
  | SData _ l => flat_map item_uses l
  | SOp _ f => flat_map names (operand_of f)
  | SAssign n e => n :: names e
  | SIf e b None => names e ++ body b
  | SIf e b (Some el) => names e ++ body b ++ body el
  | SWhile e b | SRepeat b e | SDo b e => names e ++ body b
  | SFor n e0 e1 step b next => n :: next :: names e0 ++ names e1 ++ match step with Some e => names e | None => [] end ++ body b
  | _ => []
  end.
Fixpoint targets (st : stmt) : list cstr :=
  let body l := flat_map (fun x : Z * stmt => targets (snd x)) l in
  match st with
  | SAssign n _ => [n]
  | SIf _ b None => body b
  | SIf _ b (Some el) => body b ++ body el
  | SWhile _ b | SRepeat b _ | SDo b _ => body b
  | SFor n _ _ _ b _ => n :: body b
  | _ => []
  end.
(** the operands of the instructions in a statement *)
Fixpoint operands (st : stmt) : list expr :=
  let body l := flat_map (fun x : Z * stmt => operands (snd x)) l in
  match st with
  | SOp _ f => operand_of f
  | SIf _ b None => body b
  | SIf _ b (Some el) => body b ++ body el
  | SWhile _ b | SRepeat b _ | SDo b _ => body b
  | SFor _ _ _ _ b _ => body b
  | _ => []
  end.
(** instructions the processor has; the accumulator is written A or a *)
Definition known_op (c02 ill : bool) (instr : Z) (f : opform) : Prop :=
  match form f with
  | inl k => In f [FImp; FAbs (ESym (cs "A")); FAbs (ESym (cs "a"))] /\ has c02 ill instr k = true /\ has c02 ill instr m_r = false
  | inr (m, e) => wfe e = true /\ ExprProofs.eager e = true /\ usable (has c02 ill instr) m = true
  end.
(** statements of these kinds only, with bodies that are not empty *)
Section Plain.
Variables c02 ill : bool.
Inductive plainly : stmt -> Prop :=
| PlEmpty : plainly SEmpty
| PlData size l : In size [1; 2] -> l <> [] -> Forall (fun i => match i with IExpr e => wfe e = true /\ ExprProofs.eager e = true | IStr raw => exists a t, text_of raw = Some (a :: t) end) l -> plainly (SData size l)
| PlOp instr f : known_op c02 ill instr f -> plainly (SOp instr f)
| PlAssign n e : wfe e = true -> plainly (SAssign n e)
| PlIf e b : wfe e = true -> plainly_all b -> plainly (SIf e b None)
| PlElse e b el : wfe e = true -> plainly_all b -> plainly_all el -> plainly (SIf e b (Some el))
| PlWhile e b : wfe e = true -> plainly_all b -> plainly (SWhile e b)
| PlRepeat e b : wfe e = true -> plainly_all b -> plainly (SRepeat b e)
| PlDo e b : wfe e = true -> plainly_all b -> plainly (SDo b e)
| PlFor n e0 e1 step b next : wfe e0 = true -> wfe e1 = true -> match step with Some e => wfe e = true | None => True end -> plainly_all b ->
    plainly (SFor n e0 e1 step b next)
with plainly_all : list (Z * stmt) -> Prop :=
| PlOne ln st : plainly st -> plainly_all [(ln, st)]
| PlSnoc l ln st : plainly_all l -> plainly st -> plainly_all (l ++ [(ln, st)]).

Scheme plainly_mut := Minimality for plainly Sort Prop with plainly_all_mut := Minimality for plainly_all Sort Prop.
Combined Scheme all_plainly from plainly_mut, plainly_all_mut.
End Plain.
