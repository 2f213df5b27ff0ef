(** Specification of expressions, written from the meaning of the operators in C and not from the model's
    evaluator: a value and the number of divisions by zero met, or nothing when C leaves the result open
    (a result outside int, a shift by a negative count or by 32 and more). *)
From Verif Require Import Base State.
Open Scope Z_scope.

Definition fits (v : Z) : option Z := if (-2147483648 <=? v) && (v <=? 2147483647) then Some v else None.
(** two's complement *)
Definition wrap (v : Z) : Z := (v + 2147483648) mod 4294967296 - 2147483648.
Definition truth (b : bool) : Z := if b then 1 else 0.

Definition sem_un (o : opr) (v : Z) : option Z :=
  match o with
  | OUminus => fits (- v)
  | OLo => Some (v mod 256)
  | OHi => Some (v / 256 mod 256)
  | OCompl => Some (if (0 <=? v) && (v <=? 255) then 255 - v else (-1 - v) mod 65536)
  | ONot => Some (truth (v =? 0))
  | _ => None
  end.

Definition sem_bin (o : opr) (a b : Z) : option Z :=
  match o with
  | OPlus => fits (a + b) | OMinus => fits (a - b) | OMul => fits (a * b)
  | ODiv => fits (Z.quot a b)
  | OBitOr => Some (Z.lor a b) | OBitAnd => Some (Z.land a b) | OXor => Some (Z.lxor a b)
  | OLt => Some (truth (a <? b)) | OGt => Some (truth (b <? a)) | OLe => Some (truth (a <=? b))
  | OGe => Some (truth (b <=? a)) | OEq => Some (truth (a =? b)) | ONe => Some (truth (negb (a =? b)))
  | OShl => if (0 <=? b) && (b <=? 31) then Some (wrap (a * 2 ^ b)) else None
  | OShr => if (0 <=? b) && (b <=? 31) then Some (a / 2 ^ b) else None
  | _ => None
  end.

(** [env] gives the value of a name, [pc] the value of '*'.  A division by zero counts and has the value 0; the
    divisor is looked at before the dividend and, when it is not 0, once more for the division itself. *)
Fixpoint sem (env : cstr -> Z) (pc : Z) (e : expr) : option (Z * Z) :=
  match e with
  | EInt v => Some (v, 0)
  | ESym n => Some (env n, 0)
  | EPc => Some (pc, 0)
  | EUn o a =>
      match sem env pc a with
      | Some (v, k) => match sem_un o v with Some w => Some (w, k) | None => None end
      | None => None
      end
  | EBin ODiv a b =>
      match sem env pc b with
      | None => None
      | Some (vb, kb) =>
          if vb =? 0 then Some (0, kb + 1)
          else match sem env pc a with
               | None => None
               | Some (va, ka) => match sem_bin ODiv va vb with Some w => Some (w, kb + ka + kb) | None => None end
               end
      end
  | EBin OOr a b =>
      match sem env pc a with
      | None => None
      | Some (va, ka) =>
          if va =? 0 then match sem env pc b with Some (vb, kb) => Some (truth (negb (vb =? 0)), ka + kb) | None => None end
          else Some (1, ka)
      end
  | EBin OAnd a b =>
      match sem env pc a with
      | None => None
      | Some (va, ka) =>
          if va =? 0 then Some (0, ka)
          else match sem env pc b with Some (vb, kb) => Some (truth (negb (vb =? 0)), ka + kb) | None => None end
      end
  | EBin o a b =>
      match sem env pc a, sem env pc b with
      | Some (va, ka), Some (vb, kb) => match sem_bin o va vb with Some w => Some (w, ka + kb) | None => None end
      | _, _ => None
      end
  end.

(** expressions the grammar can produce (pasm.y:200-245) *)
Definition is_un (o : opr) : bool := match o with OUminus | OLo | OHi | OCompl | ONot => true | _ => false end.
Definition is_bin (o : opr) : bool :=
  match o with
  | OPlus | OMinus | OMul | ODiv | OBitOr | OBitAnd | OXor | OLt | OGt | OLe | OGe | OEq | ONe | OOr | OAnd | OShl | OShr => true
  | _ => false
  end.
Fixpoint wfe (e : expr) : bool :=
  match e with
  | EUn o a => is_un o && wfe a
  | EBin o a b => is_bin o && wfe a && wfe b
  | _ => true
  end.

Fixpoint names (e : expr) : list cstr :=
  match e with
  | ESym n => [n]
  | EUn _ a => names a
  | EBin _ a b => names a ++ names b
  | _ => []
  end.

Fixpoint height (e : expr) : nat :=
  match e with EUn _ a => S (height a) | EBin _ a b => S (Nat.max (height a) (height b)) | _ => 1%nat end.
