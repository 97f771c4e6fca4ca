(** * Range: the model in binary64, and how large its numbers can get *)
From Coq Require Import String List ZArith QArith Qcanon Bool Reals Lia.
From Coq Require Import Floats.SpecFloat.
From Verif Require Import Py Num UnitsData UnitsStruct Units Expr Rounding.
Import ListNotations.
Local Open Scope string_scope.
Local Open Scope list_scope.

(** ** The model in binary64, with [p] for [x ** q] *)
Definition pv_map {A B} (f : A -> B) (v : pyval A) : pyval B :=
  match v with
  | VNum x => VNum (f x)
  | VNone => VNone
  | VObj => VObj
  | VUnit u => VUnit (UO (uc u) (f (uv u)) (un u) (ue u))
  | VMulti m => VMulti (MO (mc m) (f (mv m)) (mtop m) (mbot m))
  end.
Definition beval (p : spec_float -> Qc -> res spec_float) (enc : R -> spec_float) (e : expr) : res (pyval spec_float) :=
  @geval spec_float (Bpow p) (pv_map enc) e.
Definition bmulti (p : spec_float -> Qc -> res spec_float) (m : multi_obj spec_float) (target : string) : res (multi_obj spec_float) :=
  @multi_convert_to spec_float (Bpow p) (@tables0 spec_float (Bpow p)) m target.
Definition bunit (p : spec_float -> Qc -> res spec_float) (w : unit_obj spec_float) (target : string) : res (unit_obj spec_float) :=
  @unit_convert_to spec_float (Bpow p) (@tables0 spec_float (Bpow p)) w target.

(** ** Counting roundings and bounding sizes

    [Some (n, k)] : after n roundings, of a size between 2^-k and 2^k or zero.
    [None] : might leave the range (k > 1000), or n > 1000000, or not known.
    The run stops where it would test or raise a number that is not known. *)
Definition size : Type := option (nat * Z).
Definition guard (n : nat) (k : Z) : size :=
  if (0 <=? k)%Z && (k <=? 1000)%Z && (Z.of_nat n <=? 1000000)%Z then Some (n, k) else None.
Definition lit_size (q : Q) : Z :=
  if (Z.abs (Qnum q) =? Zpos (Qden q))%Z then 0%Z
  else (Z.abs (Z.log2 (Z.abs (Qnum q)) - Z.log2 (Zpos (Qden q))) + 1)%Z.
Definition s_prod (x y : size) : size :=
  match x, y with Some (n, k), Some (n', k') => guard (S (n + n')) (k + k') | _, _ => None end.
Definition Snum (allowed : Qc -> bool) : Num size := {|
  nadd := fun x y => match x, y with Some (n, k), Some (n', k') => guard (S (Nat.max n n')) (Z.max k k' + 1) | _, _ => None end;
  nsub := fun _ _ => None;
  nmul := s_prod; ndiv := s_prod; nopp := fun x => x;
  nq := fun q => if Qeq_bool q 0 then None else guard (if whole q then O else 1%nat) (lit_size q);
  neqb := fun x _ => match x with None => true | Some _ => false end;
  nltb := fun _ _ => false;
  npow := fun x q => match x with
    | Some (n, k) =>
        match guard (S (repeats q * n)) (Z.of_nat (repeats q) * k) with
        | Some s => if allowed q then Ok (Some s) else Raise Unmodelled
        | None => Raise Unmodelled
        end
    | None => Raise Unmodelled
    end |}.
Definition known {A} (value : A -> size) (r : res A) : option nat :=
  match r with Ok x => option_map fst (value x) | Raise _ => None end.
Definition pv_size (v : pyval size) : size :=
  match v with
  | VNum s => s
  | VNone | VObj => Some (O, 0%Z)
  | VUnit u => uv u
  | VMulti m => mv m
  end.
(** Roundings of an expression over numbers of sizes [sz], of a conversion of a
    number of size [k]; [None] if the run might leave the range. *)
Definition fits (allowed : Qc -> bool) (sz : R -> Z) (e : expr) : option nat :=
  known pv_size (@geval size (Snum allowed) (pv_map (fun x => guard 0 (sz x))) e).
Definition fits_multi (allowed : Qc -> bool) (k : Z) (m : multi_obj spec_float) (target : string) : option nat :=
  known mv (@multi_convert_to size (Snum allowed) (@tables0 size (Snum allowed)) (MO (mc m) (guard 0 k) (mtop m) (mbot m)) target).
Definition fits_unit (allowed : Qc -> bool) (k : Z) (w : unit_obj spec_float) (target : string) : option nat :=
  known uv (@unit_convert_to size (Snum allowed) (@tables0 size (Snum allowed)) (UO (uc w) (guard 0 k) (un w) (ue w)) target).
