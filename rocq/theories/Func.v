(** * Func: the formulas with exp, log, sin and erf, in any arithmetic

    Formulas.v runs the formulas of the library on exact numbers.  Here the same
    formulas are terms that can be run on any [Num T] with functions [Fn T]; on
    exact numbers they run as in Formulas.v (FuncFacts.v, the lemmas run_...). *)
From Coq Require Import String List ZArith QArith Qcanon Bool Reals.
From Verif Require Import Py Num UnitsData UnitsStruct Units Expr Rounding Formulas.
Import ListNotations.
Local Open Scope string_scope.
Local Open Scope list_scope.
Local Open Scope R_scope.

(** ** Terms

    Values, the number pi, variables bound by [TLet] (Python's local variables,
    the last one first), the operators and the functions of the module math.
    [TErf] stands for erf or erfc, whichever the formula uses. *)
Inductive term :=
| TLeaf (v : pyval R)
| TPi
| TVar (n : nat)
| TLet (a b : term)
| TMul (a b : term)
| TDiv (a b : term)
| TAdd (a b : term)
| TSub (a b : term)
| TPow (a : term) (k : expo)
| TNeg (a : term)
| TExp (a : term)
| TLog (a : term)
| TSin (a : term)
| TErf (a : term).

Class Fn (T : Type) := {
  fpi : T;
  fexp : T -> T;
  flog : T -> res T;
  fsin : T -> T;
  ferf : T -> T
}.
Section Run.
Context {T : Type} {N : Num T} {F : Fn T}.
Variable leaf : pyval R -> pyval T.
(** The argument must be a number (no class of units.py has __float__). *)
Definition on_number (f : T -> res T) (v : pyval T) : res (pyval T) :=
  match v with VNum x => rmap VNum (f x) | _ => Raise ETypeError end.
Fixpoint teval (env : list (pyval T)) (t : term) : res (pyval T) :=
  match t with
  | TLeaf v => Ok (leaf v)
  | TPi => Ok (VNum fpi)
  | TVar n => match nth_error env n with Some v => Ok v | None => Raise EUnboundLocalError end
  | TLet a b => let* x := teval env a in teval (x :: env) b
  | TMul a b => let* x := teval env a in let* y := teval env b in py_mul x y
  | TDiv a b => let* x := teval env a in let* y := teval env b in py_div x y
  | TAdd a b => let* x := teval env a in let* y := teval env b in py_add x y
  | TSub a b => let* x := teval env a in let* y := teval env b in py_sub x y
  | TPow a k => let* x := teval env a in py_pow x k
  | TNeg a => let* x := teval env a in py_neg x
  | TExp a => let* x := teval env a in on_number (fun x => Ok (fexp x)) x
  | TLog a => let* x := teval env a in on_number flog x
  | TSin a => let* x := teval env a in on_number (fun x => Ok (fsin x)) x
  | TErf a => let* x := teval env a in on_number (fun x => Ok (ferf x)) x
  end.
End Run.

(** ** Exact numbers, and floats

    The module math on floats: some number for pi, some functions; log raises
    ValueError unless its argument is positive. *)
Definition Rlog (f : R -> R) (x : R) : res R := if Rltb 0 x then Ok (f x) else Raise EValueError.
Definition Rfn (erf : R -> R) : Fn R := {| fpi := PI; fexp := exp; flog := Rlog ln; fsin := sin; ferf := erf |}.
Record funs := Funs { m_pi : R; m_exp : R -> R; m_log : R -> R; m_sin : R -> R; m_erf : R -> R }.
Definition Ffn (m : funs) : Fn R := {| fpi := m_pi m; fexp := m_exp m; flog := Rlog (m_log m); fsin := m_sin m; ferf := m_erf m |}.
Definition exact (erf : R -> R) (t : term) : res (pyval R) := @teval R Rnum (Rfn erf) (fun v => v) [] t.
Definition floats (a : arith) (m : funs) (t : term) : res (pyval R) := @teval R (Fnum a) (Ffn m) (fun v => v) [] t.

(** ** The formulas *)
Notation num x := (TLeaf (VNum x%R)).
(** heat_transfer/steady_state_conduction.py:135-162 and
    mass_transfer/steady_state_diffusion.py:90. *)
Definition pipe_term (k T1 T2 length r2 r1 : pyval R) : term :=
  TMul (TMul (TMul (TMul (num (-2)) TPi) (TLeaf length)) (TLeaf k))
       (TDiv (TSub (TLeaf T2) (TLeaf T1)) (TLog (TDiv (TLeaf r2) (TLeaf r1)))).
(** heat_transfer/heat_exchangers.py:63-71, not cocurrent. *)
Definition log_mean_term (T0A T1A T0B T1B : pyval R) : term :=
  TLet (TSub (TLeaf T0A) (TLeaf T1B)) (TLet (TSub (TLeaf T1A) (TLeaf T0B))
    (TDiv (TSub (TVar 1) (TVar 0)) (TLog (TDiv (TVar 1) (TVar 0))))).
(** heat_transfer/non_steady_state_conduction.py:59-101. *)
Definition semi_infinite_term (Ts To z time rho Cp k : pyval R) : term :=
  TLet (TDiv (TLeaf k) (TMul (TLeaf rho) (TLeaf Cp)))
    (TSub (TLeaf Ts) (TMul (TSub (TLeaf Ts) (TLeaf To))
      (TErf (TDiv (TLeaf z) (TPow (TMul (TMul (num 4) (TVar 0)) (TLeaf time)) half_))))).
(** Lines 103-149. *)
Definition lumped_exponent (h A rho cP V time : pyval R) : expr :=
  EDiv (ENeg (EMul (EMul (ELeaf h) (ELeaf A)) (ELeaf time))) (EMul (EMul (ELeaf rho) (ELeaf cP)) (ELeaf V)).
(** What erf is taken of in a half-space: mass and heat. *)
Definition reach (z D t : pyval R) : expr := EDiv (ELeaf z) (EPow (EMul (EMul (ELeaf (VNum 4)) (ELeaf D)) (ELeaf t)) half_).
Definition diffusivity (k rho Cp : pyval R) : expr := EDiv (ELeaf k) (EMul (ELeaf rho) (ELeaf Cp)).
Definition reach_heat (z k rho Cp t : pyval R) : expr := EDiv (ELeaf z) (EPow (EMul (EMul (ELeaf (VNum 4)) (diffusivity k rho Cp)) (ELeaf t)) half_).
(** An expression as a term. *)
Fixpoint plain (e : expr) : term :=
  match e with
  | ELeaf v => TLeaf v
  | EMul a b => TMul (plain a) (plain b)
  | EDiv a b => TDiv (plain a) (plain b)
  | EAdd a b => TAdd (plain a) (plain b)
  | ESub a b => TSub (plain a) (plain b)
  | EPow a k => TPow (plain a) k
  | ENeg a => TNeg (plain a)
  end.
Definition lumped_term (Tf To h A rho cP V time : pyval R) : term :=
  TSub (TLeaf Tf) (TMul (TSub (TLeaf Tf) (TLeaf To)) (TExp (plain (lumped_exponent h A rho cP V time)))).
(** Lines 151-197. *)
Definition odd_ (n : nat) : R := 2 * INR n + 1.
Fixpoint sum_term (f : nat -> term) (n : nat) : term :=
  match n with
  | O => num 0
  | S n => TAdd (sum_term f n) (f n)
  end.
Definition slab_decay (alpha time s : term) (n : nat) : term :=
  TExp (TMul (TNeg (TPow (TMul (num (odd_ n)) (TDiv TPi (num 2))) (eint 2))) (TDiv (TMul alpha time) (TPow s (eint 2)))).
Definition slab_term_ (x s time : pyval R) (n : nat) : term :=
  TMul (TMul (TDiv (num 1) (num (odd_ n)))
             (TSin (TDiv (TMul (TMul (num (odd_ n)) TPi) (TLeaf x)) (TMul (num 2) (TLeaf s)))))
       (slab_decay (TVar 0) (TLeaf time) (TLeaf s) n).
Definition finite_slab_term (Ts To x s k rho Cp time : pyval R) (iterations : nat) : term :=
  TLet (TDiv (TLeaf k) (TMul (TLeaf rho) (TLeaf Cp)))
    (TLet (sum_term (slab_term_ x s time) (S iterations))
      (TSub (TLeaf Ts) (TMul (TMul (TSub (TLeaf Ts) (TLeaf To)) (TDiv (num 4) TPi)) (TVar 0)))).
(** Lines 200-251. *)
Definition slab_heat_term_ (time s : pyval R) (n : nat) : term :=
  TMul (TDiv (num 1) (num (odd_ n ^ 2))) (TSub (num 1) (slab_decay (TVar 0) (TLeaf time) (TLeaf s) n)).
Definition total_heat_term (s rho cp Ts To k time area : pyval R) (iterations : nat) : term :=
  TLet (TDiv (TMul (TMul (TMul (TMul (TMul (num 8) (TLeaf s)) (TLeaf rho)) (TLeaf cp)) (TSub (TLeaf Ts) (TLeaf To))) (TLeaf area))
             (TPow TPi (eint 2)))
    (TLet (TDiv (TLeaf k) (TMul (TLeaf rho) (TLeaf cp)))
      (TLet (sum_term (slab_heat_term_ time s) iterations)
        (TMul (TVar 2) (TVar 0)))).
(** mass_transfer/non_steady_state_diffusion.py:8-91. *)
Definition semi_infinite_diffusion_term (Cs Co z D t : pyval R) : term :=
  TSub (TLeaf Cs) (TMul (TSub (TLeaf Cs) (TLeaf Co)) (TErf (TDiv (TLeaf z) (TPow (TMul (TMul (num 4) (TLeaf D)) (TLeaf t)) half_)))).
Definition slab_diffusion_term_ (a z D t : pyval R) (n : nat) : term :=
  TMul (num ((-1) ^ n))
    (TAdd (TErf (TDiv (TAdd (TMul (num (odd_ n)) (TLeaf a)) (TLeaf z)) (TPow (TMul (TMul (num 4) (TLeaf D)) (TLeaf t)) half_)))
          (TErf (TDiv (TSub (TMul (num (odd_ n)) (TLeaf a)) (TLeaf z)) (TPow (TMul (TMul (num 4) (TLeaf D)) (TLeaf t)) half_)))).
Definition finite_diffusion_term (Cs Co a z D t : pyval R) (iterations : nat) : term :=
  TLet (sum_term (slab_diffusion_term_ a z D t) iterations)
    (TSub (TLeaf Cs) (TMul (TSub (TLeaf Cs) (TLeaf Co)) (TVar 0))).
(** mass_transfer/diffusion_scenarios.py:10-138; [m] is the mass as the shape, the
    length or the area leave it. *)
Definition pulse_exponent (distance D time : pyval R) : expr :=
  EDiv (ENeg (EPow (ELeaf distance) (eint 2))) (EMul (EMul (ELeaf (VNum 4)) (ELeaf D)) (ELeaf time)).
Definition pulse_mass (initial_mass : pyval R) (shape : string) : term :=
  if String.eqb shape "hemisphere" then TMul (num 2) (TLeaf initial_mass)
  else if String.eqb shape "cube" then TMul (num 8) (TLeaf initial_mass) else TLeaf initial_mass.
Definition pulse_spread (D time : pyval R) : term := TMul (TMul (TMul (num 4) TPi) (TLeaf D)) (TLeaf time).
Definition pulse_term (m bottom : term) (distance D time : pyval R) : term :=
  TLet m (TLet (TMul (TVar 0) (TExp (plain (pulse_exponent distance D time))))
    (TLet bottom (TDiv (TVar 1) (TVar 0)))).
Definition three_d_term (initial_mass distance D time : pyval R) (shape : string) : term :=
  pulse_term (pulse_mass initial_mass shape) (TPow (pulse_spread D time) (eflt (Q2Qc (3 # 2)))) distance D time.
Definition two_d_term (initial_mass L distance D time : pyval R) : term :=
  pulse_term (TDiv (TLeaf initial_mass) (TLeaf L)) (pulse_spread D time) distance D time.
Definition one_d_term (initial_mass area distance D time : pyval R) : term :=
  pulse_term (TDiv (TLeaf initial_mass) (TLeaf area)) (TPow (pulse_spread D time) half_) distance D time.
(** reactions/reaction_parameters.py:118-128; [A] is the unit object the function
    makes of the number it is given. *)
Definition rate_exponent (Ea R_ T : pyval R) : expr := EDiv (ENeg (ELeaf Ea)) (EMul (ELeaf R_) (ELeaf T)).
Definition rate_term (A Ea R_ T : pyval R) : term := TMul (TLeaf A) (TExp (plain (rate_exponent Ea R_ T))).
Definition energy_term (A R_ T k : pyval R) : term :=
  TMul (TMul (TNeg (TLog (plain (EDiv (ELeaf k) (ELeaf A))))) (TLeaf R_)) (TLeaf T).
Definition rate_temperature_term (A Ea R_ k : pyval R) : term :=
  TDiv (num 1) (TDiv (TMul (TLog (plain (EDiv (ELeaf k) (ELeaf A)))) (TLeaf R_)) (TNeg (TLeaf Ea))).
