(** * Properties of unit arithmetic (C09-C23, C54-C56)

    [qty w v] (Spec.v) is the quantity the value [v] denotes in the unit system
    [w]; [adm_multi], [admissible] exclude only names whose first letter is
    wrongly taken for a prefix; [built] says that a constructor call returns the
    object. *)
From Coq Require Import String Ascii List ZArith QArith Qcanon Bool Reals Qreals Lra.
From Verif Require Import Py Num UnitsData UnitsStruct Units Spec SpecFacts OpFacts ClosureFacts
  FactorFacts LawFacts WitnessFacts PropFacts OpPropFacts Expr ExprFacts ExprCases OpSpec OpExactFacts ExprSpec ExprExact ExprRefuted.
Import ListNotations.
Local Open Scope string_scope.
Local Open Scope list_scope.
Local Open Scope R_scope.

(** ** C09 *)
Theorem C09_mul_multi : forall a b : multi_obj R, adm_multi a -> adm_multi b ->
  exists r, py_mul (VMulti a) (VMulti b) = Ok (VMulti r) /\ mc r = MMulti /\
  forall w x y, coherent w -> qty w (VMulti a) = Some x -> qty w (VMulti b) = Some y ->
    qty w (VMulti r) = Some (x * y).
Proof. exact mul_mm. Qed.
Print Assumptions C09_mul_multi.
Example C09_case : adm_multi (MO (MSub "Velocity") 3 [BU "km" ex1] [BU "hr" ex1]) /\
                   adm_multi (MO MMulti (-2) [BU "kJ" (eint 2); BU "lb" ex1] [BU "mol" ex1; BU "K" (eint (-3))]).
Proof. split; split; adm. Qed.

(** ** C10 *)
Theorem C10_div_multi : forall a b : multi_obj R, adm_multi a -> adm_multi b ->
  (mv b <> 0 -> exists r, py_div (VMulti a) (VMulti b) = Ok r /\
    forall w x y, coherent w -> qty w (VMulti a) = Some x -> qty w (VMulti b) = Some y -> qty w r = Some (x / y)) /\
  (mv b = 0 -> py_div (VMulti a) (VMulti b) = Raise EZeroDivisionError).
Proof. exact (fun a b ha hb => conj (div_mm a b ha hb) (div_mm_zero a b ha hb)). Qed.
Print Assumptions C10_div_multi.
Example C10_case : adm_multi kmps /\ mv kmps <> 0 /\ coherent si /\ qty si (VMulti kmps) = Some 5000.
Proof. exact kmps_case. Qed.

(** ** C11 *)
Theorem C11_div_multi_unit : forall (a : multi_obj R) (u : unit_obj R), adm_multi a -> admissible (un u) ->
  (uv u <> 0 -> exists r, py_div (VMulti a) (VUnit u) = Ok r /\
    forall w x y, coherent w -> qty w (VMulti a) = Some x -> qty w (VUnit u) = Some y -> qty w r = Some (x / y)) /\
  (uv u = 0 -> py_div (VMulti a) (VUnit u) = Raise EZeroDivisionError).
Proof. exact (fun a u ha hu => conj (div_mu a u ha hu) (div_mu_zero a u ha hu)). Qed.
Print Assumptions C11_div_multi_unit.
Example C11_case : adm_multi kmps /\ admissible (un (UO Length 2 "cm" (eint 3) : unit_obj R)).
Proof. split; [exact (proj1 kmps_adm)|apply admissible_b_ok; reflexivity]. Qed.

(** ** C12

    The full claim is that [qty w r = Some (x * y)] for all admissible names.
    It holds when no name carries a prefix; in general the result is too small by
    exactly the product of the prefixes, so it is wrong whenever that product
    is not 1 (5 km/s * 1 s gives 5 m). *)
Theorem C12_mul_multi_unit_partial : forall (a : multi_obj R) (u : unit_obj R), unp_multi a -> unprefixed (un u) ->
  exists r, py_mul (VMulti a) (VUnit u) = Ok r /\ py_mul (VUnit u) (VMulti a) = Ok r /\
  forall w x y, coherent w -> qty w (VMulti a) = Some x -> qty w (VUnit u) = Some y -> qty w r = Some (x * y).
Proof. exact mul_mu. Qed.
Print Assumptions C12_mul_multi_unit_partial.
Example C12_case : unp_multi (MO MMulti 3 [BU "kg" ex1; BU "m" ex1] [BU "min" (eint 2)]) /\ unprefixed "min".
Proof. exact C12_case_ok. Qed.
Theorem C12_mul_multi_unit_actual : forall (a : multi_obj R) (u : unit_obj R), adm_multi a -> admissible (un u) ->
  exists r, py_mul (VMulti a) (VUnit u) = Ok r /\ py_mul (VUnit u) (VMulti a) = Ok r /\
  forall w x y, coherent w -> qty w (VMulti a) = Some x -> qty w (VUnit u) = Some y ->
    qty w r = Some (x * y / (msize pscale (mtop a) (mbot a) * Rpower (pscale (un u)) (QcR (ev (ue u))))).
Proof. exact mul_mu_exact. Qed.
Print Assumptions C12_mul_multi_unit_actual.
(** Right exactly when a value is zero or the prefixes cancel. *)
Theorem C12_mul_multi_unit_exact : forall (a : multi_obj R) (u : unit_obj R), adm_multi a -> admissible (un u) ->
  exists r, py_mul (VMulti a) (VUnit u) = Ok r /\ forall w x y, coherent w -> qty w (VMulti a) = Some x -> qty w (VUnit u) = Some y ->
    (qty w r = Some (x * y) <-> x * y = 0 \/ mscale a * uscale u = 1).
Proof. exact mul_mu_iff. Qed.
Print Assumptions C12_mul_multi_unit_exact.
Theorem C12_mul_multi_unit_refuted : exists (a : multi_obj R) (u : unit_obj R) r x y,
  adm_multi a /\ admissible (un u) /\ built u /\
  py_mul (VMulti a) (VUnit u) = Ok r /\ qty si (VMulti a) = Some x /\ qty si (VUnit u) = Some y /\ qty si r <> Some (x * y).
Proof. exact mul_mu_refuted. Qed.
Print Assumptions C12_mul_multi_unit_refuted.

(** [m.__rmul__(u)], which no operator calls with a Unit, is [u * m]. *)
Theorem C12_rmul : forall (a : multi_obj R) (u : unit_obj R), multi_rmul a (VUnit u) = py_mul (VUnit u) (VMulti a).
Proof. exact rmul_is_mul. Qed.
Print Assumptions C12_rmul.

(** ** C13: as C12. *)
Theorem C13_div_unit_multi_partial : forall (a : multi_obj R) (u : unit_obj R), unp_multi a -> unprefixed (un u) -> mv a <> 0 ->
  exists r, py_div (VUnit u) (VMulti a) = Ok r /\
  forall w x y, coherent w -> qty w (VUnit u) = Some x -> qty w (VMulti a) = Some y -> qty w r = Some (x / y).
Proof. exact div_um. Qed.
Print Assumptions C13_div_unit_multi_partial.
Theorem C13_div_unit_multi_actual : forall (a : multi_obj R) (u : unit_obj R), adm_multi a -> admissible (un u) ->
  (mv a <> 0 -> exists r, py_div (VUnit u) (VMulti a) = Ok r /\
    forall w x y, coherent w -> qty w (VUnit u) = Some x -> qty w (VMulti a) = Some y ->
      qty w r = Some (x / y / (Rpower (pscale (un u)) (QcR (ev (ue u))) / msize pscale (mtop a) (mbot a)))) /\
  (mv a = 0 -> py_div (VUnit u) (VMulti a) = Raise EZeroDivisionError).
Proof. exact (fun a u ha hu => conj (div_um_exact a u ha hu) (div_um_zero a u ha hu)). Qed.
Print Assumptions C13_div_unit_multi_actual.
Theorem C13_div_unit_multi_exact : forall (a : multi_obj R) (u : unit_obj R), adm_multi a -> admissible (un u) -> mv a <> 0 ->
  exists r, py_div (VUnit u) (VMulti a) = Ok r /\ forall w x y, coherent w -> qty w (VUnit u) = Some x -> qty w (VMulti a) = Some y ->
    (qty w r = Some (x / y) <-> x / y = 0 \/ uscale u = mscale a).
Proof. exact div_um_iff. Qed.
Print Assumptions C13_div_unit_multi_exact.
Example C13_case : unp_multi (MO MMulti 3 [BU "kg" ex1; BU "m" ex1] [BU "min" (eint 2)]) /\ unprefixed "min" /\
  adm_multi (MO MMulti 3 [BU "kPa" ex1; BU "m" ex1] [BU "min" (eint 2)]) /\ admissible "mPa" /\ (3 <> 0)%R.
Proof.
  split; [exact (proj1 C12_case_ok)|]. split; [exact (proj2 C12_case_ok)|]. split; [split; adm|]. split; [apply admissible_b_ok; reflexivity|lra].
Qed.
Theorem C13_div_unit_multi_refuted : exists (a : multi_obj R) (u : unit_obj R) r x y,
  adm_multi a /\ admissible (un u) /\ built u /\ mv a <> 0 /\
  py_div (VUnit u) (VMulti a) = Ok r /\ qty si (VUnit u) = Some x /\ qty si (VMulti a) = Some y /\ qty si r <> Some (x / y).
Proof. exact div_um_refuted. Qed.
Print Assumptions C13_div_unit_multi_refuted.

(** ** C14

    Units of different class or name lose their exponents (2 ft^2 * 3 min). *)
Theorem C14_mul_unit_unit_partial : forall a b : unit_obj R, built a ->
  (uc a = uc b /\ un a = un b) \/ (ev (ue a) = qc 1 /\ ev (ue b) = qc 1) ->
  exists r, py_mul (VUnit a) (VUnit b) = Ok r /\
  forall w x y, positive w -> qty w (VUnit a) = Some x -> qty w (VUnit b) = Some y -> qty w r = Some (x * y).
Proof. exact mul_uu. Qed.
Print Assumptions C14_mul_unit_unit_partial.
Example C14_case : built (UO Pressure 2 "Pa" (eint 3)) /\
  exists r, py_mul (VUnit (UO Pressure 2 "Pa" (eint 3))) (VUnit (UO Pressure 5 "Pa" (eint (-1)))) = Ok (VUnit r) /\ ev (ue r) = qc 2.
Proof. exact C14_case_ok. Qed.
Theorem C14_mul_unit_unit_refuted : exists (a b : unit_obj R) r x y, built a /\ built b /\
  py_mul (VUnit a) (VUnit b) = Ok r /\ qty si (VUnit a) = Some x /\ qty si (VUnit b) = Some y /\ qty si r <> Some (x * y).
Proof. exact mul_uu_refuted. Qed.
Print Assumptions C14_mul_unit_unit_refuted.
(** What is lost, and exactly when nothing is. *)
Theorem C14_mul_unit_unit_actual : forall a b : unit_obj R, ~ (uc a = uc b /\ un a = un b) ->
  exists r, py_mul (VUnit a) (VUnit b) = Ok r /\
  forall w x y, positive w -> qty w (VUnit a) = Some x -> qty w (VUnit b) = Some y ->
    qty w r = Some (x * y / (Rpower (w (un a)) (QcR (ev (ue a)) - 1) * Rpower (w (un b)) (QcR (ev (ue b)) - 1))).
Proof. exact mul_uu_lost. Qed.
Print Assumptions C14_mul_unit_unit_actual.
Theorem C14_mul_unit_unit_exact : forall a b : unit_obj R, built a -> uv a <> 0 -> uv b <> 0 ->
  (exists r, py_mul (VUnit a) (VUnit b) = Ok r /\
     forall w x y, positive w -> qty w (VUnit a) = Some x -> qty w (VUnit b) = Some y -> qty w r = Some (x * y)) <->
  (uc a = uc b /\ un a = un b) \/ (ev (ue a) = qc 1 /\ ev (ue b) = qc 1) \/ (un a = un b /\ (ev (ue a) + ev (ue b))%Qc = qc 2).
Proof. exact mul_uu_right. Qed.
Print Assumptions C14_mul_unit_unit_exact.
Example C14_exact_case : built ft2 /\ uv ft2 <> 0 /\ uv min3 <> 0 /\ un ft2 <> un min3 /\ ev (ue ft2) <> qc 1.
Proof. split; [exact (proj1 C15_case_ok)|]. split; [cbn; lra|]. split; [exact (proj2 C15_case_ok)|]. split; discriminate. Qed.

(** ** C15 *)
Theorem C15_div_unit_unit : forall a b : unit_obj R, built a ->
  (uv b <> 0 -> exists r, py_div (VUnit a) (VUnit b) = Ok r /\
    forall w x y, positive w -> qty w (VUnit a) = Some x -> qty w (VUnit b) = Some y -> qty w r = Some (x / y)) /\
  (uv b = 0 -> py_div (VUnit a) (VUnit b) = Raise EZeroDivisionError).
Proof. exact (fun a b ha => conj (div_uu a b ha) (div_uu_zero a b)). Qed.
Print Assumptions C15_div_unit_unit.
Example C15_case : built ft2 /\ uv min3 <> 0.
Proof. exact C15_case_ok. Qed.

(** ** C16

    A Unit times a number loses its exponent; the claim holds for exponent 1, for
    MultiUnits, and for every division by a number. *)
Theorem C16_scale_partial : forall (a : pyval R) x, is_quantity a -> (forall u, a = VUnit u -> ev (ue u) = qc 1) ->
  exists r, py_mul a (VNum x) = Ok r /\ py_mul (VNum x) a = Ok r /\ shape r = shape a /\
    forall w y, qty w a = Some y -> qty w r = Some (y * x).
Proof. exact scale_partial. Qed.
Print Assumptions C16_scale_partial.
Theorem C16_scale_div : forall (a : pyval R) x, is_quantity a ->
  (x <> 0 -> exists r, py_div a (VNum x) = Ok r /\ shape r = shape a /\ forall w y, qty w a = Some y -> qty w r = Some (y / x)) /\
  (x = 0 -> py_div a (VNum x) = Raise EZeroDivisionError).
Proof. exact scale_div. Qed.
Print Assumptions C16_scale_div.
Example C16_case : is_quantity (VUnit ft2) /\ is_quantity (VMulti kmps).
Proof. exact (conj (proj1 C15_case_ok) I). Qed.
Theorem C16_scale_refuted : exists (a : unit_obj R) x r y, built a /\
  py_mul (VUnit a) (VNum x) = Ok r /\ py_mul (VNum x) (VUnit a) = Ok r /\ qty si (VUnit a) = Some y /\ qty si r <> Some (x * y).
Proof. exact scale_u_refuted. Qed.
Print Assumptions C16_scale_refuted.
(** The exponent becomes 1; the result is right exactly when it was 1. *)
Theorem C16_scale_exact : forall (a : unit_obj R) x, built a ->
  exists r, py_mul (VUnit a) (VNum x) = Ok r /\ py_mul (VNum x) (VUnit a) = Ok r /\ shape r = ([(un a, qc 1)], nil) /\
    (forall w y, positive w -> qty w (VUnit a) = Some y -> qty w r = Some (y * x / Rpower (w (un a)) (QcR (ev (ue a)) - 1))) /\
    (uv a <> 0 -> x <> 0 -> ((forall w y, positive w -> qty w (VUnit a) = Some y -> qty w r = Some (y * x)) <-> ev (ue a) = qc 1)).
Proof. exact scale_u_lost. Qed.
Print Assumptions C16_scale_exact.

(** ** C17 *)
Theorem C17_pow : forall (a : pyval R) k, is_quantity a ->
  (match a with VUnit u => 0 < uv u | VMulti m => 0 < mv m | _ => False end) ->
  exists r, py_pow a k = Ok r /\ forall w x, coherent w -> qty w a = Some x -> qty w r = Some (Rpower x (QcR (ev k))).
Proof. exact pow_all. Qed.
Print Assumptions C17_pow.
(** Whole powers of values of any sign. *)
Theorem C17_pow_int : forall (a : pyval R) t z, is_quantity a ->
  (match a with VUnit u => uv u <> 0 \/ (0 <= z)%Z | VMulti m => mv m <> 0 \/ (0 <= z)%Z | _ => False end) ->
  exists r, py_pow a (Ex t (qc z)) = Ok r /\ forall w x, coherent w -> qty w a = Some x -> qty w r = Some (powerRZ x z).
Proof. exact pow_int_all. Qed.
Print Assumptions C17_pow_int.
Example C17_case : is_quantity (VMulti kmps) /\ 0 < mv kmps /\ coherent si.
Proof. exact (conj I (conj (proj1 kmps_pos) coherent_si)). Qed.

(** ** C18 *)
Theorem C18_rdiv : forall (a : multi_obj R) x,
  (mv a <> 0 -> exists r, py_div (VNum x) (VMulti a) = Ok r /\
    forall w y, positive w -> qty w (VMulti a) = Some y -> qty w r = Some (x / y)) /\
  (mv a = 0 -> py_div (VNum x) (VMulti a) = Raise EZeroDivisionError).
Proof. exact (fun a x => conj (rdiv_num a x) (rdiv_num_zero a x)). Qed.
Print Assumptions C18_rdiv.
Theorem C18_neg : forall a : pyval R, is_quantity a -> exists r, py_neg a = Ok r /\ shape r = shape a /\
  (match a, r with VUnit u, VUnit u' => uc u' = uc u | VMulti m, VMulti m' => mc m' = mc m | _, _ => False end) /\
  forall w x, qty w a = Some x -> qty w r = Some (- x).
Proof. exact neg_all. Qed.
Print Assumptions C18_neg.
Example C18_case : mv kmps <> 0 /\ is_quantity (VUnit ft2).
Proof. exact (conj (proj2 kmps_pos) (proj1 C15_case_ok)). Qed.

(** ** C19 *)
Theorem C19_addsub : forall a b : pyval R, is_quantity a -> is_quantity b ->
  (py_add a b = Raise ETypeError \/
   exists r, py_add a b = Ok r /\ shape a = shape b /\ shape r = shape a /\
     forall w x y, qty w a = Some x -> qty w b = Some y -> qty w r = Some (x + y)) /\
  (py_sub a b = Raise ETypeError \/
   exists r, py_sub a b = Ok r /\ shape a = shape b /\ shape r = shape a /\
     forall w x y, qty w a = Some x -> qty w b = Some y -> qty w r = Some (x - y)).
Proof. exact addsub_sound. Qed.
Print Assumptions C19_addsub.
(** Operands of one class and the same unit can always be added. *)
Theorem C19_addsub_defined : forall a b : pyval R, is_quantity a -> is_quantity b ->
  (match a, b with
   | VUnit u, VUnit w => uc u = uc w \/ uc u = UUnit
   | VMulti m, VMulti m' => mc m = mc m'
   | _, _ => False
   end) -> shape a = shape b -> (exists r, py_add a b = Ok r) /\ (exists r, py_sub a b = Ok r).
Proof. exact addsub_complete. Qed.
Print Assumptions C19_addsub_defined.
Example C19_case : is_quantity (VMulti kmps) /\ is_quantity (VMulti kmps1) /\ shape (VMulti kmps) = shape (VMulti kmps1).
Proof. repeat split. Qed.

(** ** C20 *)
Theorem C20_commutative : forall a b : multi_obj R, adm_multi a -> adm_multi b ->
  exists r r', py_mul (VMulti a) (VMulti b) = Ok r /\ py_mul (VMulti b) (VMulti a) = Ok r' /\
  forall w, coherent w -> qty w r = qty w r' /\ qty w r <> None.
Proof. exact mul_comm. Qed.
Print Assumptions C20_commutative.
Theorem C20_associative : forall a b c : multi_obj R, adm_multi a -> adm_multi b -> adm_multi c ->
  exists ab bc r r', py_mul (VMulti a) (VMulti b) = Ok ab /\ py_mul ab (VMulti c) = Ok r /\
    py_mul (VMulti b) (VMulti c) = Ok bc /\ py_mul (VMulti a) bc = Ok r' /\
  forall w, coherent w -> qty w r = qty w r' /\ qty w r <> None.
Proof. exact mul_assoc. Qed.
Print Assumptions C20_associative.

(** ** C21 *)
Theorem C21_mul_div : forall a b : multi_obj R, adm_multi a -> adm_multi b -> mv b <> 0 ->
  exists ab r, py_mul (VMulti a) (VMulti b) = Ok ab /\ py_div ab (VMulti b) = Ok r /\
  forall w, coherent w -> qty w r = qty w (VMulti a).
Proof. exact mul_div. Qed.
Print Assumptions C21_mul_div.
Theorem C21_div_self : (forall a : multi_obj R, mv a <> 0 -> py_div (VMulti a) (VMulti a) = Ok (VNum 1)) /\
  (forall a : unit_obj R, uv a <> 0 -> py_div (VUnit a) (VUnit a) = Ok (VNum 1)).
Proof. exact (conj div_self div_self_unit). Qed.
Print Assumptions C21_div_self.
Example C20_C21_case : adm_multi kmps /\ mv kmps <> 0.
Proof. exact (conj (proj1 kmps_adm) (proj2 kmps_pos)). Qed.

(** ** C22

    Reflexivity, symmetry, soundness for Units hold; soundness for MultiUnits
    holds when no half repeats a name (MultiUnits are compared as sets: ft*ft
    equals ft); transitivity fails only through the plain class Unit, which is
    equal to every class. *)
Theorem C22_reflexive_symmetric : (forall a : pyval R, py_eq a a = true) /\ (forall a b : pyval R, py_eq a b = py_eq b a).
Proof. exact (conj eq_refl_py eq_sym_py). Qed.
Print Assumptions C22_reflexive_symmetric.
Theorem C22_unit_exact : forall u v : unit_obj R, py_eq (VUnit u) (VUnit v) = true <->
  (uc u = uc v \/ uc u = UUnit \/ uc v = UUnit) /\ uv u = uv v /\ un u = un v /\ ev (ue u) = ev (ue v).
Proof. exact unit_eq_char. Qed.
Print Assumptions C22_unit_exact.
Theorem C22_unit_sound : forall a b : unit_obj R, py_eq (VUnit a) (VUnit b) = true -> forall w, qty w (VUnit a) = qty w (VUnit b).
Proof. exact unit_eq_sound. Qed.
Print Assumptions C22_unit_sound.
Theorem C22_multi_sound_partial : forall a b : multi_obj R,
  NoDup (map bname (mtop a)) -> NoDup (map bname (mbot a)) -> NoDup (map bname (mtop b)) -> NoDup (map bname (mbot b)) ->
  py_eq (VMulti a) (VMulti b) = true -> forall w, qty w (VMulti a) = qty w (VMulti b).
Proof. exact multi_eq_sound. Qed.
Print Assumptions C22_multi_sound_partial.
Theorem C22_multi_sound_refuted : exists (a b : multi_obj R) x y, adm_multi a /\ adm_multi b /\ py_eq (VMulti a) (VMulti b) = true /\
  qty si (VMulti a) = Some x /\ qty si (VMulti b) = Some y /\ x <> y.
Proof. exact multi_eq_refuted. Qed.
Print Assumptions C22_multi_sound_refuted.
(** MultiUnits are equal when class, value and the sets of entries agree. *)
Theorem C22_multi_exact : forall a b : multi_obj R, py_eq (VMulti a) (VMulti b) = true <->
  mc a = mc b /\ mv a = mv b /\ listed_in (mtop a) (mtop b) /\ listed_in (mtop b) (mtop a) /\ listed_in (mbot a) (mbot b) /\ listed_in (mbot b) (mbot a).
Proof. exact multi_eq_exact. Qed.
Print Assumptions C22_multi_exact.
Theorem C22_transitive_partial :
  (forall a b c : multi_obj R, py_eq (VMulti a) (VMulti b) = true -> py_eq (VMulti b) (VMulti c) = true -> py_eq (VMulti a) (VMulti c) = true) /\
  (forall a b c : unit_obj R, uc b <> UUnit \/ uc a = UUnit \/ uc c = UUnit ->
     py_eq (VUnit a) (VUnit b) = true -> py_eq (VUnit b) (VUnit c) = true -> py_eq (VUnit a) (VUnit c) = true).
Proof. exact (conj trans_multi trans_typed). Qed.
Print Assumptions C22_transitive_partial.
Theorem C22_transitive_refuted : exists a b c : pyval R, is_quantity a /\ is_quantity b /\ is_quantity c /\
  py_eq a b = true /\ py_eq b c = true /\ py_eq a c = false.
Proof. exact trans_refuted. Qed.
Print Assumptions C22_transitive_refuted.
(** All the ways in which it fails, for values of any kind. *)
Theorem C22_transitive_exact : forall a b c : pyval R, py_eq a b = true -> py_eq b c = true ->
  (py_eq a c = false <-> exists u v w, a = VUnit u /\ b = VUnit v /\ c = VUnit w /\ uc v = UUnit /\ uc u <> UUnit /\ uc w <> UUnit /\ uc u <> uc w).
Proof. exact trans_exact. Qed.
Print Assumptions C22_transitive_exact.
Example C22_case : py_eq (VMulti (MO MMulti 2 [BU "m" ex1; BU "s" (eint 2)] [BU "K" ex1]))
                         (VMulti (MO MMulti 2 [BU "s" (eint 2); BU "m" (eint 1)] [BU "K" ex1])) = true.
Proof. exact C22_case_ok. Qed.

(** ** C23

    MultiUnit * obj and MultiUnit / obj build the TypeError without raising it
    and return None; all other combinations raise. *)
Theorem C23_foreign_partial : forall a : pyval R, is_quantity a -> forall o, o = VObj \/ o = VNone ->
  py_add a o = Raise ETypeError /\ py_sub a o = Raise ETypeError /\ py_add o a = Raise ETypeError /\ py_sub o a = Raise ETypeError /\
  py_mul o a = Raise ETypeError /\ py_div o a = Raise ETypeError /\
  (forall u, a = VUnit u -> py_mul a o = Raise ETypeError /\ py_div a o = Raise ETypeError) /\
  (forall m, a = VMulti m -> py_mul a o = Ok VNone /\ py_div a o = Ok VNone).
Proof. exact foreign_partial. Qed.
Print Assumptions C23_foreign_partial.
Theorem C23_foreign_refuted : exists m : multi_obj R, py_mul (VMulti m) VObj = Ok VNone /\ py_div (VMulti m) VObj = Ok VNone.
Proof. exact foreign_refuted. Qed.
Print Assumptions C23_foreign_refuted.
Example C23_case : is_quantity (VUnit ft2) /\ is_quantity (VMulti kmps).
Proof. exact (conj (proj1 C15_case_ok) I). Qed.

(** ** C54 *)
Theorem C54_expressions_stay_well_formed : forall e r,
  (forall v, In v (leaves e) -> good v) -> eval e = Ok r -> good r.
Proof. exact expr_good. Qed.
Print Assumptions C54_expressions_stay_well_formed.
Theorem C54_expression_errors : forall e x, (forall v, In v (leaves e) -> good v) -> eval e = Raise x ->
  x = ETypeError \/ x = EZeroDivisionError \/ x = Unmodelled.
Proof. exact expr_exn. Qed.
Print Assumptions C54_expression_errors.
(** Products of any good values are always defined; quotients unless the divisor
    is zero or a number is divided by a Unit. *)
Theorem C54_mul_defined : forall a b : pyval R, good a -> good b -> exists r, py_mul a b = Ok r.
Proof. exact mul_total. Qed.
Print Assumptions C54_mul_defined.
Theorem C54_div_defined : forall a b : pyval R, good a -> good b ->
  (value b = 0 /\ ((forall x, a <> VNum x) \/ (forall u, b <> VUnit u)) -> py_div a b = Raise EZeroDivisionError) /\
  (value b <> 0 -> (forall x, a <> VNum x) \/ (forall u, b <> VUnit u) -> exists r, py_div a b = Ok r) /\
  (forall x u, a = VNum x -> b = VUnit u -> py_div a b = Raise ETypeError).
Proof. exact div_total. Qed.
Print Assumptions C54_div_defined.
Example C54_case : (forall v, In v (leaves force_over_area) -> good v) /\ exists r, eval force_over_area = Ok r.
Proof. exact (conj (proj1 force_case) (proj2 (proj2 (proj2 force_case)))). Qed.

(** ** C55 *)
Theorem C55_add_number_partial : forall (a : unit_obj R) x, built a -> ev (ue a) = qc 1 ->
  exists r s, py_add (VUnit a) (VNum x) = Ok (VUnit r) /\ py_sub (VUnit a) (VNum x) = Ok (VUnit s) /\
    shape (VUnit r) = shape (VUnit a) /\ shape (VUnit s) = shape (VUnit a) /\ uc r = uc a /\ uc s = uc a /\
    uv r = uv a + x /\ uv s = uv a - x.
Proof. exact add_num_partial. Qed.
Print Assumptions C55_add_number_partial.
Theorem C55_add_number_refuted : exists (a : unit_obj R) x r, built a /\ py_add (VUnit a) (VNum x) = Ok r /\ shape r <> shape (VUnit a).
Proof. exact add_num_refuted. Qed.
Print Assumptions C55_add_number_refuted.
(** The exponent becomes 1. *)
Theorem C55_add_number_exact : forall (a : unit_obj R) x, built a ->
  exists r s, py_add (VUnit a) (VNum x) = Ok (VUnit r) /\ py_sub (VUnit a) (VNum x) = Ok (VUnit s) /\
    uc r = uc a /\ uc s = uc a /\ uv r = uv a + x /\ uv s = uv a - x /\ shape (VUnit r) = ([(un a, qc 1)], nil) /\ shape (VUnit s) = ([(un a, qc 1)], nil) /\
    (shape (VUnit r) = shape (VUnit a) <-> ev (ue a) = qc 1).
Proof. exact add_num_exact. Qed.
Print Assumptions C55_add_number_exact.
Example C55_case : built min3 /\ ev (ue min3) = qc 1.
Proof. exact C55_case_ok. Qed.

(** ** C56

    [clean] (Expr.v) excludes exactly the operand pairs of C12-C14, C16 and C55;
    without it the claim is refuted by the witnesses above. *)
Theorem C56_expressions_denote_partial : forall w e x r, coherent w -> (forall v, In v (leaves e) -> good v) -> clean e ->
  denotes w e x -> eval e = Ok r -> qty w r = Some x.
Proof. exact expr_sound. Qed.
Print Assumptions C56_expressions_denote_partial.
Example C56_case : (forall v, In v (leaves force_over_area) -> good v) /\ clean force_over_area /\
  denotes si force_over_area (100 * (36 * 1000 / 3600) / 4) /\ exists r, eval force_over_area = Ok r.
Proof. exact force_case. Qed.

(** Without [clean] the statement is false: a prefix is lost when a MultiUnit is
    multiplied by a Unit. *)
Theorem C56_expressions_denote_refuted : exists w e x r, coherent w /\ (forall v, In v (leaves e) -> good v) /\
  denotes w e x /\ eval e = Ok r /\ qty w r <> Some x.
Proof. exact expr_refuted. Qed.
Print Assumptions C56_expressions_denote_refuted.

(** Every expression that evaluates has a quantity; [gives] (ExprSpec.v) says which,
    following the expression with the factors lost on the way. *)
Theorem C56_expressions_actual : forall w e r, coherent w -> (forall v, In v (leaves e) -> good v) -> eval e = Ok r ->
  exists x, gives w e x /\ qty w r = Some x.
Proof. exact expr_actual. Qed.
Print Assumptions C56_expressions_actual.
(** Without sums the defects add up to one factor, and the value is right exactly
    when it is zero or that factor is 1. *)
Theorem C56_expressions_exact : forall w e x r, coherent w -> (forall v, In v (leaves e) -> good v) -> monomial e -> denotes w e x -> eval e = Ok r ->
  qty w r = Some (x / loss w e) /\ (qty w r = Some x <-> x = 0 \/ loss w e = 1).
Proof. exact monomial_exact. Qed.
Print Assumptions C56_expressions_exact.
Example C56_exact_case : (forall v, In v (leaves km_of) -> good v) /\ monomial km_of /\ denotes si km_of 5000 /\ loss si km_of = 1000 /\
  exists r, eval km_of = Ok r /\ qty si r = Some 5.
Proof. exact km_case. Qed.
