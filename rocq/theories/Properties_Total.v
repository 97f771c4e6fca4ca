(** * Totals of lists of quantities (C123)

    Quantities of one unit are added up from the left; the total is the sum of
    the values in that unit, in whatever order they are taken. *)
From Coq Require Import String Ascii List ZArith QArith Qcanon Bool Reals Permutation.
From Verif Require Import Py Num UnitsData UnitsStruct Units Spec TotalSpec TotalFacts.
Import ListNotations.
Local Open Scope string_scope.
Local Open Scope list_scope.
Local Open Scope R_scope.

(** Exactly the lists that add up, from a MultiUnit: the second entry has the
    class of the first, the later ones are plain MultiUnits. *)
Theorem C123_multi_exact : forall (a : multi_obj R) y l r, total (VMulti a) (y :: l) = Ok r <->
  exists b ms, y = VMulti b /\ l = map VMulti ms /\ mc b = mc a /\ like_multi a b /\ Forall (fun c => mc c = MMulti /\ like_multi a c) ms /\
    r = VMulti (MO MMulti (mv a + (mv b + sum_of (map mv ms))) (mtop a) (mbot a)).
Proof. exact total_multi. Qed.
Print Assumptions C123_multi_exact.
(** Plain MultiUnits: the order does not matter, neither for success nor for the total. *)
Theorem C123_multi_order_partial : forall (a b : multi_obj R) l l' x, Permutation (a :: l) (b :: l') -> mc a = MMulti -> total (VMulti a) (map VMulti l) = Ok x ->
  exists m m', x = VMulti m /\ total (VMulti b) (map VMulti l') = Ok (VMulti m') /\ mv m' = mv m /\ mc m' = mc m /\ like_multi m m'.
Proof. exact total_perm. Qed.
Print Assumptions C123_multi_order_partial.
(** Three objects of a subclass do not add up, though two do. *)
Theorem C123_three_refuted : exists a b c s, mc a = MSub "HeatTransferCoefficient" /\ mc b = mc a /\ mc c = mc a /\ like_multi a b /\ like_multi a c /\
  total (VMulti a) [VMulti b] = Ok s /\ total (VMulti a) [VMulti b; VMulti c] = Raise ETypeError.
Proof. exact three_fail. Qed.
Print Assumptions C123_three_refuted.
(** Units: exactly the lists of them that add up. *)
Theorem C123_unit_exact : forall l (u : unit_obj R) r, built u -> (total (VUnit u) (map VUnit l) = Ok r <->
  Forall (fun w => (uc u = UUnit \/ uc w = uc u) /\ un u = un w /\ ev (ue u) = ev (ue w)) l /\ r = VUnit (UO (uc u) (uv u + sum_of (map uv l)) (un u) (ue u))).
Proof. exact total_unit. Qed.
Print Assumptions C123_unit_exact.
Theorem C123_unit_order : forall (u w : unit_obj R) l l', Permutation (u :: l) (w :: l') -> Forall (fun z => built z /\ like_unit u z) (u :: l) ->
  exists m m', total (VUnit u) (map VUnit l) = Ok (VUnit m) /\ total (VUnit w) (map VUnit l') = Ok (VUnit m') /\ uv m = uv m' /\ like_unit m m'.
Proof. exact total_unit_perm. Qed.
Print Assumptions C123_unit_order.
(** Without the class the order decides whether there is a total. *)
Theorem C123_unit_order_refuted : exists u w s, built u /\ built w /\ un u = un w /\ ev (ue u) = ev (ue w) /\ total (VUnit u) [VUnit w] = Ok s /\ total (VUnit w) [VUnit u] = Raise ETypeError.
Proof. exact unit_order_fail. Qed.
Print Assumptions C123_unit_order_refuted.
(** The built-in sum() adds numbers and nothing else. *)
Theorem C123_builtin_numbers : forall xs, builtin_sum (map VNum xs) = Ok (VNum (sum_of xs)).
Proof. exact builtin_numbers. Qed.
Print Assumptions C123_builtin_numbers.
Theorem C123_builtin_fails : forall l, (forall xs, l <> map VNum xs) -> builtin_sum l = Raise ETypeError.
Proof. exact builtin_else. Qed.
Print Assumptions C123_builtin_fails.
Theorem C123_builtin_refuted : exists u, built u /\ builtin_sum [VUnit u; VUnit u] = Raise ETypeError.
Proof. exact builtin_fail. Qed.
Print Assumptions C123_builtin_refuted.

Example C123_case : exists x, total (VMulti (MO MMulti 1 [BU "m" (eint 1)] [BU "s" (eint 1)])) [VMulti (MO MMulti 2 [BU "m" (eint 1)] [BU "s" (eint 1)]); VMulti (MO MMulti 4 [BU "m" (eint 1)] [BU "s" (eint 1)])] = Ok x.
Proof. eexists. reflexivity. Qed.
Example C123_unit_case : built (UO Length 1 "ft" (eint 2)) /\ like_unit (UO Length 1 "ft" (eint 2)) (UO Length 3 "ft" (eint 2)).
Proof. split; [exists 1, "ft", (eint 2); reflexivity|refine (conj eq_refl (conj eq_refl eq_refl))]. Qed.
Example C123_builtin_case : forall xs, [VUnit (UO Length 1 "m" (eint 1))] <> map (VNum (T := R)) xs.
Proof. intros [|x xs]; discriminate. Qed.
