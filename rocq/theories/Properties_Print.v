(** * Properties of printed quantities (C84)

    [float_repr x] is CPython's text of the float x, [unit_repr] and [multi_repr]
    the texts of a Unit and a MultiUnit whose value is an int or a float ([pynum]).
    [num_text n] : the text of the numeral n, of value [num_val n].
    [nearest64 v x] : v is read as the binary64 number x.  [sig_digits n] : its
    digits without zeros at the ends.  [layout n], [plain_size v] : Python's layout
    of decimals, with an exponent from 10^16 on and below 1/10000.  [shown x t] : t is the name of x, followed by
    a superscript numeral of its exponent unless that is 1; [shown_moved x t] : in
    any case followed by it.  [above], [below] : the units on either side of the
    slash, where units with negative exponents in the bottom half go up. *)
From Coq Require Import String List ZArith QArith Qcanon Bool Reals Qreals.
From Coq Require Import Floats.SpecFloat.
From Verif Require Import Py Num UnitsData UnitsStruct Units Spec RangeSpec TextSpec Correlations Print PrintSpec Rounding PrintFacts PrintTextFacts PrintCases LayoutFacts ExpoTextFacts.
Import ListNotations.
Local Open Scope string_scope.
Local Open Scope list_scope.

(** ** C84: the text of a float is read as that float, no shorter text is, and of
    those of its length none is nearer; if another is as near, the last digit is even. *)
Theorem C84_float : forall x, finite64 x ->
  exists n, float_repr x = Ok (num_text n) /\ num_ok n /\ minus n = sign_bit x /\ nearest64 (Q2R (num_val n)) x /\
    layout n /\ (nexp n = None <-> plain_size (Q2R (num_val n))) /\
    forall n', num_ok n' -> nearest64 (Q2R (num_val n')) x ->
      (sig_digits n <= sig_digits n')%nat /\
      (sig_digits n' = sig_digits n -> Rabs (Q2R (num_val n) - SFR x) <= Rabs (Q2R (num_val n') - SFR x) /\
        (Rabs (Q2R (num_val n) - SFR x) = Rabs (Q2R (num_val n') - SFR x) -> Q2R (num_val n') <> Q2R (num_val n) ->
         exists a, Q2R (num_val n) = IZR (2 * a) * Rabs (Q2R (num_val n') - Q2R (num_val n))))%R.
Proof. exact float_text_ok. Qed.
Print Assumptions C84_float.
(** 0.1, 2/3, 1e22, the smallest and the largest number, -0.0 *)
Example C84_float_case : forall x, In x [tenth; two_thirds; e22; tiny; huge; S754_zero true] -> finite64 x.
Proof. exact floats_finite. Qed.
Example C84_float_texts : map float_repr [tenth; two_thirds; e22; tiny; huge; S754_zero true] =
  [Ok "0.1"; Ok "0.6666666666666666"; Ok "1e+22"; Ok "5e-324"; Ok "1.7976931348623157e+308"; Ok "-0.0"].
Proof. exact floats_texts. Qed.

(** ** C84: a decimal of at most 15 digits is printed as it was written. *)
Theorem C84_written_back : forall n x, num_ok n -> layout n -> (nexp n = None <-> plain_size (Q2R (num_val n))) ->
  (sig_digits n <= 15)%nat -> normal_size (Q2R (num_val n)) ->
  nearest64 (Q2R (num_val n)) x -> minus n = sign_bit x -> float_repr x = Ok (num_text n).
Proof. exact written_back. Qed.
Print Assumptions C84_written_back.
(** Sixteen digits and subnormal numbers are not. *)
Theorem C84_sixteen_refuted : exists n x, num_ok n /\ layout n /\ (nexp n = None <-> plain_size (Q2R (num_val n))) /\
  sig_digits n = 16%nat /\ normal_size (Q2R (num_val n)) /\ nearest64 (Q2R (num_val n)) x /\ minus n = sign_bit x /\
  num_text n = "9007199254740993.0" /\ float_repr x = Ok "9007199254740992.0".
Proof. exact sixteen_case. Qed.
Print Assumptions C84_sixteen_refuted.
Theorem C84_subnormal_refuted : exists n x, num_ok n /\ layout n /\ ~ plain_size (Q2R (num_val n)) /\ sig_digits n = 2%nat /\
  nearest64 (Q2R (num_val n)) x /\ minus n = sign_bit x /\ num_text n = "1.4e-323" /\ float_repr x = Ok "1.5e-323".
Proof. exact subnormal_case. Qed.
Print Assumptions C84_subnormal_refuted.
(** The text of an exponent is that of the float nearest to it. *)
Theorem C84_exponent : forall e s, isf e = true -> str_expo e = Ok s -> float_repr (f_lit (this (ev e))) = Ok s.
Proof. exact expo_float_text. Qed.
Print Assumptions C84_exponent.
Example C84_exponent_case : str_expo (eflt (Q2Qc (-1203 # 400))) = Ok "-3.0075" /\ str_expo (eflt (Q2Qc 2)) = Ok "2.0".
Proof. split; reflexivity. Qed.

(** ** C84: what is printed *)
Theorem C84_number : forall v, held_num v -> exists n, num_str v = Ok (num_text n) /\ num_ok n /\
  match v with PInt z => (num_val n == inject_Z z)%Q | PFloat x => nearest64 (Q2R (num_val n)) x end.
Proof. exact number_text. Qed.
Print Assumptions C84_number.
Theorem C84_unit : forall u s, held_num (uv u) -> printable (BU (un u) (ue u)) -> unit_repr u = Ok s ->
  exists v t, num_str (uv u) = Ok v /\ s = v +++ " " +++ t /\ shown (BU (un u) (ue u)) t.
Proof. exact unit_reads. Qed.
Print Assumptions C84_unit.
Theorem C84_multi : forall m s, held_num (mv m) -> (forall x, In x (mtop m ++ mbot m) -> printable x) -> multi_repr m = Ok s ->
  exists v ts ns bs, num_str (mv m) = Ok v /\ Forall2 shown (mtop m) ts /\
    Forall2 shown_moved (map flip_bu (filter negative (mbot m))) ns /\ Forall2 shown (below (mbot m)) bs /\
    s = v +++ " " +++ spaced (ts ++ ns) +++ (match mbot m with nil => "" | _ => " / " +++ spaced bs end).
Proof. exact multi_reads. Qed.
Print Assumptions C84_multi.
(** Objects with int exponents always print. *)
Theorem C84_unit_prints : forall u, held_num (uv u) -> isf (ue u) = false -> exists s, unit_repr u = Ok s.
Proof. exact unit_prints. Qed.
Print Assumptions C84_unit_prints.
Theorem C84_multi_prints : forall m, held_num (mv m) -> (forall x, In x (mtop m ++ mbot m) -> isf (bexp x) = false) -> exists s, multi_repr m = Ok s.
Proof. exact multi_prints. Qed.
Print Assumptions C84_multi_prints.

(** ** C84: the text determines the value, exactly, and the units. *)
Theorem C84_unit_text : forall a b s, held_num (uv a) -> held_num (uv b) -> printable (BU (un a) (ue a)) -> printable (BU (un b) (ue b)) ->
  unit_repr a = Ok s -> unit_repr b = Ok s -> uv a = uv b /\ un a = un b /\ ev (ue a) = ev (ue b).
Proof. exact unit_text_inj. Qed.
Print Assumptions C84_unit_text.
Theorem C84_multi_text : forall a b s, held_num (mv a) -> held_num (mv b) ->
  (forall x, In x (mtop a ++ mbot a ++ mtop b ++ mbot b) -> printable x) ->
  multi_repr a = Ok s -> multi_repr b = Ok s ->
  mv a = mv b /\ map name_exp (above (mtop a) (mbot a)) = map name_exp (above (mtop b) (mbot b)) /\
  map name_exp (below (mbot a)) = map name_exp (below (mbot b)).
Proof. exact multi_text_inj. Qed.
Print Assumptions C84_multi_text.
Theorem C84_mixed_text : forall a b s, held_num (uv a) -> held_num (mv b) -> printable (BU (un a) (ue a)) ->
  (forall x, In x (mtop b ++ mbot b) -> printable x) ->
  unit_repr a = Ok s -> multi_repr b = Ok s ->
  uv a = mv b /\ mbot b = nil /\ map name_exp (mtop b) = [name_exp (BU (un a) (ue a))].
Proof. exact mixed_text. Qed.
Print Assumptions C84_mixed_text.
(** So objects printed alike are the same quantity, whatever the sizes of the units. *)
Theorem C84_unit_quantity : forall w a b s, held_num (uv a) -> held_num (uv b) -> printable (BU (un a) (ue a)) -> printable (BU (un b) (ue b)) ->
  unit_repr a = Ok s -> unit_repr b = Ok s ->
  qty w (VUnit (UO (uc a) (num_R (uv a)) (un a) (ue a))) = qty w (VUnit (UO (uc b) (num_R (uv b)) (un b) (ue b))).
Proof. exact unit_same. Qed.
Print Assumptions C84_unit_quantity.
Theorem C84_multi_quantity : forall w a b s, held_num (mv a) -> held_num (mv b) ->
  (forall x, In x (mtop a ++ mbot a ++ mtop b ++ mbot b) -> printable x) ->
  multi_repr a = Ok s -> multi_repr b = Ok s ->
  qty w (VMulti (MO (mc a) (num_R (mv a)) (mtop a) (mbot a))) = qty w (VMulti (MO (mc b) (num_R (mv b)) (mtop b) (mbot b))).
Proof. exact multi_same. Qed.
Print Assumptions C84_multi_quantity.
Theorem C84_mixed_quantity : forall w a b s, held_num (uv a) -> held_num (mv b) -> printable (BU (un a) (ue a)) ->
  (forall x, In x (mtop b ++ mbot b) -> printable x) ->
  unit_repr a = Ok s -> multi_repr b = Ok s ->
  qty w (VUnit (UO (uc a) (num_R (uv a)) (un a) (ue a))) = qty w (VMulti (MO (mc b) (num_R (mv b)) (mtop b) (mbot b))).
Proof. exact mixed_same. Qed.
Print Assumptions C84_mixed_quantity.
(** Every registered name is one of those covered. *)
Theorem C84_names : forall n c, dict_get UNIT_REGISTRY n = Some c -> name_text n = true /\ n <> "".
Proof. exact registered_names. Qed.
Print Assumptions C84_names.
(** 0.1 kg*m^-2.5 over s^-2 K and over s^-2 K with another order of the moved units. *)
Example C84_case :
  held_num (mv flux) /\ (forall x, In x (mtop flux ++ mbot flux) -> printable x) /\ multi_repr flux = Ok flux_text /\
  held_num (mv flux') /\ (forall x, In x (mtop flux' ++ mbot flux') -> printable x) /\ multi_repr flux' = Ok flux_text /\ mbot flux <> mbot flux'.
Proof. exact flux_case. Qed.
Example C84_unit_case : held_num (uv area) /\ printable (BU (un area) (ue area)) /\ unit_repr area = Ok area_text.
Proof. exact area_case. Qed.

(** ** C84: the text of a BaseUnit is read back as that BaseUnit. *)
Theorem C84_base : forall c (v : R) x s, expo_wf (bexp x) -> plain_text (bname x) = true -> bname x <> "" -> base_repr x = Ok s ->
  mk_multi c v s = Ok (MO c v [BU (bname x) (eflt (ev (bexp x)))] nil).
Proof. exact base_reads. Qed.
Print Assumptions C84_base.
Example C84_base_case : map base_repr [BU "m" (eint (-2)); BU "kg" (eflt (Q2Qc (9 # 4))); BU "s" (eflt 1)] = [Ok "m^-2"; Ok "kg^2.25"; Ok "s"].
Proof. vm_compute. reflexivity. Qed.

(** ** C84: "BTU" in k.__repr__() is decided by the units of k, as the model of the
    laminar coefficients has it. *)
Theorem C84_unit_BTU : forall u s r, held_num (uv u) -> unit_repr u = Ok s ->
  mentions_BTU (VUnit (UO (uc u) r (un u) (ue u))) = Ok (str_in "BTU" s).
Proof. exact unit_BTU. Qed.
Print Assumptions C84_unit_BTU.
Theorem C84_multi_BTU : forall m s r, held_num (mv m) -> multi_repr m = Ok s ->
  mentions_BTU (VMulti (MO (mc m) r (mtop m) (mbot m))) = Ok (str_in "BTU" s).
Proof. exact multi_BTU. Qed.
Print Assumptions C84_multi_BTU.

(** ** C84: without [printable] texts collide: 2 m^2.05 is printed as 2 m^2 is. *)
Theorem C84_exponent_refuted : exists a b : unit_obj pynum, exists s, unit_repr a = Ok s /\ unit_repr b = Ok s /\
  name_text (un a) = true /\ name_text (un b) = true /\ ev (ue a) <> ev (ue b) /\
  exists w : usys, (forall n, 0 < w n)%R /\ qty w (VUnit (UO (uc a) (num_R (uv a)) (un a) (ue a))) <> qty w (VUnit (UO (uc b) (num_R (uv b)) (un b) (ue b))).
Proof. exact exponent_lost. Qed.
Print Assumptions C84_exponent_refuted.
(** The class is not printed: MolecularWeight and MultiUnit print alike. *)
Theorem C84_class_refuted : exists a b : multi_obj pynum, exists s, multi_repr a = Ok s /\ multi_repr b = Ok s /\ mc a <> mc b.
Proof. exact class_lost. Qed.
Print Assumptions C84_class_refuted.
