(** * ConstSpec: the constants of nature, in SI units

    The constants of Boltzmann, Avogadro, Planck and the elementary charge define
    the SI (2019) and are exact; the others follow from them. *)
From Coq Require Import String List Reals.
From Verif Require Import Py Num UnitsData UnitsStruct Units Formulas Constants.
Import ListNotations.
Local Open Scope R_scope.

Definition k_SI : R := 1.380649 / 10 ^ 23.
Definition NA_SI : R := 6.02214076 * 10 ^ 23.
Definition h_SI : R := 6.62607015 / 10 ^ 34.
Definition e_SI : R := 1.602176634 / 10 ^ 19.
Definition R_SI : R := k_SI * NA_SI.
Definition F_SI : R := e_SI * NA_SI.
(** 2 pi^5 k^4 / (15 h^3 c^2), to ten digits. *)
Definition sigma_SI : R := 5.670374419 / 10 ^ 8.

(** The constants of the library, the true value and half a unit of the last digit
    they are written with (0: they are exact). *)
Definition constants : list (res val * R * R) :=
  [(BOLTZMANS_CONSTANT, k_SI, 0);
   (AVAGADROS_CONSTANT, NA_SI, 0);
   (PLANCKS_CONSTANT, h_SI, 0);
   (RADIATION_CONSTANT, sigma_SI, 0.005 / 10 ^ 8);
   (FARADAYS_CONSTANT, F_SI, 50);
   (get_gas_constant "K" "m^3" "Pa" true, R_SI, 0.0005);
   (get_gas_constant "K" "m^3" "Pa" false, R_SI, 0.0005)].
