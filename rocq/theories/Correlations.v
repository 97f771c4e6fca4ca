(** * Correlations: laminar flow, empirical diffusion coefficients, and the integral
      method of reaction kinetics *)
From Coq Require Import String Ascii List ZArith QArith Qcanon Qround Bool Reals.
From Verif Require Import Py Num UnitsData UnitsStruct Units Solve Formulas.
Import ListNotations.
Local Open Scope string_scope.
Local Open Scope list_scope.
Local Open Scope R_scope.

(** ** heat_transfer/heat_transfer_coefficients.py:25-104 *)
(** ["BTU" in k.__repr__()]; the text of a number contains no B. *)
Definition mentions_BTU (k : val) : res bool :=
  match k with
  | VUnit u => let* s := show_bu (BU (un u) (ue u)) in Ok (str_in "BTU" s)
  | VMulti m => let* s := get_unit_string (mtop m) (mbot m) in Ok (str_in "BTU" s)
  | _ => Ok false
  end.
(** Lines 57-64 and 98-104: the conversion is in place, so the result is built from
    the converted object; only a MultiUnit has the attributes read there. *)
Definition laminar_convert (tb : tables R) (h k : val) : res val :=
  let* b := mentions_BTU k in
  let target := if b then "BTU/hr*ft^2*F" else "W/m^2*K" in
  match h with
  | VMulti m =>
      let* r := multi_convert_to tb m target in
      Ok (VMulti (MO (MSub "HeatTransferCoefficient") (mv r) (mtop r) (mbot r)))
  | VUnit u => let* _ := unit_convert_to tb u target in Raise EAttributeError
  | _ => Raise EAttributeError
  end.
Definition htc_open_field_laminar_local (tb : tables R) (Re Pr L k psi_v : val) : res val :=
  let* Nu := ($0.332 * !Re ** half_ * !Pr ** third_ * !psi_v)%py in
  let* h := ((!Nu * !k) / !L)%py in
  laminar_convert tb h k.
Definition htc_open_field_laminar_avg (tb : tables R) (Re Pr L k psi_v : val) : res val :=
  let* Nu := ($0.664 * !Re ** half_ * !Pr ** third_ * !psi_v)%py in
  let* h := ((!Nu * !k) / !L)%py in
  laminar_convert tb h k.

(** ** mass_transfer/diffusion_coefficients.py:12-58, 134-184 *)
(** A MultiUnit whose value is any object: DiffusionCoefficient(answer, "cm^2/s")
    does not look at [answer]. *)
Record wrapped := W { wval : val; wtop : half; wbot : half }.
Definition wrap (v : val) (s : string) : res wrapped :=
  let* p := parse_units s in Ok (W v (fst p) (snd p)).
Section Empirical.
Local Open Scope py_scope.
Definition wilke_chang (temperature theta_b moleclar_weight_b viscosity_b molecular_volume_a : val) : res wrapped :=
  let* answer := ($(7.4 / 10 ^ 8) * (!theta_b * !moleclar_weight_b) ** half_ * !temperature) /
                 (!viscosity_b * !molecular_volume_a ** eflt (Q2Qc (6 # 10))) in
  match answer with
  | VMulti m => if mcls_eqb (mc m) MMulti then wrap (VNum (mv m)) "cm^2/s" else wrap answer "cm^2/s"
  | _ => wrap answer "cm^2/s"
  end.
Definition fullers_number (T P Ma Mb Ev_A Ev_B : val) : res val :=
  let* M_AB := $2 / (($1 / !Ma) + ($1 / !Mb)) in
  ($0.00143 * !T ** eflt (Q2Qc (7 # 4))) /
    (!P * !M_AB ** half_ * (!Ev_A ** third_ + !Ev_B ** third_) ** eint 2).
Definition fullers (T P Ma Mb Ev_A Ev_B : val) : res wrapped :=
  let* _ := check_units T "K" in
  let* _ := check_units P "atm" in
  let* _ := check_units Ma "g/mol" in
  let* _ := check_units Mb "g/mol" in
  let* _ := check_units Ev_A "cm^3/mol" in
  let* _ := check_units Ev_B "cm^3/mol" in
  let* D_AB := fullers_number T P Ma Mb Ev_A Ev_B in
  match D_AB with
  | VMulti m => if mcls_eqb (mc m) MMulti then wrap (VNum (mv m / 10000)%R) "cm^2/s" else wrap D_AB "cm^2/s"
  | _ => wrap D_AB "cm^2/s"
  end.
End Empirical.

(** ** reactions/reaction_parameters.py:20-63

    Data are exact numbers, the infinity numpy gives for a division by zero, or nan
    (a negative zero, hence a negative infinity, is not modelled).  The orders and all
    sums are exact. *)
Inductive datum := Fin (r : R) | Inf | Nan.
Definition nan : option R := None.
(** Line 52; math.log raises for zero and negative numbers. *)
Definition log_point (x : datum) : res datum :=
  match x with
  | Fin r => if Rltb 0 r then Ok (Fin (ln r)) else Raise EValueError
  | x => Ok x
  end.
(** Line 55: x ** (1 - i) / (1 - i), for 0 < i < 1. *)
Definition power_point (i : Qc) (x : datum) : res datum :=
  match x with
  | Fin r =>
      match Rpowq r (qc 1 - i)%Qc with
      | Ok y => Ok (Fin (y / QcR (qc 1 - i)%Qc))
      | Raise Unmodelled => Ok Nan
      | Raise e => Raise e
      end
  | x => Ok x
  end.
(** Line 57: 1 / x ** (i - 1), for 1 < i. *)
Definition inverse_point (i : Qc) (x : datum) : res datum :=
  match x with
  | Fin r =>
      match Rpowq r (i - qc 1)%Qc with
      | Ok y => if Reqb y 0 then Ok Inf else Ok (Fin (1 / y))
      | Raise Unmodelled => Ok Nan
      | Raise e => Raise e
      end
  | Inf => Ok (Fin 0)
  | Nan => Ok Nan
  end.
(** Lines 51-57. *)
Definition transform (i : Qc) (data : list datum) : res (list datum) :=
  if Qc_eq_bool i (qc 1) then mapM log_point data
  else if Qcltb i (qc 1) && Qcltb (qc 0) i then mapM (power_point i) data
  else if Qcltb i (qc 1) then Ok data
  else mapM (inverse_point i) data.
(** Lines 43-46: the square of the correlation coefficient; nan when one of the
    variances is 0 or the data contain inf or nan. *)
Definition total (l : list R) : R := fold_right Rplus 0 l.
Definition mean (l : list R) : R := total l / INR (length l).
Fixpoint products (a b : list R) : R :=
  match a, b with x :: a, y :: b => x * y + products a b | _, _ => 0 end.
Definition centred (l : list R) : list R := map (fun x => x - mean l) l.
Definition numbers (l : list datum) : option (list R) :=
  fold_right (fun x s => match x, s with Fin r, Some l => Some (r :: l) | _, _ => None end) (Some nil) l.
Definition get_r_squared (time : list R) (data : list datum) : res (option R) :=
  if Nat.eqb (length time) (length data) then
    match numbers data with
    | None => Ok nan
    | Some xs =>
        let a := centred time in let b := centred xs in
        if Reqb (products a a) 0 || Reqb (products b b) 0 then Ok nan
        else Ok (Some (products a b ^ 2 / (products a a * products b b)))
    end
  else Raise EValueError.
(** Lines 48-61; [data] is overwritten in every round. *)
Fixpoint integral_loop (time : list R) (orders : list Qc) (data : list datum) (order : Qc) (best : R) : res (Qc * R) :=
  match orders with
  | nil => Ok (order, best)
  | i :: orders =>
      let* data := transform i data in
      let* r := get_r_squared time data in
      match r with
      | Some r => if Rltb best r then integral_loop time orders data i r else integral_loop time orders data order best
      | None => integral_loop time orders data order best
      end
  end.
(** numpy.arange(start, stop, step), for exact numbers. *)
Definition arange (start stop step : Q) : res (list Qc) :=
  if Qeq_bool step 0 then Raise EZeroDivisionError
  else Ok (map (fun k => Q2Qc (start + inject_Z (Z.of_nat k) * step)) (List.seq 0 (Z.to_nat (Qceiling ((stop - start) / step))))).
Definition integral_method (time data : list R) (start stop step : Q) : res (Qc * R) :=
  let* orders := arange start stop step in
  integral_loop time orders (map Fin data) (qc 0) 0.
