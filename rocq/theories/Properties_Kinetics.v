(** * Properties of the integral method of reaction kinetics (C74) *)
From Coq Require Import List ZArith QArith Qcanon Bool Reals Lra.
From Verif Require Import Py Num Correlations KineticsSpec KineticsFacts KineticsErr.
Import ListNotations.
Local Open Scope R_scope.


(** ** C74: the integral method *)

(** What numpy.corrcoef gives is the coefficient of determination of the least-squares
    line, which is unique and between 0 and 1. *)
Theorem C74_r_squared : forall t d r, get_r_squared t d = Ok (Some r) -> exists y, d = map Fin y /\ length t = length y /\ determines t y r.
Proof. exact r2_determines. Qed.
Print Assumptions C74_r_squared.

Theorem C74_unique : forall t y r r', determines t y r -> determines t y r' -> r = r'.
Proof. exact determines_unique. Qed.
Print Assumptions C74_unique.

(** The order reported is one of those tried, or 0. *)
Theorem C74_order : forall t x start stop step o r, integral_method t x start stop step = Ok (o, r) ->
  0 <= r <= 1 /\ (o = Q2Qc 0 \/ exists orders, arange start stop step = Ok orders /\ In o orders).
Proof. exact method_order. Qed.
Print Assumptions C74_order.

(** It is the first with the largest coefficient among the data the rounds see. *)
Theorem C74_best : forall t x start stop step o r, integral_method t x start stop step = Ok (o, r) ->
  exists orders, arange start stop step = Ok orders /\ 0 <= r <= 1 /\
    (forall i d s, In (i, d) (seen orders (map Fin x)) -> get_r_squared t d = Ok (Some s) -> s <= r) /\
    ((o = Q2Qc 0 /\ r = 0) \/
     (exists l1 y l2, seen orders (map Fin x) = l1 ++ (o, map Fin y) :: l2 /\ length t = length y /\ determines t y r /\
       forall i d s, In (i, d) l1 -> get_r_squared t d = Ok (Some s) -> s < r)).
Proof. exact method_best. Qed.
Print Assumptions C74_best.

(** Tried alone, an order from 0 up is recognised exactly. *)
Theorem C74_single : forall n t x, 0 <= Q2R n -> spread t -> follows (Q2Qc n) t x -> integral_method t x n (n + 1) 1 = Ok (Q2Qc n, 1).
Proof. exact method_single. Qed.
Print Assumptions C74_single.

(** So is the first one after orders up to 0, and first order after any below it. *)
Theorem C74_first : forall n t x start stop step pre post o r, arange start stop step = Ok (pre ++ n :: post) -> Forall (fun i => QcR i <= 0) pre -> 0 <= QcR n ->
  spread t -> follows n t x -> integral_method t x start stop step = Ok (o, r) -> r = 1 /\ (o = n \/ In o pre /\ determines t x 1).
Proof. exact method_first. Qed.
Print Assumptions C74_first.

Theorem C74_first_order : forall t x start stop step pre post o r, arange start stop step = Ok (pre ++ Q2Qc 1 :: post) -> Forall (fun i => QcR i < 1) pre ->
  spread t -> follows (Q2Qc 1) t x -> integral_method t x start stop step = Ok (o, r) -> r = 1 /\ (o = Q2Qc 1 \/ In o pre).
Proof. exact method_log. Qed.
Print Assumptions C74_first_order.

(** Other orders are not: every round transforms the data the round before left. *)
Theorem C74_recognised_refuted : exists t x start stop step n o r orders, spread t /\ follows n t x /\ arange start stop step = Ok orders /\ In n orders /\
  integral_method t x start stop step = Ok (o, r) /\ o <> n /\ r < 1.
Proof. exact method_wrong. Qed.
Print Assumptions C74_recognised_refuted.

(** Negative orders are not transformed at all. *)
Theorem C74_negative_refuted : exists t x n r, spread t /\ follows (Q2Qc n) t x /\ integral_method t x n (n + 1) 1 = Ok (Q2Qc n, r) /\ r < 1.
Proof. exact method_negative. Qed.
Print Assumptions C74_negative_refuted.

Example C74_case : spread t3 /\ follows (Q2Qc 3) t3 [1; 1 / 2; 1 / 3] /\ integral_method t3 [1; 1 / 2; 1 / 3] 2 4 1 = Ok (Q2Qc 2, 48 / 49).
Proof. exact (conj third_spread (conj third_follows third_reported)). Qed.

(** Which calls are answered.  A step of zero divides by zero; any other failure is a
    ValueError. *)
Theorem C74_step_zero : forall t x start stop step, (step == 0)%Q -> integral_method t x start stop step = Raise EZeroDivisionError.
Proof. exact method_step_zero. Qed.
Print Assumptions C74_step_zero.

Theorem C74_errors : forall t x start stop step, ~ (step == 0)%Q ->
  (exists o r, integral_method t x start stop step = Ok (o, r)) \/ integral_method t x start stop step = Raise EValueError.
Proof. exact method_cases. Qed.
Print Assumptions C74_errors.

(** Lists of different lengths are refused unless no order is tried. *)
Theorem C74_lengths : forall t x start stop step, length t <> length x -> ~ (step == 0)%Q ->
  (exists i, arange start stop step = Ok nil /\ integral_method t x start stop step = Ok (i, 0)) \/ integral_method t x start stop step = Raise EValueError.
Proof. exact method_lengths. Qed.
Print Assumptions C74_lengths.

(** Positive concentrations are always answered, for ascending and descending orders. *)
Theorem C74_answers : forall t x start stop step, ~ (step == 0)%Q -> length t = length x -> Forall (fun v => 0 < v) x ->
  exists o r, integral_method t x start stop step = Ok (o, r).
Proof. exact method_answers. Qed.
Print Assumptions C74_answers.

(** Exactly which data are refused for ascending orders: those with a zero if first
    order is tried, and those with a negative number if moreover no order between 0 and
    1 is (that would have turned it into nan). *)
Theorem C74_refused_exact : forall t x start stop step orders, 0 < Q2R step -> length t = length x -> arange start stop step = Ok orders ->
  (integral_method t x start stop step = Raise EValueError <->
   In (Q2Qc 1) orders /\ (In 0 x \/ ((exists v, In v x /\ v < 0) /\ forall i, In i orders -> ~ 0 < QcR i < 1))).
Proof. exact method_refused. Qed.
Print Assumptions C74_refused_exact.

Example C74_refused_case : integral_method t012 [2; 1; 0] 0 3 1 = Raise EValueError /\ integral_method t012 [2; 1; -1] 0 3 1 = Raise EValueError /\
  exists o r, integral_method t012 [2; 1; -1] 0 3 (1 # 2) = Ok (o, r).
Proof. exact refused_case. Qed.

(** An order above 1 is never reported for data that contain a zero when it is its turn:
    the infinity makes the coefficient nan.  The next round turns the infinity into the
    zero it came from, so an order tried later can be reported. *)
Theorem C74_zero : forall i t x, 1 < QcR i -> In 0 x -> length t = length x -> exists d, transform i (map Fin x) = Ok d /\ get_r_squared t d = Ok None.
Proof. exact zero_round. Qed.
Print Assumptions C74_zero.

Theorem C74_zero_back : forall i j, 1 < QcR i -> 1 < QcR j -> inverse_point i (Fin 0) = Ok Inf /\ (let* a := inverse_point i (Fin 0) in inverse_point j a) = Ok (Fin 0).
Proof. exact zero_back. Qed.
Print Assumptions C74_zero_back.

Example C74_zero_case : integral_method t012 [2; 1; 0] 2 4 1 = Ok (Q2Qc 3, 12 / 13).
Proof. exact zero_reported. Qed.
