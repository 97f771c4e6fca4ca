(** * Properties of the engineering formulas (C39, C40, C46-C51, C53, C98)

    Arguments are the objects the constructors build.  "plain_val" (FormulaSpec)
    excludes SI prefixes; where the property fails with prefixes a refutation
    follows. *)
From Coq Require Import String Ascii List ZArith QArith Qcanon Bool Reals Lia Lra.
From Verif Require Import Py Num UnitsData UnitsStruct Units Spec Solve Formulas FormulaSpec
  ConductionFacts TransportFacts DimlessFacts ParamFacts ThermoFacts LogMeanExact SafetyFacts Expr ExprSpec PrefixedFacts BackFacts ArrheniusSpec ArrheniusExact ArrheniusNone.
Import ListNotations.
Local Open Scope string_scope.
Local Open Scope list_scope.
Local Open Scope R_scope.

(** ** C39: planar_heat and planar_flux *)

(** Full statement: without the hypothesis on prefixes.  It is false (C39_prefix_refuted).
    The calls that solve back may still raise; C39_heat_units excludes that for
    consistent units. *)
Theorem C39_heat_back_partial : forall k T1 T2 A d q, plain_val k -> plain_val T1 -> plain_val T2 -> plain_val A -> plain_val d ->
  value k <> 0 -> value A <> 0 -> value d <> 0 -> kind T1 = kind T2 -> kind T1 <> KNum ->
  planar_heat [AVal k; AVal T1; AVal T2; AVal A; AVal d] [] = Ok q ->
  value q = - (value k * value A * (value T2 - value T1) / value d) /\
  (forall r, planar_heat [AVal k; AVal T1; ANone; AVal A; AVal d; AVal q] [] = Ok r -> value r = value T2 /\ shape r = shape T2) /\
  (forall r, planar_heat [AVal k; ANone; AVal T2; AVal A; AVal d; AVal q] [] = Ok r -> value r = value T1 /\ shape r = shape T1) /\
  (forall r, planar_heat [AVal k; AVal T1; AVal T2; AVal A; ANone; AVal q] [] = Ok r -> value T1 <> value T2 -> value r = value d).
Proof. exact ph_back. Qed.
Print Assumptions C39_heat_back_partial.

Theorem C39_flux_back_partial : forall k T1 T2 d q, plain_val k -> plain_val T1 -> plain_val T2 -> plain_val d ->
  value k <> 0 -> value d <> 0 -> kind T1 = kind T2 -> kind T1 <> KNum ->
  planar_flux [AVal k; AVal T1; AVal T2; AVal d] [] = Ok q ->
  value q = - (value k * (value T2 - value T1) / value d) /\
  (forall r, planar_flux [AVal k; AVal T1; ANone; AVal d; AVal q] [] = Ok r -> value r = value T2 /\ shape r = shape T2) /\
  (forall r, planar_flux [AVal k; ANone; AVal T2; AVal d; AVal q] [] = Ok r -> value r = value T1 /\ shape r = shape T1) /\
  (forall r, planar_flux [AVal k; AVal T1; AVal T2; ANone; AVal q] [] = Ok r -> value T1 <> value T2 -> value r = value d).
Proof. exact pf_back. Qed.
Print Assumptions C39_flux_back_partial.

(** In consistent units every call succeeds and returns the value started from. *)
Theorem C39_heat_units : forall p l th (k T1 T2 A d : R) vk v1 v2 vA vd, In p powers -> In l lengths -> In th temperatures ->
  multi "ThermalConductivity" k (p +++ l +++ "*" +++ th) = Ok vk -> simple Temperature T1 th = Ok v1 -> simple Temperature T2 th = Ok v2 ->
  simple Area A (l +++ "^2") = Ok vA -> simple Length d l = Ok vd -> k <> 0 -> A <> 0 -> d <> 0 ->
  exists q r1 r2, planar_heat [AVal vk; AVal v1; AVal v2; AVal vA; AVal vd] [] = Ok q /\ value q = - (k * A * (T2 - T1) / d) /\
    planar_heat [AVal vk; ANone; AVal v2; AVal vA; AVal vd; AVal q] [] = Ok (VUnit r1) /\ uv r1 = T1 /\ un r1 = th /\ ev (ue r1) = qc 1 /\
    planar_heat [AVal vk; AVal v1; ANone; AVal vA; AVal vd; AVal q] [] = Ok (VUnit r2) /\ uv r2 = T2 /\ un r2 = th /\ ev (ue r2) = qc 1 /\
    (T1 <> T2 -> exists r, planar_heat [AVal vk; AVal v1; AVal v2; AVal vA; ANone; AVal q] [] = Ok (VUnit r) /\ uv r = d /\ un r = l /\ ev (ue r) = qc 1).
Proof. exact ph_units. Qed.
Print Assumptions C39_heat_units.

Theorem C39_flux_units : forall p l th (k T1 T2 d : R) vk v1 v2 vd, In p powers -> In l lengths -> In th temperatures ->
  multi "ThermalConductivity" k (p +++ l +++ "*" +++ th) = Ok vk -> simple Temperature T1 th = Ok v1 -> simple Temperature T2 th = Ok v2 ->
  simple Length d l = Ok vd -> k <> 0 -> d <> 0 ->
  exists q r1 r2, planar_flux [AVal vk; AVal v1; AVal v2; AVal vd] [] = Ok q /\ value q = - (k * (T2 - T1) / d) /\
    planar_flux [AVal vk; ANone; AVal v2; AVal vd; AVal q] [] = Ok (VUnit r1) /\ uv r1 = T1 /\ un r1 = th /\ ev (ue r1) = qc 1 /\
    planar_flux [AVal vk; AVal v1; ANone; AVal vd; AVal q] [] = Ok (VUnit r2) /\ uv r2 = T2 /\ un r2 = th /\ ev (ue r2) = qc 1 /\
    (T1 <> T2 -> exists r, planar_flux [AVal vk; AVal v1; AVal v2; ANone; AVal q] [] = Ok (VUnit r) /\ uv r = d /\ un r = l /\ ev (ue r) = qc 1).
Proof. exact pf_units. Qed.
Print Assumptions C39_flux_units.

(** The heat flow is the documented physical quantity in every coherent system. *)
Theorem C39_heat_quantity : forall k (t1 t2 dd : unit_obj R) A q w x y1 y2 z d, plain_val k -> kind k = KMulti -> plain_val (VUnit t1) -> plain_val (VUnit t2) -> plain_val A -> plain_val (VUnit dd) ->
  un t2 <> un dd -> uv dd <> 0 ->
  planar_heat [AVal k; AVal (VUnit t1); AVal (VUnit t2); AVal A; AVal (VUnit dd)] [] = Ok q ->
  coherent w -> qty w k = Some x -> qty w A = Some z -> qty w (VUnit t1) = Some y1 -> qty w (VUnit t2) = Some y2 -> qty w (VUnit dd) = Some d ->
  qty w q = Some (- (x * z * (y2 - y1) / d)).
Proof. exact ph_quantity. Qed.
Print Assumptions C39_heat_quantity.

(** With prefixes: off by those of [k] and [A] when [A] is a Unit (an Area), right otherwise. *)
Theorem C39_heat_actual : forall a (t1 t2 dd : unit_obj R) A q w x y1 y2 z d ka, good (VMulti a) -> good (VUnit t1) -> good (VUnit t2) -> good A -> good (VUnit dd) ->
  un t2 <> un dd -> uv dd <> 0 ->
  py_mul (VMulti (MO (mc a) (- mv a) (mtop a) (mbot a))) A = Ok ka -> kind ka <> KUnit ->
  planar_heat [AVal (VMulti a); AVal (VUnit t1); AVal (VUnit t2); AVal A; AVal (VUnit dd)] [] = Ok q ->
  coherent w -> qty w (VMulti a) = Some x -> qty w A = Some z -> qty w (VUnit t1) = Some y1 -> qty w (VUnit t2) = Some y2 -> qty w (VUnit dd) = Some d ->
  qty w q = Some (- (x * z * (y2 - y1) / d) / pair_prefix (VMulti a) A) /\
  (qty w q = Some (- (x * z * (y2 - y1) / d)) <-> - (x * z * (y2 - y1) / d) = 0 \/ pair_prefix (VMulti a) A = 1).
Proof. exact heat_actual. Qed.
Print Assumptions C39_heat_actual.
Example C39_actual_case : exists a t1 t2 A d ka q,
  multi "ThermalConductivity" 1 "W/cm*K" = Ok (VMulti a) /\ simple Temperature 300 "K" = Ok (VUnit t1) /\ simple Temperature 310 "K" = Ok (VUnit t2) /\
  simple Area 1 "m^2" = Ok A /\ simple Length 1 "cm" = Ok (VUnit d) /\ good (VMulti a) /\ good (VUnit t1) /\ good (VUnit t2) /\ good A /\ good (VUnit d) /\
  un t2 <> un d /\ uv d <> 0 /\ py_mul (VMulti (MO (mc a) (- mv a) (mtop a) (mbot a))) A = Ok ka /\ kind ka = KMulti /\
  planar_heat [AVal (VMulti a); AVal (VUnit t1); AVal (VUnit t2); AVal A; AVal (VUnit d)] [] = Ok q.
Proof. exact heat_case. Qed.

Theorem C39_prefix_refuted : exists vk v1 v2 vA vd q r,
  multi "ThermalConductivity" 1 "W/m*K" = Ok vk /\ simple Temperature 300 "K" = Ok v1 /\ simple Temperature 310 "K" = Ok v2 /\
  simple Area 1 "m^2" = Ok vA /\ simple Length 100 "cm" = Ok vd /\
  planar_heat [AVal vk; AVal v1; AVal v2; AVal vA; AVal vd] [] = Ok q /\
  planar_heat [AVal vk; AVal v1; ANone; AVal vA; AVal vd; AVal q] [] = Ok (VUnit r) /\ un r = "K" /\ uv r = 1300.
Proof. exact ph_prefix. Qed.
Print Assumptions C39_prefix_refuted.

Example C39_case : In "W/" powers /\ In "m" lengths /\ In "K" temperatures /\
  exists vk v1 v2 vA vd, multi "ThermalConductivity" 2 "W/m*K" = Ok vk /\ simple Temperature 300 "K" = Ok v1 /\ simple Temperature 350 "K" = Ok v2 /\
    simple Area 3 "m^2" = Ok vA /\ simple Length 4 "m" = Ok vd.
Proof. split; [left; reflexivity|]. split; [left; reflexivity|]. split; [left; reflexivity|]. repeat eexists; reflexivity. Qed.


(** ** C98: the planar wall solved for any unknown, any prefixes

    [lost_mul], [lost_div] (ExprSpec.v): the factors by which a product or
    quotient of unit objects is too small, because of prefixes or exponents. *)
(** The temperature returned is off by the factor [c] in the difference from the other one. *)
Theorem C98_heat_T2 : forall k t1 A d q r w x y1 z e p, coherent w -> good k -> good (VUnit t1) -> good A -> good d -> good q ->
  qty w k = Some x -> qty w (VUnit t1) = Some y1 -> qty w A = Some z -> qty w d = Some e -> qty w q = Some p ->
  planar_heat [AVal k; AVal (VUnit t1); ANone; AVal A; AVal d; AVal q] [] = Ok r ->
  exists dq nk ka, py_mul d q = Ok dq /\ py_neg k = Ok nk /\ py_mul nk A = Ok ka /\
    let c := lost_mul w k A / (lost_mul w d q * lost_div dq ka) in
    qty w r = Some (y1 - e * p / (x * z) * c) /\ (qty w r = Some (y1 - e * p / (x * z)) <-> e * p = 0 \/ c = 1).
Proof. exact heat_t2. Qed.
Print Assumptions C98_heat_T2.
Theorem C98_heat_T1 : forall k t2 A d q r w x y2 z e p, coherent w -> good k -> good (VUnit t2) -> good A -> good d -> good q ->
  qty w k = Some x -> qty w (VUnit t2) = Some y2 -> qty w A = Some z -> qty w d = Some e -> qty w q = Some p ->
  planar_heat [AVal k; ANone; AVal (VUnit t2); AVal A; AVal d; AVal q] [] = Ok r ->
  exists dq nk ka, py_mul d q = Ok dq /\ py_neg k = Ok nk /\ py_mul nk A = Ok ka /\
    let c := lost_mul w k A / (lost_mul w d q * lost_div dq ka) in
    qty w r = Some (y2 + e * p / (x * z) * c) /\ (qty w r = Some (y2 + e * p / (x * z)) <-> e * p = 0 \/ c = 1).
Proof. exact heat_t1. Qed.
Print Assumptions C98_heat_T1.
Theorem C98_heat_thickness : forall k t1 t2 A q r w x y1 y2 z p, coherent w -> good k -> good (VUnit t1) -> good (VUnit t2) -> good A -> good q ->
  qty w k = Some x -> qty w (VUnit t1) = Some y1 -> qty w (VUnit t2) = Some y2 -> qty w A = Some z -> qty w q = Some p ->
  planar_heat [AVal k; AVal (VUnit t1); AVal (VUnit t2); AVal A; ANone; AVal q] [] = Ok r ->
  exists nk ka dt s, py_neg k = Ok nk /\ py_mul nk A = Ok ka /\ py_sub (VUnit t2) (VUnit t1) = Ok dt /\ py_mul ka dt = Ok s /\
    let c := lost_mul w k A * lost_mul w ka dt * lost_div s q in
    qty w r = Some (- (x * z * (y2 - y1) / p) / c) /\ (qty w r = Some (- (x * z * (y2 - y1) / p)) <-> - (x * z * (y2 - y1) / p) = 0 \/ c = 1).
Proof. exact heat_d. Qed.
Print Assumptions C98_heat_thickness.
Theorem C98_flux : forall k t1 t2 d r w x y1 y2 e, coherent w -> good k -> good (VUnit t1) -> good (VUnit t2) -> good d ->
  qty w k = Some x -> qty w (VUnit t1) = Some y1 -> qty w (VUnit t2) = Some y2 -> qty w d = Some e ->
  planar_flux [AVal k; AVal (VUnit t1); AVal (VUnit t2); AVal d] [] = Ok r ->
  exists dt g, py_sub (VUnit t2) (VUnit t1) = Ok dt /\ py_div dt d = Ok g /\
    let c := lost_mul w k g * lost_div dt d in
    qty w r = Some (- (x * (y2 - y1) / e) / c) /\ (qty w r = Some (- (x * (y2 - y1) / e)) <-> - (x * (y2 - y1) / e) = 0 \/ c = 1).
Proof. exact flux_q. Qed.
Print Assumptions C98_flux.
Theorem C98_flux_T2 : forall k t1 d q r w x y1 e p, coherent w -> good k -> good (VUnit t1) -> good d -> good q ->
  qty w k = Some x -> qty w (VUnit t1) = Some y1 -> qty w d = Some e -> qty w q = Some p ->
  planar_flux [AVal k; AVal (VUnit t1); ANone; AVal d; AVal q] [] = Ok r ->
  exists dq, py_mul d q = Ok dq /\
    let c := / (lost_mul w d q * lost_div dq k) in
    qty w r = Some (y1 - e * p / x * c) /\ (qty w r = Some (y1 - e * p / x) <-> e * p = 0 \/ c = 1).
Proof. exact flux_t2. Qed.
Print Assumptions C98_flux_T2.
Theorem C98_flux_T1 : forall k t2 d q r w x y2 e p, coherent w -> good k -> good (VUnit t2) -> good d -> good q ->
  qty w k = Some x -> qty w (VUnit t2) = Some y2 -> qty w d = Some e -> qty w q = Some p ->
  planar_flux [AVal k; ANone; AVal (VUnit t2); AVal d; AVal q] [] = Ok r ->
  exists dq, py_mul d q = Ok dq /\
    let c := / (lost_mul w d q * lost_div dq k) in
    qty w r = Some (y2 + e * p / x * c) /\ (qty w r = Some (y2 + e * p / x) <-> e * p = 0 \/ c = 1).
Proof. exact flux_t1. Qed.
Print Assumptions C98_flux_T1.
Theorem C98_flux_thickness : forall k t1 t2 q r w x y1 y2 p, coherent w -> good k -> good (VUnit t1) -> good (VUnit t2) -> good q ->
  qty w k = Some x -> qty w (VUnit t1) = Some y1 -> qty w (VUnit t2) = Some y2 -> qty w q = Some p ->
  planar_flux [AVal k; AVal (VUnit t1); AVal (VUnit t2); ANone; AVal q] [] = Ok r ->
  exists nk dt s, py_neg k = Ok nk /\ py_sub (VUnit t2) (VUnit t1) = Ok dt /\ py_mul nk dt = Ok s /\
    let c := lost_mul w k dt * lost_div s q in
    qty w r = Some (- (x * (y2 - y1) / p) / c) /\ (qty w r = Some (- (x * (y2 - y1) / p)) <-> - (x * (y2 - y1) / p) = 0 \/ c = 1).
Proof. exact flux_d. Qed.
Print Assumptions C98_flux_thickness.
(** A wall 100 cm thick between 300 K and 310 K: the temperatures come back as -690 K and 1300 K. *)
Example C98_case : exists k t1 t2 A d q f r1 r2 s1 s2 rd sd,
  multi "ThermalConductivity" 1 "W/m*K" = Ok k /\ simple Temperature 300 "K" = Ok (VUnit t1) /\ simple Temperature 310 "K" = Ok (VUnit t2) /\
  simple Area 1 "m^2" = Ok A /\ simple Length 100 "cm" = Ok d /\
  good k /\ good (VUnit t1) /\ good (VUnit t2) /\ good A /\ good d /\ good q /\ good f /\
  planar_heat [AVal k; AVal (VUnit t1); AVal (VUnit t2); AVal A; AVal d] [] = Ok q /\
  planar_heat [AVal k; ANone; AVal (VUnit t2); AVal A; AVal d; AVal q] [] = Ok r1 /\ value r1 = -690 /\
  planar_heat [AVal k; AVal (VUnit t1); ANone; AVal A; AVal d; AVal q] [] = Ok r2 /\ value r2 = 1300 /\
  planar_heat [AVal k; AVal (VUnit t1); AVal (VUnit t2); AVal A; ANone; AVal q] [] = Ok rd /\ value rd = 1 /\
  planar_flux [AVal k; AVal (VUnit t1); AVal (VUnit t2); AVal d] [] = Ok f /\
  planar_flux [AVal k; ANone; AVal (VUnit t2); AVal d; AVal f] [] = Ok s1 /\ value s1 = -690 /\
  planar_flux [AVal k; AVal (VUnit t1); ANone; AVal d; AVal f] [] = Ok s2 /\ value s2 = 1300 /\
  planar_flux [AVal k; AVal (VUnit t1); AVal (VUnit t2); ANone; AVal f] [] = Ok sd /\ value sd = 1.
Proof. exact wall_case. Qed.

(** ** C40: pipes and spheres *)

(** Any units, prefixed ones included. *)
Theorem C40_pipe : forall k a b l r2 r1 q, same_unit a b -> value k <> 0 -> value l <> 0 -> pipe_heat k a b l r2 r1 = Ok q ->
  (value q = 0 <-> value a = value b) /\
  (exists q', pipe_heat k b a l r2 r1 = Ok q' /\ value q' = - value q /\ same_unit q q') /\
  (forall k' c, same_unit k k' -> value k' = c * value k -> exists q', pipe_heat k' a b l r2 r1 = Ok q' /\ value q' = c * value q /\ same_unit q q').
Proof. exact pipe_gen. Qed.
Print Assumptions C40_pipe.

(** In consistent units the call succeeds. *)
Theorem C40_pipe_units : forall p l th (k T1 T2 len r2 r1 : R) vk v1 v2 vl vr2 vr1, In p powers -> In l lengths -> In th temperatures ->
  multi "ThermalConductivity" k (p +++ l +++ "*" +++ th) = Ok vk -> simple Temperature T1 th = Ok v1 -> simple Temperature T2 th = Ok v2 ->
  simple Length len l = Ok vl -> simple Length r2 l = Ok vr2 -> simple Length r1 l = Ok vr1 ->
  0 < r2 -> 0 < r1 -> r2 <> r1 ->
  exists q, pipe_heat vk v1 v2 vl vr2 vr1 = Ok q /\ value q = - (2 * PI * len * k * (T2 - T1) / ln (r2 / r1)).
Proof. exact pipe_units. Qed.
Print Assumptions C40_pipe_units.

(** Full statement: also proportional to the conductivity.  It is false
    (C40_sphere_conductivity_refuted). *)
Theorem C40_sphere_partial : forall k a b ro ri q, same_unit a b -> value ro <> 0 -> value ri <> 0 -> sphere_heat k a b ro ri = Ok q ->
  (value q = 0 <-> value a = value b) /\ (exists q', sphere_heat k b a ro ri = Ok q' /\ value q' = - value q /\ same_unit q q').
Proof. exact sphere_gen. Qed.
Print Assumptions C40_sphere_partial.

Theorem C40_sphere_units : forall l th (T1 T2 ro ri : R) vk v1 v2 vo vi, In l lengths -> In th temperatures ->
  simple Temperature T1 th = Ok v1 -> simple Temperature T2 th = Ok v2 -> simple Length ro l = Ok vo -> simple Length ri l = Ok vi -> ro <> ri ->
  exists q, sphere_heat vk v1 v2 vo vi = Ok q /\ value q = - (4 * PI * ri * ro * (T2 - T1) / (ro - ri)).
Proof. exact sphere_units. Qed.
Print Assumptions C40_sphere_units.

Theorem C40_sphere_conductivity_refuted : exists vk vk' v1 v2 vo vi q,
  multi "ThermalConductivity" 1 "W/m*K" = Ok vk /\ multi "ThermalConductivity" 2 "W/m*K" = Ok vk' /\
  simple Temperature 300 "K" = Ok v1 /\ simple Temperature 310 "K" = Ok v2 /\ simple Length 2 "m" = Ok vo /\ simple Length 1 "m" = Ok vi /\
  sphere_heat vk v1 v2 vo vi = Ok q /\ sphere_heat vk' v1 v2 vo vi = Ok q /\ value q < 0.
Proof. exact sphere_refuted. Qed.
Print Assumptions C40_sphere_conductivity_refuted.

Theorem C40_sphere_ignores : forall k k' a b ro ri, sphere_heat k a b ro ri = sphere_heat k' a b ro ri.
Proof. exact sphere_ignores. Qed.
Print Assumptions C40_sphere_ignores.

Example C40_case : exists vk v1 v2 vl vr2 vr1 q, multi "ThermalConductivity" 2 "W/m*K" = Ok vk /\ simple Temperature 300 "K" = Ok v1 /\ simple Temperature 350 "K" = Ok v2 /\
  simple Length 4 "m" = Ok vl /\ simple Length 2 "m" = Ok vr2 /\ simple Length 1 "m" = Ok vr1 /\ pipe_heat vk v1 v2 vl vr2 vr1 = Ok q /\ same_unit v1 v2 /\ value vk <> 0 /\ value vl <> 0.
Proof.
  destruct (multi "ThermalConductivity" 2 "W/m*K") as [vk|] eqn:ek; [|vm_compute in ek; discriminate].
  assert (hk : value vk = 2) by (vm_compute in ek; injection ek as <-; reflexivity).
  destruct (C40_pipe_units "W/" "m" "K" 2 300 350 4 2 1 vk (VUnit (UO Temperature 300 "K" (eint 1))) (VUnit (UO Temperature 350 "K" (eint 1)))
    (VUnit (UO Length 4 "m" (eint 1))) (VUnit (UO Length 2 "m" (eint 1))) (VUnit (UO Length 1 "m" (eint 1)))) as [q [e _]];
    try (left; reflexivity); try assumption; try reflexivity; try lra.
  exists vk, (VUnit (UO Temperature 300 "K" (eint 1))), (VUnit (UO Temperature 350 "K" (eint 1))), (VUnit (UO Length 4 "m" (eint 1))), (VUnit (UO Length 2 "m" (eint 1))), (VUnit (UO Length 1 "m" (eint 1))), q.
  repeat (split; [first [exact e|reflexivity|exact ek|rewrite hk; lra|cbn; auto]|]). cbn. lra.
Qed.


(** ** C46: dimensionless groups *)

(** The answer denotes the documented quotient of the quantities, without prefixes. *)
Theorem C46_reynolds_quantity : forall rho v L mu w x y z u, plain_val rho -> plain_val v -> plain_val L -> plain_val mu ->
  kind rho = KMulti -> kind v = KMulti -> kind mu = KMulti -> value mu <> 0 -> coherent w ->
  qty w rho = Some x -> qty w v = Some y -> qty w L = Some z -> qty w mu = Some u ->
  exists r, reynolds rho v L mu = Ok r /\ qty w r = Some (x * y * z / u).
Proof. exact reynolds_qty. Qed.
Print Assumptions C46_reynolds_quantity.

(** In consistent units it is a plain number. *)
Theorem C46_reynolds_units : forall a b c d (x y z u : R) v1 v2 v3 v4, In (a, b, c, d) re_texts ->
  multi "Density" x a = Ok v1 -> multi "Velocity" y b = Ok v2 -> simple Length z c = Ok v3 -> multi "DynamicViscosity" u d = Ok v4 -> u <> 0 ->
  reynolds v1 v2 v3 v4 = Ok (VNum (x * y * z / u)).
Proof. exact re_units. Qed.
Print Assumptions C46_reynolds_units.

Theorem C46_biot_quantity : forall h L k w x y z, plain_val h -> plain_val L -> plain_val k ->
  kind h = KMulti -> kind k = KMulti -> value k <> 0 -> coherent w ->
  qty w h = Some x -> qty w L = Some y -> qty w k = Some z ->
  exists r, biot h L k = Ok r /\ qty w r = Some (x * y / z).
Proof. exact biot_qty. Qed.
Print Assumptions C46_biot_quantity.

Theorem C46_biot_units : forall a b c (x y u : R) v1 v2 v3, In (a, b, c) bi_texts ->
  multi "HeatTransferCoefficient" x a = Ok v1 -> simple Length y b = Ok v2 -> multi "ThermalConductivity" u c = Ok v3 -> u <> 0 ->
  biot v1 v2 v3 = Ok (VNum (x * y / u)).
Proof. exact bi_units. Qed.
Print Assumptions C46_biot_units.

Theorem C46_prandtl_quantity : forall mu cp k w x y z, plain_val mu -> plain_val cp -> plain_val k ->
  kind mu = KMulti -> kind k = KMulti -> value k <> 0 -> coherent w ->
  qty w mu = Some x -> qty w cp = Some y -> qty w k = Some z ->
  exists r, prandtl mu cp k = Ok r /\ qty w r = Some (x * y / z).
Proof. exact prandtl_qty. Qed.
Print Assumptions C46_prandtl_quantity.

Theorem C46_prandtl_units : forall a b c (x y u : R) v1 v2 v3, In (a, b, c) pr_texts ->
  multi "DynamicViscosity" x a = Ok v1 -> multi "Cp" y b = Ok v2 -> multi "ThermalConductivity" u c = Ok v3 -> u <> 0 ->
  prandtl v1 v2 v3 = Ok (VNum (x * y / u)).
Proof. exact pr_units. Qed.
Print Assumptions C46_prandtl_units.

Theorem C46_schmidt_quantity : forall mu rho D w x y z, plain_val mu -> plain_val rho -> plain_val D ->
  kind rho = KMulti -> kind D = KMulti -> value rho <> 0 -> value D <> 0 -> coherent w ->
  qty w mu = Some x -> qty w rho = Some y -> qty w D = Some z ->
  exists r, schmidt mu rho D = Ok r /\ qty w r = Some (x / (y * z)).
Proof. exact schmidt_qty. Qed.
Print Assumptions C46_schmidt_quantity.

Theorem C46_schmidt_units : forall a b c (x y u : R) v1 v2 v3, In (a, b, c) sc_texts ->
  multi "DynamicViscosity" x a = Ok v1 -> multi "Density" y b = Ok v2 -> multi "DiffusionCoefficient" u c = Ok v3 -> y <> 0 -> u <> 0 ->
  schmidt v1 v2 v3 = Ok (VNum (x / (y * u))).
Proof. exact sc_units. Qed.
Print Assumptions C46_schmidt_units.

(** With prefixes the Reynolds number is off by the prefix of [L], and by that of
    [mu] when the numerator simplifies to a single unit; the Biot number by those
    of [h] and [L], and likewise by [k]'s; the Prandtl number never; the Schmidt
    number by the prefix of [mu] if that is a Unit. *)
Theorem C46_reynolds_actual : forall rho v L mu w x y z u p n, good rho -> good v -> good L -> good mu ->
  kind rho = KMulti -> kind v = KMulti -> kind mu = KMulti -> value mu <> 0 -> coherent w ->
  py_mul rho v = Ok p -> py_mul p L = Ok n ->
  qty w rho = Some x -> qty w v = Some y -> qty w L = Some z -> qty w mu = Some u ->
  exists r, reynolds rho v L mu = Ok r /\ qty w r = Some (x * y * z / u / (unit_prefix L * lost_div n mu)) /\
    (qty w r = Some (x * y * z / u) <-> x * y * z / u = 0 \/ unit_prefix L * lost_div n mu = 1).
Proof. exact reynolds_actual. Qed.
Print Assumptions C46_reynolds_actual.
Example C46_reynolds_actual_case : exists rho v L mu p n,
  multi "Density" 1 "g/cm^3" = Ok rho /\ multi "Velocity" 1 "m/s" = Ok v /\ simple Length 100 "cm" = Ok L /\ multi "DynamicViscosity" 1 "g/mm*s" = Ok mu /\
  good rho /\ good v /\ good L /\ good mu /\ value mu <> 0 /\ py_mul rho v = Ok p /\ py_mul p L = Ok n /\ kind n = KUnit /\ unit_prefix L = / 100 /\ lost_div n mu = / 1000.
Proof. exact reynolds_case. Qed.
Theorem C46_biot_actual : forall h L k w x y z n, good h -> good L -> good k -> kind h = KMulti -> kind k = KMulti -> value k <> 0 -> coherent w ->
  py_mul h L = Ok n -> qty w h = Some x -> qty w L = Some y -> qty w k = Some z ->
  exists r, biot h L k = Ok r /\ qty w r = Some (x * y / z / (pair_prefix h L * lost_div n k)) /\
    (qty w r = Some (x * y / z) <-> x * y / z = 0 \/ pair_prefix h L * lost_div n k = 1).
Proof. exact biot_actual. Qed.
Print Assumptions C46_biot_actual.
Theorem C46_prandtl_actual : forall mu cp k w x y z, good mu -> good cp -> good k -> kind mu = KMulti -> kind cp = KMulti -> kind k = KMulti -> value k <> 0 -> coherent w ->
  qty w mu = Some x -> qty w cp = Some y -> qty w k = Some z -> exists r, prandtl mu cp k = Ok r /\ qty w r = Some (x * y / z).
Proof. exact prandtl_actual. Qed.
Print Assumptions C46_prandtl_actual.
Theorem C46_schmidt_actual : forall mu rho D w x y z, good mu -> good rho -> good D -> kind rho = KMulti -> kind D = KMulti -> value rho <> 0 -> value D <> 0 -> coherent w ->
  qty w mu = Some x -> qty w rho = Some y -> qty w D = Some z ->
  exists r, schmidt mu rho D = Ok r /\ qty w r = Some (x / (y * z) / unit_prefix mu) /\
    (qty w r = Some (x / (y * z)) <-> x / (y * z) = 0 \/ unit_prefix mu = 1).
Proof. exact schmidt_actual. Qed.
Print Assumptions C46_schmidt_actual.
Example C46_actual_case : exists h L k mu cp rho D n,
  multi "HeatTransferCoefficient" 1 "kW/m^2*K" = Ok h /\ simple Length 1 "cm" = Ok L /\ multi "ThermalConductivity" 1 "W/cm*K" = Ok k /\
  multi "DynamicViscosity" 1 "g/cm*s" = Ok mu /\ multi "Cp" 1 "kJ/kg*K" = Ok cp /\ multi "Density" 1 "g/cm^3" = Ok rho /\ multi "DiffusionCoefficient" 1 "cm^2/s" = Ok D /\
  good h /\ good L /\ good k /\ good mu /\ good cp /\ good rho /\ good D /\ value k <> 0 /\ value rho <> 0 /\ value D <> 0 /\ py_mul h L = Ok n.
Proof. exact groups_case. Qed.

(** Plain numbers computed from the same quantities are equal, whatever the units.
    Missing from the full statement: mixed and prefixed units, refuted below. *)
Theorem C46_unit_independent_partial : forall (r r' : res val) n n' w q, coherent w -> r = Ok (VNum n) -> r' = Ok (VNum n') ->
  (exists v, r = Ok v /\ qty w v = Some q) -> (exists v, r' = Ok v /\ qty w v = Some q) -> n = n'.
Proof. exact num_same. Qed.
Print Assumptions C46_unit_independent_partial.

Theorem C46_prefix_refuted : exists v1 v2 v3 v3' v4,
  multi "Density" 1 "kg/m^3" = Ok v1 /\ multi "Velocity" 1 "m/s" = Ok v2 /\ multi "DynamicViscosity" 1 "kg/m*s" = Ok v4 /\
  simple Length 1 "m" = Ok v3 /\ simple Length 100 "cm" = Ok v3' /\
  reynolds v1 v2 v3 v4 = Ok (VNum 1) /\ reynolds v1 v2 v3' v4 = Ok (VNum 100).
Proof. exact re_prefixed. Qed.
Print Assumptions C46_prefix_refuted.

Theorem C46_mixed_refuted : forall (x y z u : R) v1 v2 v3 v4, multi "Density" x "kg/m^3" = Ok v1 -> multi "Velocity" y "m/s" = Ok v2 -> simple Length z "ft" = Ok v3 -> multi "DynamicViscosity" u "kg/m*s" = Ok v4 -> u <> 0 ->
  exists m, reynolds v1 v2 v3 v4 = Ok (VMulti m) /\ mv m = x * y * z / u.
Proof. exact re_mixed. Qed.
Print Assumptions C46_mixed_refuted.

Theorem C46_newton_refuted : forall (x y z u : R) v1 v2 v3 v4, multi "Density" x "kg/m^3" = Ok v1 -> multi "Velocity" y "m/s" = Ok v2 -> simple Length z "m" = Ok v3 -> multi "DynamicViscosity" u "N*s/m^2" = Ok v4 -> u <> 0 ->
  exists m, reynolds v1 v2 v3 v4 = Ok (VMulti m) /\ mv m = x * y * z / u.
Proof. exact re_newton. Qed.
Print Assumptions C46_newton_refuted.

Example C46_case : In ("lb/ft^3", "ft/hr", "ft", "lb/ft*hr") re_texts /\ In ("BTU/hr*ft^2*F", "ft", "BTU/hr*ft*F") bi_texts /\
  In ("lb/ft*hr", "BTU/lb*F", "BTU/hr*ft*F") pr_texts /\ In ("Pa*s", "kg/m^3", "m^2/s") sc_texts.
Proof.
  split; [apply (nth_error_In re_texts 29); vm_compute; reflexivity|]. split; [apply (nth_error_In bi_texts 103); vm_compute; reflexivity|].
  split; [apply (nth_error_In pr_texts 239); vm_compute; reflexivity|apply (nth_error_In sc_texts 36); vm_compute; reflexivity].
Qed.


(** ** C47: process safety *)

(** The documented formulas, in the unit of the strength. *)
Theorem C47_vessel_units : forall p l (S t r : R) vS vt vr, In p pressures -> In l lengths ->
  simple Pressure S p = Ok vS -> simple Length t l = Ok vt -> simple Length r l = Ok vr -> 0 < t -> 0 < r ->
  (exists u, max_vessel_pressure vS vt vr "cylinder" = Ok (VUnit u) /\ un u = p /\ ev (ue u) = qc 1 /\ uv u = S * t / (r + 0.6 * t)) /\
  (exists u, max_vessel_pressure vS vt vr "sphere" = Ok (VUnit u) /\ un u = p /\ ev (ue u) = qc 1 /\ uv u = 2 * t * S / (r + 0.2 * t)).
Proof. exact vessel_units. Qed.
Print Assumptions C47_vessel_units.

(** Full statement: with prefixes as well. *)
Theorem C47_vessel_value_partial : forall S t r q, plain_val S -> plain_val t -> plain_val r -> 0 < value t -> 0 < value r ->
  (max_vessel_pressure S t r "cylinder" = Ok q -> value q = value S * value t / (value r + 0.6 * value t)) /\
  (max_vessel_pressure S t r "sphere" = Ok q -> value q = 2 * value t * value S / (value r + 0.2 * value t)).
Proof. exact vessel_value. Qed.
Print Assumptions C47_vessel_value_partial.

Theorem C47_vessel_shape : forall S t r s, s <> "cylinder" -> s <> "sphere" -> max_vessel_pressure S t r s = Raise ETypeError.
Proof. exact vessel_shape. Qed.
Print Assumptions C47_vessel_shape.

Theorem C47_osha : forall n h, h <> 0 -> OSHA_incidence_rate (VNum n) (VNum h) = Ok (VNum (n * 200000 / h)).
Proof. exact osha_value. Qed.
Print Assumptions C47_osha.

(** 10E8 is 10^9: ten times the documented rate. *)
Theorem C47_far : forall n h, h <> 0 -> FAR (VNum n) (VNum h) = Ok (VNum (n * 10 ^ 9 / h)).
Proof. exact far_value. Qed.
Print Assumptions C47_far.

Theorem C47_far_refuted : forall n h, n <> 0 -> h <> 0 -> FAR (VNum n) (VNum h) <> Ok (VNum (n * 10 ^ 8 / h)).
Proof. exact far_refuted. Qed.
Print Assumptions C47_far_refuted.

(** 10E6 is 10^7. *)
Theorem C47_ventilation_units : forall sm sr sf sp sw sv (Qm Rg T k Qv P M : R) v1 v2 v3 v5 v6 v7, In (sm, sr, sf, sp, sw, sv) vent_texts ->
  multi "MassFlowRate" Qm sm = Ok v1 -> constant Rg sr = Ok v2 -> simple Temperature T "K" = Ok v3 ->
  multi "VolumetricFlowrate" Qv sf = Ok v5 -> simple Pressure P sp = Ok v6 -> multi "MolecularWeight" M sw = Ok v7 ->
  Rg <> 0 -> T <> 0 -> k <> 0 -> Qv <> 0 -> P <> 0 -> M <> 0 ->
  enclosure_concentration v1 v2 v3 (VNum k) v5 v6 v7 = Ok (VNum (10 ^ 7 * (Qm * Rg * T / (k * Qv * P * M)))) /\
  forall c, exists m, ppm_to_other (VNum c) v2 v3 v6 v7 = Ok (VMulti m) /\ mv m = c * (P * M) / (10 ^ 7 * (Rg * T)).
Proof. exact vent_units. Qed.
Print Assumptions C47_ventilation_units.

Theorem C47_ventilation_refuted : forall sm sr sf sp sw sv (Qm Rg T k Qv P M : R) v1 v2 v3 v5 v6 v7, In (sm, sr, sf, sp, sw, sv) vent_texts ->
  multi "MassFlowRate" Qm sm = Ok v1 -> constant Rg sr = Ok v2 -> simple Temperature T "K" = Ok v3 ->
  multi "VolumetricFlowrate" Qv sf = Ok v5 -> simple Pressure P sp = Ok v6 -> multi "MolecularWeight" M sw = Ok v7 ->
  Qm <> 0 -> Rg <> 0 -> T <> 0 -> k <> 0 -> Qv <> 0 -> P <> 0 -> M <> 0 ->
  enclosure_concentration v1 v2 v3 (VNum k) v5 v6 v7 <> Ok (VNum (10 ^ 6 * (Qm * Rg * T / (k * Qv * P * M)))).
Proof. exact enc_refuted. Qed.
Print Assumptions C47_ventilation_refuted.

(** The two functions undo each other. *)
Theorem C47_ventilation_back : forall Qm Rg T k Qv P M r c, plain_val Qm -> plain_val Rg -> plain_val T -> plain_val k -> plain_val Qv -> plain_val P -> plain_val M ->
  value Rg <> 0 -> value T <> 0 -> value k <> 0 -> value Qv <> 0 -> value P <> 0 -> value M <> 0 ->
  enclosure_concentration Qm Rg T k Qv P M = Ok r -> ppm_to_other r Rg T P M = Ok c ->
  value c = value Qm / (value k * value Qv).
Proof. exact vent_back. Qed.
Print Assumptions C47_ventilation_back.

Example C47_case : In ("g/s", "L*atm/mol*K", "L/s", "atm", "g/mol", "L") vent_texts /\ In "psi" pressures.
Proof. split; [apply (nth_error_In vent_texts 10); vm_compute; reflexivity|right; left; reflexivity]. Qed.


(** ** C48: the Arrhenius relation *)

(** Orders 0 and 1: k is A exp(-Ea/RT), and solving for Ea returns Ea.  Missing from
    the full statement: solving for T or A, and other orders; refuted below. *)
Theorem C48_k_and_Ea_partial : forall o s e r th (A Ea Rg T : R) vA vE vR vT, In (o, s) orders -> In (s, e, r, th) arr_texts -> constant A s = Ok vA ->
  multi "ActivationEnergy" Ea e = Ok vE -> constant Rg r = Ok vR -> simple Temperature T th = Ok vT -> 0 < A -> Rg <> 0 -> T <> 0 ->
  exists k E', arrhenius o [AVal (VNum A); AVal vE; AVal vR; AVal vT] [] = Ok k /\
    value k = A * exp (- Ea / (Rg * T)) /\ shape k = shape vA /\
    arrhenius o [AVal (VNum A); ANone; AVal vR; AVal vT; AVal k] [] = Ok E' /\ value E' = Ea /\ shape E' = shape vE.
Proof. exact arr_back. Qed.
Print Assumptions C48_k_and_Ea_partial.
Theorem C48_T_refuted : forall o s e r th (A Ea Rg T : R) vA vE vR vT, In (o, s) orders -> In (s, e, r, th) arr_texts -> constant A s = Ok vA ->
  multi "ActivationEnergy" Ea e = Ok vE -> constant Rg r = Ok vR -> simple Temperature T th = Ok vT -> forall k vk, multi "KineticConstant" k s = Ok vk -> 0 < A -> 0 < k -> k <> A -> Rg <> 0 -> Ea <> 0 ->
  arrhenius o [AVal (VNum A); AVal vE; AVal vR; ANone; AVal vk] [] = Raise ETypeError.
Proof. exact arr_T. Qed.
Print Assumptions C48_T_refuted.

Theorem C48_A_refuted : forall o s e r th (Ea Rg T k : R) vE vR vT vk, In (o, s) orders -> In (s, e, r, th) arr_texts ->
  multi "ActivationEnergy" Ea e = Ok vE -> constant Rg r = Ok vR -> simple Temperature T th = Ok vT -> multi "KineticConstant" k s = Ok vk -> Rg <> 0 ->
  arrhenius o [ANone; AVal vE; AVal vR; AVal vT; AVal vk] [] = Raise ETypeError.
Proof. exact arr_A. Qed.
Print Assumptions C48_A_refuted.

Theorem C48_order2_refuted : exists vR vT vk, constant 8.314 "J/mol*K" = Ok vR /\ simple Temperature 350 "K" = Ok vT /\ multi "KineticConstant" 1 "L/mol*s" = Ok vk /\
  arrhenius (eint 2) [AVal (VNum 2); ANone; AVal vR; AVal vT; AVal vk] [] = Raise ETypeError.
Proof. exact arr_order2. Qed.
Print Assumptions C48_order2_refuted.

(** Every order for which the function finds units [s] for A: k is right, the Ea
    computed from that k is right, and T and A cannot be solved for. *)
Theorem C48_any_order_back : forall o s e r th (A Ea Rg T : R) vA vE vR vT, arrhenius_units o = Ok s -> In ("s^-1", e, r, th) arr_texts -> constant A s = Ok vA ->
  multi "ActivationEnergy" Ea e = Ok vE -> constant Rg r = Ok vR -> simple Temperature T th = Ok vT -> A <> 0 -> Rg <> 0 -> T <> 0 ->
  exists k E', arrhenius o [AVal (VNum A); AVal vE; AVal vR; AVal vT] [] = Ok k /\
    value k = A * exp (- Ea / (Rg * T)) /\ shape k = shape vA /\
    arrhenius o [AVal (VNum A); ANone; AVal vR; AVal vT; AVal k] [] = Ok E' /\ value E' = Ea /\ shape E' = shape vE.
Proof. exact any_back. Qed.
Print Assumptions C48_any_order_back.
Theorem C48_any_order_T_refuted : forall o s e r th (A Ea Rg T : R) vA vE vR vT, arrhenius_units o = Ok s -> In ("s^-1", e, r, th) arr_texts -> constant A s = Ok vA ->
  multi "ActivationEnergy" Ea e = Ok vE -> constant Rg r = Ok vR -> simple Temperature T th = Ok vT -> forall k, 0 < A -> 0 < value k -> value k <> A -> Rg <> 0 -> Ea <> 0 ->
  shape k = shape vA -> kind k = KMulti -> arrhenius o [AVal (VNum A); AVal vE; AVal vR; ANone; AVal k] [] = Raise ETypeError.
Proof. exact any_T. Qed.
Print Assumptions C48_any_order_T_refuted.
Theorem C48_any_order_A_refuted : forall o s e r th (A Ea Rg T : R) vA vE vR vT, arrhenius_units o = Ok s -> In ("s^-1", e, r, th) arr_texts -> constant A s = Ok vA ->
  multi "ActivationEnergy" Ea e = Ok vE -> constant Rg r = Ok vR -> simple Temperature T th = Ok vT -> forall k, Rg <> 0 ->
  arrhenius o [ANone; AVal vE; AVal vR; AVal vT; AVal k] [] = Raise ETypeError.
Proof. exact any_A. Qed.
Print Assumptions C48_any_order_A_refuted.
(** When A is None and the body is told to solve for another parameter, as happens with
    keywords out of order (C97), it raises. *)
Theorem C48_missing_A : forall o env extra s, dict_get env "A" = Some ANone -> dict_get extra "solving_for" = Some (AName s) -> In s ["k"; "Ea"; "T"] ->
  exists e, arrhenius_body o env extra = Raise e.
Proof. exact missing_A. Qed.
Print Assumptions C48_missing_A.
Example C48_missing_A_case : exists vE vR vT vk, multi "ActivationEnergy" 5000 "J/mol" = Ok vE /\ constant 8.314 "J/mol*K" = Ok vR /\
  simple Temperature 350 "K" = Ok vT /\ multi "KineticConstant" 2 "s^-1" = Ok vk /\
  arrhenius (eint 1) [] [("Ea", AVal vE); ("A", ANone); ("R", AVal vR); ("T", AVal vT); ("k", AVal vk)] = Raise ETypeError.
Proof. exact missing_A_case. Qed.
(** Among these orders are: *)
Theorem C48_order_units : forall o s, In (o, s) more_orders -> arrhenius_units o = Ok s /\ forall A, exists vA, constant A s = Ok vA.
Proof. exact more_units. Qed.
Print Assumptions C48_order_units.

Example C48_case : In (eint 1, "s^-1") orders /\ In ("s^-1", "J/mol", "J/mol*K", "K") arr_texts.
Proof. split; [right; left; reflexivity|apply (nth_error_In arr_texts 4); vm_compute; reflexivity]. Qed.


(** ** C49: log-mean temperature difference *)

(** Every unit name.  Full statement: also for equal end differences and for the
    cocurrent case; both are refuted below. *)
Theorem C49_countercurrent_partial : forall th (a b c d : R) v1 v2 v3 v4, simple Temperature a th = Ok v1 -> simple Temperature b th = Ok v2 -> simple Temperature c th = Ok v3 -> simple Temperature d th = Ok v4 ->
  0 < a - d -> 0 < b - c -> a - d <> b - c ->
  exists u, deltat_logmean v1 v2 v3 v4 false = Ok (VUnit u) /\ un u = th /\ ev (ue u) = qc 1 /\ uv u = ((a - d) - (b - c)) / ln ((a - d) / (b - c)) /\
    Rmin (a - d) (b - c) < uv u < Rmax (a - d) (b - c) /\ deltat_logmean v2 v1 v4 v3 false = Ok (VUnit u).
Proof. exact lm_any. Qed.
Print Assumptions C49_countercurrent_partial.

Theorem C49_equal_refuted : forall th (a b c d : R) v1 v2 v3 v4, simple Temperature a th = Ok v1 -> simple Temperature b th = Ok v2 -> simple Temperature c th = Ok v3 -> simple Temperature d th = Ok v4 ->
  0 < a - d -> a - d = b - c -> deltat_logmean v1 v2 v3 v4 false = Raise EZeroDivisionError.
Proof. exact lm_equal. Qed.
Print Assumptions C49_equal_refuted.

(** What is returned, for all temperatures and both flow arrangements: the log mean of
    [x] and [y], where [x] should be [a - c] in the cocurrent case but is [c]. *)
Theorem C49_actual : forall (co : bool) th (a b c d : R) v1 v2 v3 v4,
  simple Temperature a th = Ok v1 -> simple Temperature b th = Ok v2 -> simple Temperature c th = Ok v3 -> simple Temperature d th = Ok v4 ->
  let x := if co then c else a - d in let y := b - (if co then d else c) in let call := deltat_logmean v1 v2 v3 v4 co in
  (y = 0 -> call = Raise EZeroDivisionError) /\
  (y <> 0 -> x / y <= 0 -> call = Raise EValueError) /\
  (y <> 0 -> x = y -> call = Raise EZeroDivisionError) /\
  (0 < x / y -> x <> y -> exists u, call = Ok (VUnit u) /\ un u = th /\ ev (ue u) = qc 1%Z /\ uv u = (x - y) / ln (x / y) /\ Rmin x y < uv u < Rmax x y).
Proof. exact logmean_actual. Qed.
Print Assumptions C49_actual.

(** Cocurrent: right exactly when T0A - T0B is T0B; too large when T0B is larger. *)
Theorem C49_cocurrent_exact : forall th (a b c d : R) v1 v2 v3 v4,
  simple Temperature a th = Ok v1 -> simple Temperature b th = Ok v2 -> simple Temperature c th = Ok v3 -> simple Temperature d th = Ok v4 ->
  0 < a - c -> 0 < b - d -> a - c <> b - d -> 0 < c -> c <> b - d ->
  let m := ((a - c) - (b - d)) / ln ((a - c) / (b - d)) in
  exists u, deltat_logmean v1 v2 v3 v4 true = Ok (VUnit u) /\ (uv u = m <-> a - c = c) /\ (m < uv u <-> a - c < c) /\ (uv u < m <-> c < a - c).
Proof. exact cocurrent_exact. Qed.
Print Assumptions C49_cocurrent_exact.
Example C49_cocurrent_case : 0 < 400 - 300 /\ 0 < 350 - 320 /\ 400 - 300 <> 350 - 320 /\ 0 < 300 /\ 300 <> 350 - 320.
Proof. lra. Qed.

Theorem C49_cocurrent_refuted : exists t0a t1a t0b t1b r,
  simple Temperature 901 "K" = Ok t0a /\ simple Temperature 902 "K" = Ok t1a /\ simple Temperature 900 "K" = Ok t0b /\ simple Temperature 900 "K" = Ok t1b /\
  deltat_logmean t0a t1a t0b t1b true = Ok r /\ value r > Rmax (901 - 900) (902 - 900).
Proof. exact lm_cocurrent. Qed.
Print Assumptions C49_cocurrent_refuted.

Example C49_case : exists u, deltat_logmean (VUnit (UO Temperature 400 "K" (eint 1))) (VUnit (UO Temperature 350 "K" (eint 1)))
  (VUnit (UO Temperature 300 "K" (eint 1))) (VUnit (UO Temperature 310 "K" (eint 1))) false = Ok (VUnit u) /\ 50 < uv u < 90.
Proof.
  destruct (C49_countercurrent_partial "K" 400 350 300 310 _ _ _ _ eq_refl eq_refl eq_refl eq_refl) as [u [e [_ [_ [_ [b _]]]]]]; try lra.
  exists u. split; [exact e|]. rewrite Rmin_right, Rmax_left in b by lra. lra.
Qed.


(** ** C50: the lumped-parameter model *)

(** Any units, prefixed ones included. *)
Theorem C50_bounds : forall Tf To h A rho cP V t r, 0 < value h -> 0 < value A -> 0 < value rho -> 0 < value cP -> 0 < value V -> 0 <= value t -> lumped_parameter Tf To h A rho cP V t = Ok r ->
  Rmin (value Tf) (value To) <= value r <= Rmax (value Tf) (value To).
Proof. exact lump_bounds_gen. Qed.
Print Assumptions C50_bounds.

Theorem C50_monotone : forall Tf To h A rho cP V t t' r, same_unit t t' ->
  0 < value h -> 0 < value A -> 0 < value rho -> 0 < value cP -> 0 < value V -> value t < value t' ->
  lumped_parameter Tf To h A rho cP V t = Ok r ->
  exists r', lumped_parameter Tf To h A rho cP V t' = Ok r' /\ same_unit r r' /\
  (value To < value Tf -> value r < value r' < value Tf) /\ (value Tf < value To -> value Tf < value r' < value r) /\ (value To = value Tf -> value r = value Tf /\ value r' = value Tf).
Proof. exact lump_monotone_gen. Qed.
Print Assumptions C50_monotone.

Theorem C50_limit : forall Tf To h A rho cP V t r, 0 < value h -> 0 < value A -> 0 < value rho -> 0 < value cP -> 0 < value V ->
  lumped_parameter Tf To h A rho cP V t = Ok r -> forall eps, 0 < eps ->
  exists t0, forall t', same_unit t t' -> t0 < value t' -> exists r', lumped_parameter Tf To h A rho cP V t' = Ok r' /\ Rabs (value r' - value Tf) < eps.
Proof. exact lump_limit_gen. Qed.
Print Assumptions C50_limit.

(** In consistent units the call succeeds and the answer is the documented one. *)
Theorem C50_units : forall sh sA srho scP sV st th (Tf To h A rho cP V t : R) v0 v1 v2 v3 v4 v5 v6 v7, In (sh, sA, srho, scP, sV, st, th) lump_texts ->
  simple Temperature Tf th = Ok v0 -> simple Temperature To th = Ok v1 -> multi "HeatTransferCoefficient" h sh = Ok v2 -> simple Area A sA = Ok v3 ->
  multi "Density" rho srho = Ok v4 -> multi "Cp" cP scP = Ok v5 -> simple Volume V sV = Ok v6 -> simple Time t st = Ok v7 ->
  rho <> 0 -> cP <> 0 -> V <> 0 ->
  exists u, lumped_parameter v0 v1 v2 v3 v4 v5 v6 v7 = Ok (VUnit u) /\ un u = th /\ ev (ue u) = qc 1 /\
    uv u = Tf - (Tf - To) * exp (- (h * A * t) / (rho * cP * V)).
Proof. exact lump_units. Qed.
Print Assumptions C50_units.

Example C50_case : In ("W/m^2*K", "m^2", "kg/m^3", "J/kg*K", "m^3", "s", "K") lump_texts.
Proof. apply (nth_error_In lump_texts 288). vm_compute. reflexivity. Qed.


(** ** C51: steady diffusion *)

(** Any units, prefixed ones included. *)
Theorem C51_planar : forall D A b a d q, same_unit a b -> value D <> 0 -> value A <> 0 -> value d <> 0 -> planar_mass_transfer D A b a d = Ok q ->
  (value q = 0 <-> value a = value b) /\ (exists q', planar_mass_transfer D A a b d = Ok q' /\ value q' = - value q /\ same_unit q q').
Proof. exact planar_mass_gen. Qed.
Print Assumptions C51_planar.

Theorem C51_planar_flux : forall D b a d q, same_unit a b -> value D <> 0 -> value d <> 0 -> planar_mass_flux D b a d = Ok q ->
  (value q = 0 <-> value a = value b) /\ (exists q', planar_mass_flux D a b d = Ok q' /\ value q' = - value q /\ same_unit q q').
Proof. exact planar_flux_gen. Qed.
Print Assumptions C51_planar_flux.

Theorem C51_pipe : forall D r2 r1 b a l q, same_unit a b -> value D <> 0 -> value l <> 0 -> pipe_mass_transfer D r2 r1 b a l = Ok q ->
  (value q = 0 <-> value a = value b) /\ (exists q', pipe_mass_transfer D r2 r1 a b l = Ok q' /\ value q' = - value q /\ same_unit q q').
Proof. exact pipe_mass_gen. Qed.
Print Assumptions C51_pipe.

Theorem C51_sphere : forall D ro ri b a q, same_unit a b -> value D <> 0 -> value ro <> 0 -> value ri <> 0 -> sphere_mass_transfer D ro ri b a = Ok q ->
  (value q = 0 <-> value a = value b) /\ (exists q', sphere_mass_transfer D ro ri a b = Ok q' /\ value q' = - value q /\ same_unit q q').
Proof. exact sphere_mass_gen. Qed.
Print Assumptions C51_sphere.

(** In consistent units every call succeeds. *)
Theorem C51_units : forall n l t (D C1 C2 A len r2 r1 : R) vD v1 v2 vA vl vr2 vr1, In n substances -> In l lengths -> In t times ->
  multi "DiffusionCoefficient" D (l +++ "^2/" +++ t) = Ok vD -> multi "Concentration" C1 (n +++ "/" +++ l +++ "^3") = Ok v1 -> multi "Concentration" C2 (n +++ "/" +++ l +++ "^3") = Ok v2 ->
  simple Area A (l +++ "^2") = Ok vA -> simple Length len l = Ok vl -> simple Length r2 l = Ok vr2 -> simple Length r1 l = Ok vr1 ->
  0 < len -> 0 < r2 -> 0 < r1 -> r2 <> r1 ->
  exists q1 q2 q3 q4, planar_mass_transfer vD vA v2 v1 vl = Ok q1 /\ planar_mass_flux vD v2 v1 vl = Ok q2 /\
    pipe_mass_transfer vD vr2 vr1 v2 v1 vl = Ok q3 /\ sphere_mass_transfer vD vr2 vr1 v2 v1 = Ok q4.
Proof. exact mass_units. Qed.
Print Assumptions C51_units.

Example C51_case : In "mol" substances /\ In "m" lengths /\ In "s" times /\
  exists vD v1 v2 vA vl, multi "DiffusionCoefficient" 2 "m^2/s" = Ok vD /\ multi "Concentration" 3 "mol/m^3" = Ok v1 /\ multi "Concentration" 5 "mol/m^3" = Ok v2 /\
    simple Area 3 "m^2" = Ok vA /\ simple Length 4 "m" = Ok vl.
Proof. split; [left; reflexivity|]. split; [left; reflexivity|]. split; [left; reflexivity|]. repeat eexists; reflexivity. Qed.


(** ** C53: gas constants *)

Theorem C53_sizes : forall g r p, In (g, r, p) gas_table -> exists v, g = Ok v /\ qty si v = Some r.
Proof. exact gas_sizes. Qed.
Print Assumptions C53_sizes.

(** One unit in the last printed place of the coarser constant. *)
Theorem C53_agree : forall g r p g' r' p', In (g, r, p) gas_table -> In (g', r', p') gas_table ->
  exists v v' x x', g = Ok v /\ g' = Ok v' /\ qty si v = Some x /\ qty si v' = Some x' /\ Rabs (x - x') <= Rmax p p'.
Proof. exact gas_agree_full. Qed.
Print Assumptions C53_agree.

(** Not half a unit in each: 0.08205 is not the rounding of the others. *)
Theorem C53_half_unit_refuted : exists g r p g' r' p' v v', In (g, r, p) gas_table /\ In (g', r', p') gas_table /\
  g = Ok v /\ g' = Ok v' /\ qty si v = Some r /\ qty si v' = Some r' /\ Rabs (r - r') > (p + p') / 2.
Proof. exact gas_half_full. Qed.
Print Assumptions C53_half_unit_refuted.

Theorem C53_other_units : forall t v p, (v, p, t) <> ("m^3", "Pa", "K") -> (v, p, t) <> ("L", "atm", "K") -> (v, p, t) <> ("m^3", "atm", "K") -> get_gas_constant t v p false = Raise EValueError.
Proof. exact gas_other. Qed.
Print Assumptions C53_other_units.
Example C53_case : In (get_gas_constant "K" "L" "atm" false, 0.08205 * 101.325, 0.00001 * 101.325) gas_table /\ ("L", "Pa", "K") <> ("m^3", "Pa", "K").
Proof. split; [cbn; tauto|discriminate]. Qed.
