(** * WaterSpec: what the table says about a temperature *)
From Coq Require Import String List ZArith QArith Bool Reals Qreals.
From Verif Require Import Py WaterData Water.
Import ListNotations.
Local Open Scope string_scope.
Local Open Scope list_scope.
Local Open Scope R_scope.

(** The table has the value [x] for property [p] in the row of temperature [t]. *)
Definition tabulated (p : string) (t : R) (x : wv) : Prop :=
  exists q r c, In (q, r) WATER_PROPERTIES /\ In (p, c) r /\ t = Q2R q /\ x = cell_val c.
(** [p] in the answer: its position in the list of keys, after the temperature. *)
Definition reported (l : list wv) (p : string) : option wv := dict_get (combine WATER_PROPERTY_KEYS (tl l)) p.
(** Property names with numeric values. *)
Definition numeric (p : string) : Prop := In p WATER_PROPERTY_KEYS /\ p <> "Phase".
(** The row of the boiling point stands between those of 365 K and 375 K. *)
Definition boiling : R := 373.12.
(** [t1] and [t2] are neighbours in the table, disregarding the boiling row. *)
Definition neighbours (t1 t2 : R) : Prop :=
  t1 < t2 /\ forall p t x, tabulated p t x -> t <> boiling -> t <= t1 \/ t2 <= t.
