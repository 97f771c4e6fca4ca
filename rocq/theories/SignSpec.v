(** * SignSpec: which units change the sign of a converted value

    convert_and_get_factor (units.py:821-832) multiplies by the exponent of a
    degree.  [marked] and [rooted] (ReadSpec.v, PrefixSpec.v) list the units as
    the conversion looks at them. *)
From Coq Require Import String Ascii List ZArith QArith Qcanon Bool.
From Verif Require Import Py UnitsStruct PrefixSpec ReadSpec.
Import ListNotations.
Local Open Scope string_scope.
Local Open Scope list_scope.

(** Taken for a degree: a coulomb behind an opened unit is. *)
Definition a_degree (m : bool * bu) : Prop :=
  In (bname (snd m)) ["K"; "R"; "F"] \/ (fst m = true /\ bname (snd m) = "C").
Definition a_degreeb (m : bool * bu) : bool :=
  existsb (String.eqb (bname (snd m))) ["K"; "R"; "F"] || (fst m && String.eqb (bname (snd m)) "C").
(** One of them has the exponent zero. *)
Definition lost (l : half) : Prop := exists m, In m (marked (rooted l)) /\ a_degree m /\ ev (bexp (snd m)) = qc 0.
(** How many of them have a negative exponent. *)
Definition negative (q : Qc) : bool := match Qccompare q (qc 0) with Lt => true | _ => false end.
Definition reversals (l : half) : nat :=
  length (filter (fun m => a_degreeb m && negative (ev (bexp (snd m)))) (marked (rooted l))).
