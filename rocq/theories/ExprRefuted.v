(** * ExprRefuted: an expression with a wrong quantity *)
From Coq Require Import String Ascii List ZArith QArith Qcanon Bool Reals Qreals Lra.
From Verif Require Import Py Num UnitsData UnitsStruct Units Spec SpecFacts Expr ExprFacts ExprCases OpSpec ExprSpec ExprExact WitnessFacts.
Import ListNotations.
Local Open Scope R_scope.
Lemma expr_refuted : exists w e x r, coherent w /\ (forall v, In v (leaves e) -> good v) /\ denotes w e x /\ eval e = Ok r /\ qty w r <> Some x.
Proof.
  destruct km_case as (h1 & _ & h2 & _ & r & h3 & h4). exists si, km_of, 5000, r. split; [exact (proj1 (proj2 (proj2 kmps_case)))|]. split; [exact h1|]. split; [exact h2|]. split; [exact h3|].
  rewrite h4. intro h. injection h as h. lra.
Qed.
