(** * Properties of the heat exchanger system (C79)

    [missing sg args kw p] : the parameter [p] receives None; [in_order] : the
    keyword arguments follow the positional ones in the order of the parameters
    (SolveSpec.v). *)
From Coq Require Import String List Bool.
From Verif Require Import Py Num UnitsStruct Units Solve SolveSpec Formulas SystemFacts.
Import ListNotations.
Local Open Scope string_scope.
Local Open Scope list_scope.

(** ** C79

    Whatever the call, the function returns None or raises. *)
Theorem C79_never_solves : forall args kw v, solve_heat_exchanger_system args kw = Ok v -> v = VNone.
Proof. exact exchanger_never_solves. Qed.
Print Assumptions C79_never_solves.
Theorem C79_two_missing : forall args kw (x y : string), in_order (exchanger_sig (VObj : val)) [AVal VObj] args kw -> x <> y ->
  (forall p, missing (exchanger_sig (VObj : val)) args kw p <-> p = x \/ p = y) ->
  solve_heat_exchanger_system args kw =
    if mem_str x exchanger_solvable && mem_str y exchanger_solvable then Ok VNone else Raise ESolutionNotSupported.
Proof. exact exchanger_calls. Qed.
Print Assumptions C79_two_missing.
Example C79_case : exists args kw, in_order (exchanger_sig (VObj : val)) [AVal VObj] args kw /\
  (forall p, missing (exchanger_sig (VObj : val)) args kw p <-> p = "T1A" \/ p = "U").
Proof. destruct proper_unsolved as (args & kw & h1 & h2 & _). exists args, kw. split; assumption. Qed.
(** That two missing parameters are solved for. *)
Theorem C79_solved_refuted : exists args kw, in_order (exchanger_sig (VObj : val)) [AVal VObj] args kw /\
  (forall p, missing (exchanger_sig (VObj : val)) args kw p <-> p = "T1A" \/ p = "U") /\ solve_heat_exchanger_system args kw = Ok VNone.
Proof. exact proper_unsolved. Qed.
Print Assumptions C79_solved_refuted.
(** That a stream of which neither flow nor heat capacity is known is refused
    with UnsolvableEquation: the check expects the names in the other order. *)
Theorem C79_degenerate_refuted : exists args kw, in_order (exchanger_sig (VObj : val)) [AVal VObj] args kw /\
  (forall p, missing (exchanger_sig (VObj : val)) args kw p <-> p = "m1" \/ p = "cp1") /\ solve_heat_exchanger_system args kw = Ok VNone.
Proof. exact degenerate_accepted. Qed.
Print Assumptions C79_degenerate_refuted.
