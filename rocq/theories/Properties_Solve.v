(** * Properties of the solver decorator (C38)

    [gives sg args kw p v]: in the call with positional arguments [args] and
    keyword arguments [kw] the parameter [p] receives [v]; [missing]: it receives
    None (SolveSpec.v). *)
From Coq Require Import String Ascii List Arith Bool Lia.
From Verif Require Import Py Solve SolveSpec SolveFacts SolveExact.
Import ListNotations.
Local Open Scope string_scope.
Local Open Scope list_scope.

(** ** C38

    The full claim quantifies over all calls Python accepts.  It holds when
    keyword arguments follow the positional ones in the order of the parameters.
    In any order, the body runs only with the right number of missing
    parameters, but may be told to solve for the wrong one. *)
Theorem C38_dispatch_partial : forall V (sg : sig V) ds args kw, regular sg ds -> in_order sg ds args kw -> forall solvable unknowns,
  ((exists p, missing sg args kw p /\ ~ In p solvable) -> wrapper solvable unknowns sg args kw = Raise ESolutionNotSupported) /\
  ((forall p, missing sg args kw p -> In p solvable) -> exists ms, NoDup ms /\ (forall p, In p ms <-> missing sg args kw p) /\
    ((unknowns < List.length ms)%nat -> wrapper solvable unknowns sg args kw = Raise EUnsolvableEquation) /\
    ((List.length ms < unknowns)%nat -> wrapper solvable unknowns sg args kw = Raise EOverSpecifiedProblem) /\
    (List.length ms = unknowns -> exists env s, wrapper solvable unknowns sg args kw = Ok (env, [("solving_for", s)]) /\
       (forall p v, In (p, v) env <-> gives sg args kw p v) /\
       (forall p, ms = [p] -> s = AName p) /\ (unknowns <> 1 -> s = ANames ms))).
Proof. exact @dispatch_ok. Qed.
Print Assumptions C38_dispatch_partial.
Theorem C38_runs_only_with_right_count : forall V (sg : sig V) ds args kw, regular sg ds -> forall solvable unknowns r,
  NoDup (map fst kw) -> incl (map fst kw) (s_args sg) -> wrapper solvable unknowns sg args kw = Ok r ->
  exists ms, NoDup ms /\ (forall p, In p ms <-> missing sg args kw p) /\ List.length ms = unknowns.
Proof. exact @runs_counted. Qed.
Print Assumptions C38_runs_only_with_right_count.
Theorem C38_keyword_order_refuted : exists args kw env, NoDup (map fst kw) /\ incl (map fst kw) (s_args (planar_heat_sig nat)) /\
  missing (planar_heat_sig nat) args kw "thickness" /\ ~ missing (planar_heat_sig nat) args kw "q" /\
  wrapper planar_heat_solvable 1 (planar_heat_sig nat) args kw = Ok (env, [("solving_for", AName "q")]).
Proof. exact order_lost. Qed.
Print Assumptions C38_keyword_order_refuted.
Theorem C38_solvable_call_refuted : exists args kw, NoDup (map fst kw) /\ incl (map fst kw) (s_args (planar_heat_sig nat)) /\
  (forall p, missing (planar_heat_sig nat) args kw p <-> p = "thickness") /\ In "thickness" planar_heat_solvable /\
  wrapper planar_heat_solvable 1 (planar_heat_sig nat) args kw = Raise ESolutionNotSupported.
Proof. exact order_refused. Qed.
Print Assumptions C38_solvable_call_refuted.
Theorem C38_no_default_refuted : exists (sg : sig nat) args kw, NoDup (s_args sg) /\ varkw sg = true /\ (forall p, missing sg args kw p <-> p = "x") /\
  wrapper ["x"] 1 sg args kw = Raise ETypeError.
Proof. exact no_default. Qed.
Print Assumptions C38_no_default_refuted.
(** The four decorated functions are regular. *)
Theorem C38_library_functions : forall V (f : V), regular (planar_heat_sig V) [ANone] /\ regular (planar_flux_sig V) [ANone] /\
  regular (arrhenius_sig V) [ANone] /\ regular (exchanger_sig f) [AVal f].
Proof. exact library_regular. Qed.
Print Assumptions C38_library_functions.
Example C38_case : in_order (planar_heat_sig nat) [ANone] [AVal 1; AVal 2; ANone; AVal 5] [("thickness", AVal 3); ("q", AVal 7)] /\
  exists env, wrapper planar_heat_solvable 1 (planar_heat_sig nat) [AVal 1; AVal 2; ANone; AVal 5] [("thickness", AVal 3); ("q", AVal 7)] =
    Ok (env, [("solving_for", AName "T2")]).
Proof. split; [exact positional_in_order|]. eexists. cbv. reflexivity. Qed.

(** Every call Python accepts, in any order of the keywords.  [taken sg ds args kw p]:
    None stands in the place of [p] when the values are counted off in the order
    in which they are written.  The decorator goes by that, while the body
    receives what Python binds. *)
Theorem C97_any_order : forall V (sg : sig V) ds args kw, regular sg ds -> accepted sg ds args kw -> forall solvable unknowns,
  ((exists p, taken sg ds args kw p /\ ~ In p solvable) -> wrapper solvable unknowns sg args kw = Raise ESolutionNotSupported) /\
  ((forall p, taken sg ds args kw p -> In p solvable) -> exists ms, NoDup ms /\ (forall p, In p ms <-> taken sg ds args kw p) /\
    ((unknowns < List.length ms)%nat -> wrapper solvable unknowns sg args kw = Raise EUnsolvableEquation) /\
    ((List.length ms < unknowns)%nat -> wrapper solvable unknowns sg args kw = Raise EOverSpecifiedProblem) /\
    (List.length ms = unknowns -> exists env s, wrapper solvable unknowns sg args kw = Ok (env, [("solving_for", s)]) /\
       (forall p v, In (p, v) env <-> gives sg args kw p v) /\
       (forall p, ms = [p] -> s = AName p) /\ (unknowns <> 1 -> s = ANames ms))).
Proof. exact @any_dispatch. Qed.
Print Assumptions C97_any_order.
(** As many parameters are counted as missing as there are. *)
Theorem C97_same_count : forall V (sg : sig V) ds args kw, regular sg ds -> accepted sg ds args kw -> forall ms,
  NoDup ms -> (forall p, In p ms <-> taken sg ds args kw p) ->
  exists ms', NoDup ms' /\ (forall p, In p ms' <-> missing sg args kw p) /\ List.length ms' = List.length ms.
Proof. exact @any_count. Qed.
Print Assumptions C97_same_count.
(** With one parameter missing, which can be solved for, the body is told to
    solve for it exactly if its place is the one where None stands. *)
Theorem C97_right_iff : forall V (sg : sig V) ds args kw, regular sg ds -> accepted sg ds args kw -> forall solvable p,
  (forall q, missing sg args kw q <-> q = p) -> In p solvable ->
  ((exists env, wrapper solvable 1 sg args kw = Ok (env, [("solving_for", AName p)])) <-> taken sg ds args kw p).
Proof. exact @any_right. Qed.
Print Assumptions C97_right_iff.
(** Keywords out of order, taken wrongly in the first call and rightly in the
    second. *)
Example C97_case : accepted (planar_heat_sig nat) [ANone] [AVal 1; AVal 2; AVal 3] [("q", AVal 7); ("A", AVal 5); ("thickness", ANone)] /\
  taken (planar_heat_sig nat) [ANone] [AVal 1; AVal 2; AVal 3] [("q", AVal 7); ("A", AVal 5); ("thickness", ANone)] "q" /\
  accepted (planar_heat_sig nat) [ANone] [AVal 1; AVal 2; AVal 3] [("q", AVal 7); ("thickness", ANone); ("A", AVal 5)] /\
  taken (planar_heat_sig nat) [ANone] [AVal 1; AVal 2; AVal 3] [("q", AVal 7); ("thickness", ANone); ("A", AVal 5)] "thickness".
Proof. exact any_case. Qed.
