(** * SolveSpec: which value a parameter receives in a call *)
From Coq Require Import String Ascii List Arith Bool.
From Verif Require Import Py Solve.
Import ListNotations.
Local Open Scope string_scope.
Local Open Scope list_scope.

(** Python's rule: by position, by keyword, or by default. *)
Inductive gives {V} (sg : sig V) (args : list (arg V)) (kw : list (string * arg V)) : string -> arg V -> Prop :=
| by_position i p v : nth_error (s_args sg) i = Some p -> nth_error args i = Some v -> gives sg args kw p v
| by_keyword i p v : nth_error (s_args sg) i = Some p -> (List.length args <= i)%nat -> In (p, v) kw -> gives sg args kw p v
| by_default i j ds p v : nth_error (s_args sg) i = Some p -> List.length args <= i -> ~ In p (map fst kw) ->
    s_defaults sg = Some ds -> i + List.length ds = List.length (s_args sg) + j -> nth_error ds j = Some v -> gives sg args kw p v.

(** A parameter is missing when it receives None. *)
Definition missing {V} (sg : sig V) args kw (p : string) : Prop := gives sg args kw p ANone.

(** Functions as the library decorates them: distinct parameter names other than
    solving_for, a **parameter, and at least one default; all defaults are the
    same value. *)
Record regular {V} (sg : sig V) (ds : list (arg V)) : Prop := {
  rg_names : NoDup (s_args sg);
  rg_solving : ~ In "solving_for" (s_args sg);
  rg_kw : varkw sg = true;
  rg_defaults : s_defaults sg = Some ds;
  rg_length : List.length ds <= List.length (s_args sg);
  rg_same : forall x y, In x ds -> In y ds -> x = y
}.
(** Calls Python accepts whose keyword arguments, if any, follow the positional
    ones in the order of the parameters. *)
Record in_order {V} (sg : sig V) (ds args : list (arg V)) (kw : list (string * arg V)) : Prop := {
  io_names : map fst kw = firstn (List.length kw) (skipn (List.length args) (s_args sg));
  io_most : List.length args + List.length kw <= List.length (s_args sg);
  io_least : List.length (s_args sg) <= List.length args + List.length kw + List.length ds
}.

(** Calls Python accepts, whatever the order of the keywords: every parameter is
    given at most once, and those not given have a default. *)
Record accepted {V} (sg : sig V) (ds args : list (arg V)) (kw : list (string * arg V)) : Prop := {
  ac_most : List.length args <= List.length (s_args sg);
  ac_once : NoDup (map fst kw);
  ac_names : incl (map fst kw) (skipn (List.length args) (s_args sg));
  ac_rest : forall i p, nth_error (s_args sg) i = Some p -> List.length args <= i -> ~ In p (map fst kw) ->
    List.length (s_args sg) <= i + List.length ds
}.
(** The parameter in whose place None stands when the values are counted off in
    the order in which they are written, with the defaults after them. *)
Definition taken {V} (sg : sig V) (ds args : list (arg V)) (kw : list (string * arg V)) (p : string) : Prop :=
  exists i, nth_error (s_args sg) i = Some p /\ nth_error (args ++ map snd kw ++ ds) i = Some ANone.
