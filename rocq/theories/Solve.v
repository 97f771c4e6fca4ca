(** * Solve: the decorator solvable_for

    cheme_calculations/utility/equation_solving.py:16-69. *)
From Coq Require Import String Ascii List Arith Bool.
From Verif Require Import Py.
Import ListNotations.
Local Open Scope string_scope.
Local Open Scope list_scope.

Section Solve.
Context {V : Type}.

(** An argument: None, another Python object, or the value the wrapper itself
    passes for solving_for (a name when one unknown is asked for, a list of names
    otherwise). *)
Inductive arg := ANone | AVal (v : V) | AName (s : string) | ANames (l : list string).
(** [v == None] is taken to hold of None only; this is so for numbers and for the
    classes of units.py, whose __eq__ first compares classes.  Objects with another
    __eq__, such as numpy arrays, are not modelled. *)
Definition is_none (a : arg) : bool := match a with ANone => true | _ => false end.

(** What getfullargspec reports: the parameter names, and the defaults of the last
    parameters (None when there are none); [varkw]: the function has a
    **parameter.  Keyword-only parameters and *parameters, which no decorated
    function has, are not modelled. *)
Record sig := Sig { s_args : list string; s_defaults : option (list arg); varkw : bool }.

(** ** How Python binds the arguments of a call

    Positional arguments fill the parameters from the left, keyword arguments the
    parameters of their names, defaults the rest; excess, doubly given, unknown
    and missing arguments raise TypeError. *)
Definition default_of (sg : sig) (p : string) : option arg :=
  match s_defaults sg with
  | None => None
  | Some ds => dict_get (combine (skipn (List.length (s_args sg) - List.length ds) (s_args sg)) ds) p
  end.
Definition bind_rest (sg : sig) (kw : list (string * arg)) (p : string) : res (string * arg) :=
  match dict_get kw p with
  | Some v => Ok (p, v)
  | None => match default_of sg p with Some v => Ok (p, v) | None => Raise ETypeError end
  end.
(** The parameters and the content of the **parameter. *)
Definition bind_call (sg : sig) (args : list arg) (kw : list (string * arg)) : res (list (string * arg) * list (string * arg)) :=
  let n := List.length args in
  if Nat.ltb (List.length (s_args sg)) n then Raise ETypeError
  else if existsb (fun k => mem_str (fst k) (firstn n (s_args sg))) kw then Raise ETypeError
  else
    let extra := filter (fun k => negb (mem_str (fst k) (s_args sg))) kw in
    if negb (varkw sg) && negb (match extra with nil => true | _ => false end) then Raise ETypeError
    else
      let* r := mapM (bind_rest sg kw) (skipn n (s_args sg)) in
      Ok (combine (firstn n (s_args sg)) args ++ r, extra).

(** ** The wrapper, lines 28-64 *)
Definition count_none (l : list (string * arg)) : nat := List.length (filter (fun x => is_none (snd x)) l).
(** Lines 51-61: the last parameter, overwritten by every parameter that is None
    (one unknown), or the list of all of them. *)
Definition solving_for (unknowns : nat) (names : list string) (d : list (string * arg)) : res arg :=
  if Nat.eqb unknowns 1 then
    match rev names with
    | nil => Raise EIndexError
    | n :: _ => Ok (AName (fold_left (fun cur x => if is_none (snd x) then fst x else cur) d n))
    end
  else Ok (ANames (map fst (filter (fun x => is_none (snd x)) d))).

(** The environment in which the body of the decorated function runs. *)
Definition wrapper (solvable : list string) (unknowns : nat) (sg : sig) (args : list arg) (kw : list (string * arg))
  : res (list (string * arg) * list (string * arg)) :=
  match s_defaults sg with
  | None => Raise ETypeError                       (* tuple + None, line 32 *)
  | Some ds =>
      let full := args ++ map snd kw ++ ds in      (* line 32 *)
      let d := combine (s_args sg) full in         (* line 34 *)
      if existsb (fun x => negb (mem_str (fst x) solvable) && is_none (snd x)) d then Raise ESolutionNotSupported
      else if Nat.ltb unknowns (count_none d) then Raise EUnsolvableEquation
      else if Nat.ltb (count_none d) unknowns then Raise EOverSpecifiedProblem
      else
        let* s := solving_for unknowns (s_args sg) d in
        if mem_str "solving_for" (map fst kw) then Raise ETypeError   (* given twice, line 64 *)
        else bind_call sg args (kw ++ [("solving_for", s)])
  end.

(** The decorated function. *)
Definition decorated {A} (solvable : list string) (unknowns : nat) (sg : sig)
  (body : list (string * arg) -> list (string * arg) -> res A) (args : list arg) (kw : list (string * arg)) : res A :=
  let* e := wrapper solvable unknowns sg args kw in body (fst e) (snd e).

End Solve.
Arguments arg V : clear implicits.
Arguments sig V : clear implicits.

(** The signatures of the decorated functions: planar_heat and planar_flux
    (heat_transfer/steady_state_conduction.py:11, 74), arrhenius
    (reactions/reaction_parameters.py:79), solve_heat_exchanger_system
    (heat_transfer/heat_exchangers.py:77); the default of cocurrent is False. *)
Definition planar_heat_sig V : sig V := Sig ["k"; "T1"; "T2"; "A"; "thickness"; "q"] (Some [ANone]) true.
Definition planar_flux_sig V : sig V := Sig ["k"; "T1"; "T2"; "thickness"; "qA"] (Some [ANone]) true.
Definition arrhenius_sig V : sig V := Sig ["order"; "A"; "Ea"; "R"; "T"; "k"] (Some [ANone]) true.
Definition exchanger_sig {V} (false_ : V) : sig V :=
  Sig ["m1"; "cp1"; "m2"; "cp2"; "T0A"; "T1A"; "T0B"; "T1B"; "area"; "U"; "cocurrent"] (Some [AVal false_]) true.

(** The parameters they can be solved for. *)
Definition planar_heat_solvable : list string := ["q"; "T1"; "T2"; "thickness"].
Definition planar_flux_solvable : list string := ["qA"; "T1"; "T2"; "thickness"].
Definition arrhenius_solvable : list string := ["A"; "Ea"; "T"; "k"].
Definition exchanger_solvable : list string := ["m1"; "m2"; "cp1"; "cp2"; "T0A"; "T1A"; "T0B"; "T1B"; "area"; "U"].
