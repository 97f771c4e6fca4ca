(** * Properties of equations with numbers before the formulas (C110) and blanks (C111)

    Formulas and reactions are those of BalanceSpec, numbers before them those of
    CoefSpec. *)
From Coq Require Import String Ascii List ZArith QArith.
From Verif Require Import Py Balance BalanceSpec CoefSpec CoefFacts BlankFacts.
Import ListNotations.
Local Open Scope string_scope.
Local Open Scope list_scope.

(** ** C110

    Full statement: numbers before the formulas are ignored.  They are: the same
    coefficients are found, or the same exception raised, whatever the solver
    answers and whatever the formulas. *)
Theorem C110_ignored : forall lstsq enum rs ps, rs <> [] -> ps <> [] -> Forall numbered rs -> Forall numbered ps ->
  (forall e, balance_equation lstsq enum (equation_text (map snd rs) (map snd ps)) = Raise e -> balance_equation lstsq enum (numbered_equation rs ps) = Raise e) /\
  (forall t, balance_equation lstsq enum (equation_text (map snd rs) (map snd ps)) = Ok t -> exists kr kp,
    t = printed kr (map formula_text (map snd rs)) kp (map formula_text (map snd ps)) /\
    balance_equation lstsq enum (numbered_equation rs ps) = Ok (printed kr (map numbered_text rs) kp (map numbered_text ps))).
Proof. exact numbers_ignored. Qed.
Print Assumptions C110_ignored.
(** With a solution that C44 finds, the coefficients printed are those of the
    reaction, and the numbers stay between them and the formulas. *)
Theorem C110_printed : forall lstsq enum nrs nps np kr kp kl,
  let rs := map snd nrs in let ps := map snd nps in let p := snd np in
  rs <> [] -> Forall molecule rs -> Forall molecule ps -> molecule p -> Forall coefficient_text (map fst (nrs ++ nps ++ [np])) -> set_order enum ->
  smallest_balance rs ps p kr kp kl -> accurate lstsq rs ps p (kr ++ kp) kl -> gcd_of (kr ++ kp) = 1%Z ->
  balance_equation lstsq enum (numbered_equation nrs (nps ++ [np])) =
  Ok (printed (map whole_text kr) (map numbered_text nrs) (map whole_text (kp ++ [kl])) (map numbered_text (nps ++ [np]))).
Proof. exact numbers_printed. Qed.
Print Assumptions C110_printed.
(** So the text is the one of the balanced equation only when there were no numbers. *)
Theorem C110_kept : forall lstsq enum nrs nps np kr kp kl,
  let rs := map snd nrs in let ps := map snd nps in let p := snd np in
  rs <> [] -> Forall molecule rs -> Forall molecule ps -> molecule p -> Forall coefficient_text (map fst (nrs ++ nps ++ [np])) -> set_order enum ->
  smallest_balance rs ps p kr kp kl -> accurate lstsq rs ps p (kr ++ kp) kl -> gcd_of (kr ++ kp) = 1%Z ->
  (exists x, In x (nrs ++ nps ++ [np]) /\ fst x <> "") ->
  balance_equation lstsq enum (numbered_equation nrs (nps ++ [np])) <> Ok (balanced_text kr rs (kp ++ [kl]) (ps ++ [p])).
Proof. exact numbers_kept. Qed.
Print Assumptions C110_kept.
(** The text printed can be balanced again: the same coefficients are found, and
    written before those that are there. *)
Theorem C110_again : forall lstsq enum rs ps p kr kp kl,
  rs <> [] -> Forall molecule rs -> Forall molecule ps -> molecule p -> set_order enum ->
  smallest_balance rs ps p kr kp kl -> accurate lstsq rs ps p (kr ++ kp) kl -> gcd_of (kr ++ kp) = 1%Z ->
  balance_equation lstsq enum (balanced_text kr rs (kp ++ [kl]) (ps ++ [p])) =
  Ok (printed (map whole_text kr) (map term_text (combine kr rs)) (map whole_text (kp ++ [kl])) (map term_text (combine (kp ++ [kl]) (ps ++ [p])))).
Proof. exact balanced_again. Qed.
Print Assumptions C110_again.
(** 2 H2 + O2 -> 2.0H2O, and the balanced text once more. *)
Example C110_case : let h2 := [Atom "H" "2"] in let o2 := [Atom "O" "2"] in let h2o := [Atom "H" "2"; Atom "O" ""] in
  let f := fun (_ : list (list Z)) (_ : list Z) => Ok [-1 # 1; -1 # 2]%Q in
  Forall molecule [h2; o2] /\ molecule h2o /\ Forall coefficient_text ["2 "; ""; "2.0"] /\ smallest_balance [h2; o2] [] h2o [2; 1]%Z [] 2%Z /\ accurate f [h2; o2] [] h2o [2; 1]%Z 2%Z /\
  numbered_equation [("2 ", h2); ("", o2)] [("2.0", h2o)] = "2 H2 + O2 -> 2.0H2O" /\
  balance_equation f (nodup string_dec) "2 H2 + O2 -> 2.0H2O" = Ok "2.0 2 H2 + 1.0 O2 -> 2.0 2.0H2O" /\
  balance_equation f (nodup string_dec) "2.0 H2 + 1.0 O2 -> 2.0 H2O" = Ok "2.0 2.0 H2 + 1.0 1.0 O2 -> 2.0 2.0 H2O".
Proof. exact water_case. Qed.

(** ** C111

    Full statement: blanks do not matter.  Those around the formulas do not, of any
    kind and number, for any formulas and solver. *)
Theorem C111_around_partial : forall lstsq enum rs ps, rs <> [] -> ps <> [] -> Forall spaced rs -> Forall spaced ps ->
  balance_equation lstsq enum (spaced_equation rs ps) = balance_equation lstsq enum (equation_text (map bare_formula rs) (map bare_formula ps)).
Proof. exact blanks_ignored. Qed.
Print Assumptions C111_around_partial.
(** Within a formula a blank cuts off the subscript. *)
Theorem C111_within_refuted : exists lstsq t t', t <> t' /\
  balance_equation lstsq (nodup string_dec) "H2 + O2 -> H2O" = Ok t /\ parse_molecule "H 2" <> parse_molecule "H2" /\ parse_molecule "H 2" = parse_molecule "H" /\
  balance_equation lstsq (nodup string_dec) "H 2 + O2 -> H2O" = Ok t'.
Proof.
  exists (fun a _ => match a with [c; _] => if existsb (Z.eqb 2) c then Ok [-1 # 1; -1 # 2]%Q else Ok [-2 # 1; -1 # 2]%Q | _ => Ok [] end), "2.0 H2 + 1.0 O2 -> 2.0 H2O", "4.0 H 2 + 1.0 O2 -> 2.0 H2O".
  split; [discriminate|]. split; [vm_compute; reflexivity|]. split; [vm_compute; discriminate|]. split; vm_compute; reflexivity.
Qed.
Print Assumptions C111_within_refuted.
Example C111_case : let h2 := [Atom "H" "2"] in let o2 := [Atom "O" "2"] in let h2o := [Atom "H" "2"; Atom "O" ""] in
  Forall spaced [("", h2, ""); (" ", o2, String "009" "")] /\ spaced ("  ", h2o, String "010" "") /\
  spaced_equation [("", h2, ""); ("", o2, "")] [("", h2o, "")] = "H2+O2->H2O" /\
  balance_equation (fun _ _ => Ok [-1 # 1; -1 # 2]%Q) (nodup string_dec) "H2+O2->H2O" = Ok "2.0 H2 + 1.0 O2 -> 2.0 H2O".
Proof. exact spaced_case. Qed.
