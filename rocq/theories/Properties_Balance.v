(** * Properties of the balancing of chemical equations (C43, C44, C62, C63)

    Formulas, their texts and atoms, reactions and the accuracy of the linear
    solver are those of BalanceSpec. *)
From Coq Require Import String Ascii List ZArith QArith Qcanon Qabs Bool Lia.
From Verif Require Import Py Balance BalanceSpec BalanceFacts NestedFacts FracFacts FracTies ReactionFacts EmptyFacts.
Import ListNotations.
Local Open Scope string_scope.
Local Open Scope list_scope.

(** ** C43

    Full statement: for every formula, with any number of groups, nested or not,
    and any subscripts.  Proved for one group with a subscript of one digit. *)
Theorem C43_counts_partial : forall f, one_group f -> exists d, parse_molecule (formula_text f) = Ok d /\ dictionary_of f d.
Proof. exact molecule_dictionary. Qed.
Print Assumptions C43_counts_partial.
(** A longer subscript: its first digit is taken and the count is too small. *)
Theorem C43_long_subscript_refuted : forall x g c b n y, Forall plain_atom x -> Forall plain_atom g -> g <> [] -> Forall plain_atom y -> digit c -> c <> "0"%char -> digit b -> all_digits n ->
  Forall (fun i => match i with Atom _ m => (0 < subscript_value m)%Z | _ => False end) g ->
  exists d e k, parse_molecule (formula_text (x ++ [Group g (String c (String b n))] ++ y)) = Ok d /\ In (e, k) d /\ (k < atoms (x ++ [Group g (String c (String b n))] ++ y) e)%Z.
Proof. exact long_subscript_wrong. Qed.
Print Assumptions C43_long_subscript_refuted.
(** A group without a subscript is refused. *)
Theorem C43_bare_group_refuted : forall x g y, Forall plain_atom x -> Forall plain_atom g -> g <> [] -> Forall plain_atom y ->
  parse_molecule (formula_text (x ++ [Group g ""] ++ y)) = Raise (match y with [] => EIndexError | _ => EValueError end).
Proof. exact bare_group. Qed.
Print Assumptions C43_bare_group_refuted.
(** A group with nothing in it is no group, with or without a subscript. *)
Theorem C43_empty_group : forall x n y, Forall plain_atom x -> Forall plain_atom y -> all_digits n ->
  exists d, parse_molecule (formula_text (x ++ [Group [] n] ++ y)) = Ok d /\ dictionary_of (x ++ [Group [] n] ++ y) d.
Proof. exact empty_group. Qed.
Print Assumptions C43_empty_group.
Example C43_empty_case : formula_text [Atom "Na" ""; Group [] ""; Atom "Cl" "2"] = "Na()Cl2" /\ parse_molecule "Na()Cl2" = Ok [("Na", 1%Z); ("Cl", 2%Z)].
Proof. split; vm_compute; reflexivity. Qed.
(** Two groups, and a group within a group. *)
Theorem C43_two_groups_refuted : exists f d, formula_text f = "Ca(OH)2(H2O)3" /\ parse_molecule (formula_text f) = Ok d /\ ~ dictionary_of f d.
Proof.
  exists [Atom "Ca" ""; Group [Atom "O" ""; Atom "H" ""] "2"; Group [Atom "H" "2"; Atom "O" ""] "3"], [("O", 4%Z); ("H", 6%Z); ("Ca", 1%Z)].
  split; [reflexivity|]. split; [vm_compute; reflexivity|]. intros [_ h]. specialize (h "O" 4%Z). assert (k : In ("O", 4%Z) [("O", 4%Z); ("H", 6%Z); ("Ca", 1%Z)]) by (left; reflexivity).
  apply h in k. destruct k as [_ k]. vm_compute in k. discriminate.
Qed.
Print Assumptions C43_two_groups_refuted.
Theorem C43_nested_refuted : exists f d, formula_text f = "K(Fe(CN)6)2" /\ parse_molecule (formula_text f) = Ok d /\ ~ dictionary_of f d.
Proof.
  exists [Atom "K" ""; Group [Atom "Fe" ""; Group [Atom "C" ""; Atom "N" ""] "6"] "2"], [("Fe", 6%Z); ("C", 6%Z); ("N", 6%Z); ("K", 1%Z)].
  split; [reflexivity|]. split; [vm_compute; reflexivity|]. intros [_ h]. specialize (h "Fe" 6%Z). assert (k : In ("Fe", 6%Z) [("Fe", 6%Z); ("C", 6%Z); ("N", 6%Z); ("K", 1%Z)]) by (left; reflexivity).
  apply h in k. destruct k as [_ k]. vm_compute in k. discriminate.
Qed.
Print Assumptions C43_nested_refuted.
Example C43_case : one_group [Group [Atom "N" ""; Atom "H" "4"] "3"; Atom "P" ""; Atom "O" "4"; Atom "Mo" "12"; Atom "O" "36"] /\
  parse_molecule "(NH4)3PO4Mo12O36" = Ok [("N", 3%Z); ("H", 12%Z); ("P", 1%Z); ("O", 40%Z); ("Mo", 12%Z)].
Proof.
  split; [|vm_compute; reflexivity]. right. exists [], [Atom "N" ""; Atom "H" "4"], "3", [Atom "P" ""; Atom "O" "4"; Atom "Mo" "12"; Atom "O" "36"].
  split; [reflexivity|]. split; [constructor|]. split; [atoms_tac|]. split; [discriminate|]. split; [atoms_tac|].
  exists "3"%char. unfold digit. cbn. split; [lia|reflexivity].
Qed.
(** What is counted for every formula, with any number of groups, nested or not, and any
    subscripts: the first digit [c] of the subscript of the group that is closed first
    multiplies all that is written from the first group to the last, other subscripts of
    groups are ignored, and all is counted once more when the last group has no subscript. *)
Theorem C43_any_groups : forall f x m y n, Forall well f -> spans f x m y n ->
  match first_subscript m with
  | Some (String c _) => digit c /\ exists d, parse_molecule (formula_text f) = Ok d /\ NoDup (map fst d) /\
      (forall e, In e (map fst d) <-> In e (formula_symbols f)) /\
      (forall e k, In (e, k) d -> k = (Z.of_nat (nat_of_ascii c) - 48) * written m e + (if String.eqb n "" then written f e else atoms x e + atoms y e))%Z
  | _ => parse_molecule (formula_text f) = Raise EIndexError \/ parse_molecule (formula_text f) = Raise EValueError
  end.
Proof. exact any_groups. Qed.
Print Assumptions C43_any_groups.
(** Exactly when the dictionary is the right one. *)
Theorem C43_right_exact : forall f x m y n c k d, Forall well f -> spans f x m y n -> first_subscript m = Some (String c k) -> parse_molecule (formula_text f) = Ok d ->
  dictionary_of f d <-> (forall e, In e (formula_symbols f) -> atoms m e = (Z.of_nat (nat_of_ascii c) - 48 + (if String.eqb n "" then 1 else 0)) * written m e)%Z.
Proof. exact any_groups_right. Qed.
Print Assumptions C43_right_exact.
(** No formula is left out. *)
Theorem C43_every_formula : forall f, Forall well f -> Forall plain_atom f \/ exists x m y n, spans f x m y n.
Proof. exact span_exists. Qed.
Print Assumptions C43_every_formula.
(** A hydrate, a complex, and two groups that come out right. *)
Example C43_any_groups_case :
  let hydrate := [Atom "Ca" ""; Group [Atom "O" ""; Atom "H" ""] "2"; Group [Atom "H" "2"; Atom "O" ""] "3"] in
  let complex := [Atom "K" "4"; Group [Atom "Fe" ""; Group [Atom "C" ""; Atom "N" ""] "6"; Atom "S" ""] "12"; Atom "Cl" ""] in
  Forall well hydrate /\ spans hydrate [Atom "Ca" ""] (tl hydrate) [] "3" /\ first_subscript (tl hydrate) = Some "2" /\ written (tl hydrate) "H" = 3%Z /\
  parse_molecule (formula_text hydrate) = Ok [("O", 4%Z); ("H", 6%Z); ("Ca", 1%Z)] /\
  Forall well complex /\ spans complex [Atom "K" "4"] [Group [Atom "Fe" ""; Group [Atom "C" ""; Atom "N" ""] "6"; Atom "S" ""] "12"] [Atom "Cl" ""] "12" /\
  formula_text complex = "K4(Fe(CN)6S)12Cl" /\ parse_molecule (formula_text complex) = Ok [("Fe", 6%Z); ("C", 6%Z); ("N", 6%Z); ("S", 6%Z); ("K", 4%Z); ("Cl", 1%Z)].
Proof.
  cbn zeta. split; [well_tac|]. split; [|split; [reflexivity|split; [reflexivity|split; [vm_compute; reflexivity|]]]].
  - split; [reflexivity|]. split; [well_tac|]. split; [constructor|]. split; [do 3 eexists; reflexivity|]. exists [Group [Atom "O" ""; Atom "H" ""] "2"], [Atom "H" "2"; Atom "O" ""]. reflexivity.
  - split; [well_tac|]. split; [|split; vm_compute; reflexivity]. split; [reflexivity|]. split; [well_tac|]. split; [well_tac|]. split; [do 3 eexists; reflexivity|].
    exists [], [Atom "Fe" ""; Group [Atom "C" ""; Atom "N" ""] "6"; Atom "S" ""]. reflexivity.
Qed.
Example C43_right_case :
  let f := [Group [Atom "N" ""; Atom "H" "4"] "2"; Group [Atom "Fe" ""; Atom "O" "4"] "2"; Atom "Cl" ""] in
  parse_molecule (formula_text f) = Ok [("N", 2%Z); ("H", 8%Z); ("Fe", 2%Z); ("O", 8%Z); ("Cl", 1%Z)] /\ dictionary_of f [("N", 2%Z); ("H", 8%Z); ("Fe", 2%Z); ("O", 8%Z); ("Cl", 1%Z)].
Proof.
  cbn zeta. split; [vm_compute; reflexivity|].
  eapply (C43_right_exact _ [] [Group [Atom "N" ""; Atom "H" "4"] "2"; Group [Atom "Fe" ""; Atom "O" "4"] "2"] [Atom "Cl" ""] "2"); [well_tac| |reflexivity|vm_compute; reflexivity|].
  - split; [reflexivity|]. split; [constructor|]. split; [well_tac|]. split; [do 3 eexists; reflexivity|]. exists [Group [Atom "N" ""; Atom "H" "4"] "2"], [Atom "Fe" ""; Atom "O" "4"]. reflexivity.
  - intros e he. cbn in he. repeat (destruct he as [<-|he]; [vm_compute; reflexivity|]). destruct he.
Qed.
Example C43_long_case : parse_molecule "Pb(NO3)12" = Ok [("N", 1%Z); ("O", 3%Z); ("Pb", 1%Z)].
Proof. vm_compute. reflexivity. Qed.

(** ** C44

    Full statement: whenever the linear system is solved accurately the printed
    coefficients conserve atoms.  It holds when the coefficients before the last
    have no common factor, and only then. *)
Theorem C44_conserved_partial : forall lstsq enum rs ps p kr kp kl,
  rs <> [] -> Forall molecule rs -> Forall molecule ps -> molecule p -> set_order enum ->
  smallest_balance rs ps p kr kp kl -> accurate lstsq rs ps p (kr ++ kp) kl -> gcd_of (kr ++ kp) = 1%Z ->
  balance_equation lstsq enum (equation_text rs (ps ++ [p])) = Ok (balanced_text kr rs (kp ++ [kl]) (ps ++ [p])).
Proof. exact balance_right. Qed.
Print Assumptions C44_conserved_partial.
Theorem C44_printed : forall lstsq enum rs ps p kr kp kl,
  rs <> [] -> Forall molecule rs -> Forall molecule ps -> molecule p -> set_order enum ->
  smallest_balance rs ps p kr kp kl -> accurate lstsq rs ps p (kr ++ kp) kl ->
  exists kr' kp', balance_equation lstsq enum (equation_text rs (ps ++ [p])) = Ok (balanced_text kr' rs kp' (ps ++ [p])) /\
    (balanced kr' rs kp' (ps ++ [p]) <-> gcd_of (kr ++ kp) = 1%Z).
Proof. exact balance_right_iff. Qed.
Print Assumptions C44_printed.
Theorem C44_conserved_refuted : exists lstsq rs ps p kr kp kl,
  rs <> [] /\ Forall molecule rs /\ Forall molecule ps /\ molecule p /\ smallest_balance rs ps p kr kp kl /\ accurate lstsq rs ps p (kr ++ kp) kl /\
  forall enum, set_order enum -> balance_equation lstsq enum (equation_text rs (ps ++ [p])) = Ok "1.0 NO2 -> 0.0 N2O4".
Proof. exact dimer_refuted. Qed.
Print Assumptions C44_conserved_refuted.
(** KI + Pb(NO3)2 -> KNO3 + PbI2, with a solver that is off by 1e-10. *)
Example C44_case : exists lstsq rs ps p kr kp kl,
  rs <> [] /\ Forall molecule rs /\ Forall molecule ps /\ molecule p /\ smallest_balance rs ps p kr kp kl /\ accurate lstsq rs ps p (kr ++ kp) kl /\ gcd_of (kr ++ kp) = 1%Z /\
  equation_text rs (ps ++ [p]) = "KI + Pb(NO3)2 -> KNO3 + PbI2" /\
  balance_equation lstsq (nodup string_dec) (equation_text rs (ps ++ [p])) = Ok "2.0 KI + 1.0 Pb(NO3)2 -> 2.0 KNO3 + 1.0 PbI2".
Proof. exact iodide_case. Qed.
(** Al + O2 -> Al2O3. *)
Example C44_aluminium : balance_equation (fun _ _ => Ok [-2 # 1; -3 # 2]%Q) (nodup string_dec) "Al + O2 -> Al2O3" = Ok "4.0 Al + 3.0 O2 -> 2.0 Al2O3".
Proof. vm_compute. reflexivity. Qed.

(** ** C62

    Full statement: equations whose parentheses do not match raise
    InvalidParentheses and those whose sides have different elements raise
    ImproperChemicalEquation.  The second kind is refused, with a TypeError; the
    first kind is not. *)
Theorem C62_elements_partial : forall lstsq enum rs ps, rs <> [] -> ps <> [] -> Forall molecule rs -> Forall molecule ps -> set_order enum ->
  (exists e, ~ ((exists f, In f rs /\ (0 < atoms f e)%Z) <-> (exists f, In f ps /\ (0 < atoms f e)%Z))) ->
  balance_equation lstsq enum (equation_text rs ps) = Raise ETypeError.
Proof. exact different_elements. Qed.
Print Assumptions C62_elements_partial.
Theorem C62_parentheses_refuted : exists equation text, occurrences "("%char equation <> occurrences ")"%char equation /\
  balance_equation (fun _ _ => Ok [-2 # 1; -3 # 2]%Q) (nodup string_dec) equation = Ok text.
Proof. exists "Al + O2 -> (Al2O3", "4.0 Al + 3.0 O2 -> 2.0 (Al2O3". split; [cbn; discriminate|vm_compute; reflexivity]. Qed.
Print Assumptions C62_parentheses_refuted.
Theorem C62_no_arrow : forall lstsq enum equation, has_char "-" equation = false -> balance_equation lstsq enum equation = Raise EValueError.
Proof. exact no_arrow. Qed.
Print Assumptions C62_no_arrow.
Example C62_case : balance_equation (fun _ _ => Ok []) (nodup string_dec) "H2 + O2 -> CO2" = Raise ETypeError /\
  balance_equation (fun _ _ => Ok []) (nodup string_dec) "H2 + O2" = Raise EValueError.
Proof. split; vm_compute; reflexivity. Qed.

(** ** C63 *)
Theorem C63_closest : forall x, (Zpos (Qden (limit_denominator x)) <= 1000000)%Z /\ Qred (limit_denominator x) = limit_denominator x /\
  forall w, (Zpos (Qden w) <= 1000000)%Z -> (Qabs (limit_denominator x - x) <= Qabs (w - x))%Q.
Proof. exact closest_fraction. Qed.
Print Assumptions C63_closest.
Theorem C63_recovered : forall x u v, (0 < v <= 1000)%Z -> (Qabs (x - (u # Z.to_pos v)) < 1 # 2000000000)%Q -> limit_denominator x = Qred (u # Z.to_pos v).
Proof. exact limit_finds. Qed.
Print Assumptions C63_recovered.
(** Of two fractions equally close the one with the smaller denominator. *)
Theorem C63_tie : forall x w, (Zpos (Qden w) <= 1000000)%Z -> (Qabs (w - x) == Qabs (limit_denominator x - x))%Q ->
  (w == limit_denominator x)%Q \/ (Zpos (Qden (limit_denominator x)) < Zpos (Qden w))%Z.
Proof. exact limit_tie. Qed.
Print Assumptions C63_tie.
Example C63_tie_case : limit_denominator (1 # 2000000) = 0%Q /\ (Qabs ((1 # 1000000) - (1 # 2000000)) == Qabs (0 - (1 # 2000000)))%Q.
Proof. split; vm_compute; reflexivity. Qed.
Example C63_case : limit_denominator (6004799503160661 # 18014398509481984) = (1 # 3)%Q /\ limit_denominator (314159265358979 # 100000000000000) = (3126535 # 995207)%Q.
Proof. split; vm_compute; reflexivity. Qed.
