(** * BalanceSpec: chemical formulas, reactions and their atoms *)
From Coq Require Import String Ascii List ZArith QArith Qabs Bool.
From Verif Require Import Py.
Import ListNotations.
Local Open Scope string_scope.
Local Open Scope list_scope.

(** A formula is a list of element symbols with subscripts and of groups in
    parentheses with subscripts.  Subscripts are texts of digits; an empty
    subscript means one. *)
Inductive item :=
| Atom (symbol subscript : string)
| Group (inside : list item) (subscript : string).
Notation formula := (list item).

(** The number a text of digits denotes. *)
Fixpoint digits_value (acc : Z) (s : string) : Z :=
  match s with
  | EmptyString => acc
  | String c s => digits_value (acc * 10 + (Z.of_nat (nat_of_ascii c) - 48)) s
  end.
Definition subscript_value (s : string) : Z := match s with EmptyString => 1 | _ => digits_value 0 s end.

Definition concat_with {A} (f : A -> string) (l : list A) : string := fold_right (fun x s => f x +++ s) "" l.
Fixpoint item_text (i : item) : string :=
  match i with
  | Atom s n => s +++ n
  | Group g n => "(" +++ concat_with item_text g +++ ")" +++ n
  end.
Definition formula_text (f : formula) : string := concat_with item_text f.

(** Atoms of the element [e]. *)
Definition total {A} (f : A -> Z) (l : list A) : Z := fold_right (fun x z => (f x + z)%Z) 0%Z l.
Fixpoint item_atoms (e : string) (i : item) : Z :=
  match i with
  | Atom s n => if String.eqb s e then subscript_value n else 0
  | Group g n => (total (item_atoms e) g * subscript_value n)%Z
  end.
Definition atoms (f : formula) (e : string) : Z := total (item_atoms e) f.

(** Element symbols written. *)
Fixpoint item_symbols (i : item) : list string := match i with Atom s _ => [s] | Group g _ => flat_map item_symbols g end.
Definition formula_symbols (f : formula) : list string := flat_map item_symbols f.
(** [d] holds every element written, once, with its number of atoms. *)
Definition dictionary_of (f : formula) (d : list (string * Z)) : Prop :=
  NoDup (map fst d) /\ forall e n, In (e, n) d <-> In e (formula_symbols f) /\ n = atoms f e.

(** One capital letter, or a capital and a small letter. *)
Definition capital (c : ascii) : Prop := (65 <= nat_of_ascii c <= 90)%nat.
Definition small (c : ascii) : Prop := (97 <= nat_of_ascii c <= 122)%nat.
Definition digit (c : ascii) : Prop := (48 <= nat_of_ascii c <= 57)%nat.
Definition symbol (s : string) : Prop :=
  (exists c, capital c /\ s = String c "") \/ (exists c d, capital c /\ small d /\ s = String c (String d "")).
Fixpoint all_digits (s : string) : Prop := match s with EmptyString => True | String c s => digit c /\ all_digits s end.
Definition plain_atom (i : item) : Prop := match i with Atom s n => symbol s /\ all_digits n | Group _ _ => False end.
(** Formulas with at most one group, not nested, whose subscript is one digit. *)
Definition one_group (f : formula) : Prop :=
  Forall plain_atom f \/
  exists x g n y, f = x ++ [Group g n] ++ y /\ Forall plain_atom x /\ Forall plain_atom g /\ g <> [] /\ Forall plain_atom y /\
    exists c, digit c /\ n = String c "".

(** Any formula: symbols, subscripts of digits, groups that are not empty. *)
Fixpoint well (i : item) : Prop :=
  match i with
  | Atom s n => symbol s /\ all_digits n
  | Group g n => g <> [] /\ all_digits n /\ fold_right (fun j P => well j /\ P) True g
  end.
(** Atoms written, subscripts of groups aside. *)
Fixpoint item_written (e : string) (i : item) : Z :=
  match i with Atom s n => if String.eqb s e then subscript_value n else 0 | Group g _ => total (item_written e) g end.
Definition written (f : formula) (e : string) : Z := total (item_written e) f.
(** Subscript of the group that is closed first. *)
Definition first_some {A B} (f : A -> option B) (l : list A) : option B :=
  fold_right (fun x r => match f x with Some y => Some y | None => r end) None l.
Fixpoint item_subscript (i : item) : option string :=
  match i with Atom _ _ => None | Group g n => match first_some item_subscript g with Some m => Some m | None => Some n end end.
Definition first_subscript (f : formula) : option string := first_some item_subscript f.
(** [x], then [m] from the first group to the last, whose subscript is [n], then [y]. *)
Definition spans (f x m y : formula) (n : string) : Prop :=
  f = x ++ m ++ y /\ Forall plain_atom x /\ Forall plain_atom y /\ (exists g k m', m = Group g k :: m') /\ (exists m' g, m = m' ++ [Group g n]).

(** ** Reactions: reactants [rs], products [ps] and a last product [p] *)
Definition positive_item (i : item) : Prop :=
  match i with Atom _ n => (0 < subscript_value n)%Z | Group g n => (0 < subscript_value n)%Z /\ Forall (fun j => match j with Atom _ m => (0 < subscript_value m)%Z | Group _ _ => False end) g end.
Definition equation_text (rs ps : list formula) : string := join " + " (map formula_text rs) +++ " -> " +++ join " + " (map formula_text ps).
(** Atoms of [e] in [k1] of the first molecule, [k2] of the second, ... *)
Definition side_atoms (ks : list Z) (fs : list formula) (e : string) : Z := total (fun x => (fst x * atoms (snd x) e)%Z) (combine ks fs).
Definition balanced (kr : list Z) (rs : list formula) (kp : list Z) (ps : list formula) : Prop :=
  forall e, side_atoms kr rs e = side_atoms kp ps e.
(** [es] lists the elements of the reaction, in any order. *)
Definition lists_elements (es : list string) (fs : list formula) : Prop :=
  forall e, In e es <-> exists f, In f fs /\ (0 < atoms f e)%Z.
Definition vector (sign : Z) (es : list string) (f : formula) : list Z := map (fun e => (sign * atoms f e)%Z) es.
(** The linear solver answers the system of the reaction to within 5e-10 of the
    solution k / kl (with the sign it has in the system). *)
Definition close (k kl : Z) (x : Q) : Prop := (Qabs (x + (k # Z.to_pos kl)) < 1 # 2000000000)%Q.
Definition accurate (f : list (list Z) -> list Z -> res (list Q)) (rs ps : list formula) (p : formula) (ks : list Z) (kl : Z) : Prop :=
  forall es, NoDup es -> lists_elements es (rs ++ ps ++ [p]) ->
    exists x, f (map (vector 1 es) rs ++ map (vector (-1) es) ps) (vector (-1) es p) = Ok x /\ Forall2 (fun k x => close k kl x) ks x.
(** What is printed for coefficients [ks]. *)
Definition term_text (x : Z * formula) : string := show_Z (fst x) +++ ".0 " +++ formula_text (snd x).
Definition balanced_text (kr : list Z) (rs : list formula) (kp : list Z) (ps : list formula) : string :=
  join " + " (map term_text (combine kr rs)) +++ " -> " +++ join " + " (map term_text (combine kp ps)).
(** Greatest common divisor. *)
Definition gcd_of (l : list Z) : Z := fold_right Z.gcd 0%Z l.
(** An enumeration of a set. *)
Definition set_order (enum : list string -> list string) : Prop := forall l, NoDup (enum l) /\ forall e, In e (enum l) <-> In e l.
(** Molecules, and the smallest whole numbers that balance a reaction. *)
Definition molecule (f : formula) : Prop := f <> [] /\ one_group f /\ Forall positive_item f.
Definition smallest_balance (rs ps : list formula) (p : formula) (kr kp : list Z) (kl : Z) : Prop :=
  length kr = length rs /\ length kp = length ps /\ Forall (fun k => (0 < k <= 1000)%Z) (kr ++ kp ++ [kl]) /\
  gcd_of (kr ++ kp ++ [kl]) = 1%Z /\ balanced kr rs (kp ++ [kl]) (ps ++ [p]).
(** Opening and closing parentheses match in number. *)
Fixpoint occurrences (c : ascii) (s : string) : nat :=
  match s with EmptyString => 0 | String a s => (if Ascii.eqb a c then 1 else 0) + occurrences c s end.
(** A solver that solves its system exactly. *)
Definition row (cols : list (list Z)) (i : nat) : list Z := map (fun c => nth i c 0%Z) cols.
Definition dot (x : list Q) (r : list Z) : Q := fold_right Qplus 0%Q (map (fun y => (fst y * inject_Z (snd y))%Q) (combine x r)).
Definition solves (cols : list (list Z)) (b : list Z) (x : list Q) : Prop :=
  length x = length cols /\ forall i, (i < length b)%nat -> (dot x (row cols i) == inject_Z (nth i b 0%Z))%Q.
