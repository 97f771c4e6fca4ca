(** * Properties of equality and hashes (C85) and of uncalled helpers (C86) *)
From Coq Require Import String Ascii List Bool Arith Sorted QArith Qcanon.
From Verif Require Import Py UnitsStruct Print Utility UtilitySpec UtilityFacts HashFacts.
Import ListNotations.
Local Open Scope string_scope.
Local Open Scope list_scope.

(** ** C85: [bu_seteq] is what sets of BaseUnits go by (set comparisons of
    MultiUnit.__eq__ and simplify_units); hash(self) is the hash of str(self), which
    is [base_repr].  Two BaseUnits are one element of a set exactly if they are
    equal and have the same text (of different texts the hashes differ, DESIGN.md). *)
Theorem C85_sets : forall a b s t, base_repr a = Ok s -> base_repr b = Ok t ->
  (bu_seteq a b = true <-> bu_eqb a b = true /\ s = t).
Proof. exact seteq_text. Qed.
Print Assumptions C85_sets.
Example C85_case : base_repr (BU "m" (eflt (Q2Qc (5 # 2)))) = Ok "m^2.5" /\ bu_seteq (BU "m" (eflt (Q2Qc (5 # 2)))) (BU "m" (eflt (Q2Qc (5 # 2)))) = true /\
  base_repr (BU "m" (eint 1)) = base_repr (BU "m" (eflt 1)) /\ bu_seteq (BU "m" (eint 1)) (BU "m" (eflt 1)) = true.
Proof. vm_compute. auto. Qed.
(** Objects that compare equal do not always have equal hashes: m^2 and m^2.0. *)
Theorem C85_refuted : exists a b s t, bu_eqb a b = true /\ base_repr a = Ok s /\ base_repr b = Ok t /\ s <> t.
Proof. exact hash_differs. Qed.
Print Assumptions C85_refuted.

(** ** C86: powerset *)
Theorem C86_members : forall A (l c : list A), In c (powerset l) <-> sub c l /\ c <> nil.
Proof. exact @powerset_in. Qed.
Print Assumptions C86_members.
Theorem C86_count : forall A (l : list A), (List.length (powerset l) + 1 = 2 ^ List.length l)%nat.
Proof. exact @powerset_count. Qed.
Print Assumptions C86_count.
Theorem C86_distinct : forall A (l : list A), NoDup l -> NoDup (powerset l).
Proof. exact @powerset_nodup. Qed.
Print Assumptions C86_distinct.
(** The order: by length, then by the positions taken. *)
Theorem C86_positions : forall A B (f : A -> B) l, powerset (map f l) = map (map f) (powerset l).
Proof. exact @powerset_map. Qed.
Print Assumptions C86_positions.
Theorem C86_order : forall n, StronglySorted listed_before (powerset (seq 0 n)).
Proof. exact powerset_order. Qed.
Print Assumptions C86_order.
Example C86_case : powerset ["m"; "s"; "kg"] = [["m"]; ["s"]; ["kg"]; ["m"; "s"]; ["m"; "kg"]; ["s"; "kg"]; ["m"; "s"; "kg"]].
Proof. reflexivity. Qed.

(** ** C86: the check of parentheses ends and accepts exactly the well-nested texts
    of nothing but parentheses; so it would refuse every equation (balance_equation
    does not call it). *)
Theorem C86_parentheses : forall s, exists b, check_valid_parentheses s = Ok b /\ (b = true <-> well_nested s).
Proof. exact check_ok. Qed.
Print Assumptions C86_parentheses.
Theorem C86_refuses : forall s c, has_char c s = true -> c <> "("%char -> c <> ")"%char -> check_valid_parentheses s = Ok false.
Proof. exact check_others. Qed.
Print Assumptions C86_refuses.
Example C86_parentheses_case : check_valid_parentheses "(()())()" = Ok true /\ check_valid_parentheses "())(" = Ok false /\
  check_valid_parentheses "Pb(NO3)2 + KI -> KNO3 + PbI2" = Ok false.
Proof. vm_compute. auto. Qed.
