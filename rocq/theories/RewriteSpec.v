(** * RewriteSpec: a reaction written with its molecules in another order *)
From Coq Require Import String List ZArith Permutation.
From Verif Require Import BalanceSpec.
Import ListNotations.

(** The same molecules with the same coefficients, in any order. *)
Definition same_side (ks : list Z) (fs : list formula) (ks' : list Z) (fs' : list formula) : Prop :=
  length ks' = length fs' /\ Permutation (combine ks fs) (combine ks' fs').
(** [rs -> ps, p] with coefficients, each side in another order. *)
Definition rewritten (rs ps : list formula) (p : formula) (kr kp : list Z) (kl : Z)
    (rs' ps' : list formula) (p' : formula) (kr' kp' : list Z) (kl' : Z) : Prop :=
  same_side kr rs kr' rs' /\ same_side (kp ++ [kl]) (ps ++ [p]) (kp' ++ [kl']) (ps' ++ [p']).
(** The same with the two sides exchanged. *)
Definition turned (rs ps : list formula) (p : formula) (kr kp : list Z) (kl : Z)
    (rs' ps' : list formula) (p' : formula) (kr' kp' : list Z) (kl' : Z) : Prop :=
  same_side kr rs (kp' ++ [kl']) (ps' ++ [p']) /\ same_side (kp ++ [kl]) (ps ++ [p]) kr' rs'.
