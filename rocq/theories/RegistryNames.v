(** * RegistryNames: which prefixed names are registered *)
From Coq Require Import Ascii String List ZArith QArith Qcanon Bool Reals.
From Verif Require Import Py Num UnitsData UnitsStruct Units Spec UnitConvSpec UnitErrSpec RegistrySpec PrefixFacts LawFacts.
Import ListNotations.
Local Open Scope string_scope.
Local Open Scope list_scope.

(** The symbols whose prefixed names have a class, and that class. *)
Definition with_prefixes : list (string * ucls) := [("m", Length); ("g", Mass); ("J", Energy); ("Pa", Pressure); ("N", Force); ("L", Volume)].
Lemma prefixed_names p f s c : In (p, f) si_prefixes -> In s si_symbols -> (dict_get UNIT_REGISTRY (String p s) = Some c <-> In (s, c) with_prefixes).
Proof.
  intros hp hs. assert (k : In p ["u"; "m"; "c"; "d"; "k"; "M"]%char).
  { apply (in_map fst) in hp. exact hp. }
  assert (e : forall q, In q ["u"; "m"; "c"; "d"; "k"; "M"]%char -> forall t, In t si_symbols -> dict_get UNIT_REGISTRY (String q t) = dict_get with_prefixes t).
  { intros q hq. cbn in hq. repeat (destruct hq as [<-|hq]; [intros t ht; cbn in ht; repeat (destruct ht as [<-|ht]; [vm_compute; reflexivity|]); destruct ht|]). destruct hq. }
  rewrite (e p k s hs). clear e k hp. cbn in hs. repeat (destruct hs as [<-|hs]; [vm_compute; split; [intro h; try discriminate h; injection h as <-; tauto|intro h; repeat (destruct h as [h|h]; [try discriminate h; injection h as <-; reflexivity|]); destruct h]|]).
  destruct hs.
Qed.

Lemma registry_listed n c : dict_get UNIT_REGISTRY n = Some c <-> In n (table_names c ++ other_names c).
Proof.
  assert (h1 : forallb (fun p => mem_str (fst p) (table_names (snd p) ++ other_names (snd p))) UNIT_REGISTRY = true) by (vm_compute; reflexivity).
  assert (h2 : forall c, forallb (fun n => match dict_get UNIT_REGISTRY n with Some d => ucls_eqb c d | None => false end) (table_names c ++ other_names c) = true) by (intros []; vm_compute; reflexivity).
  rewrite forallb_forall in h1. split; intro h.
  - assert (k : In (n, c) UNIT_REGISTRY).
    { revert h. generalize UNIT_REGISTRY as l. clear. intro l. induction l as [|[m d] l IH]; cbn; [discriminate|].
      destruct (dict_get l n) as [e|]; [intro h; right; apply IH, h|]. destruct (String.eqb m n) eqn:e; [|discriminate]. apply String.eqb_eq in e. intro h. injection h as ->. subst. left. reflexivity. }
    apply h1 in k. cbn [fst snd] in k. apply mem_str_In in k. exact k.
  - specialize (h2 c). rewrite forallb_forall in h2. specialize (h2 n h). destruct (dict_get UNIT_REGISTRY n) as [d|]; [|discriminate]. apply ucls_eqb_eq in h2. subst. reflexivity.
Qed.
