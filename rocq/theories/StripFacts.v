(** * StripFacts: [strip] takes away exactly the blanks around a text *)
From Coq Require Import String Ascii List ZArith QArith Qcanon Bool Lia.
From Verif Require Import Py UnitsStruct TextSpec.
Import ListNotations.
Local Open Scope string_scope.
Local Open Scope list_scope.

Lemma blank_space c : blank c = is_space c.
Proof. destruct c as [[] [] [] [] [] [] [] []]; vm_compute; reflexivity. Qed.
Lemma nil_r s : s +++ "" = s. Proof. induction s; cbn; congruence. Qed.
Lemma lstrip_split s : exists p, s = p +++ lstrip s /\ all_blank p = true /\ (lstrip s = "" \/ exists c r, lstrip s = String c r /\ blank c = false).
Proof.
  induction s as [|c s [p [h1 [h2 h3]]]]; [exists ""; cbn; auto|]. cbn [lstrip]. destruct (is_space c) eqn:e.
  - exists (String c p). cbn [append all_blank]. rewrite blank_space, e, h2. split; [congruence|]. auto.
  - exists "". split; [reflexivity|]. split; [reflexivity|]. right. exists c, s. rewrite blank_space. auto.
Qed.
Lemma rstrip_split s : exists q, s = rstrip s +++ q /\ all_blank q = true /\ (rstrip s = "" \/ exists r c, rstrip s = r +++ String c "" /\ blank c = false).
Proof.
  induction s as [|c s [q [h1 [h2 h3]]]]; [exists ""; cbn; auto|]. cbn [rstrip]. destruct (String.eqb_spec (rstrip s) "") as [e|e].
  - rewrite e in *. cbn in h1. subst q. destruct (is_space c) eqn:i; cbn [andb].
    + exists (String c s). cbn [append all_blank]. rewrite blank_space, i, h2. auto.
    + exists s. split; [reflexivity|]. split; [exact h2|]. right. exists "", c. rewrite blank_space. auto.
  - rewrite andb_false_r. exists q. split; [cbn; congruence|]. split; [exact h2|]. right. destruct h3 as [k|[r [d [k1 k2]]]]; [congruence|].
    exists (String c r), d. rewrite k1. auto.
Qed.
Lemma strip_trims s : trims s (strip s).
Proof.
  unfold strip. destruct (lstrip_split s) as [p [h1 [h2 h3]]]. destruct (rstrip_split (lstrip s)) as [q [k1 [k2 k3]]].
  exists p, q. split; [congruence|]. split; [exact h2|]. split; [exact k2|]. destruct k3 as [k3|k3]; [left; exact k3|].
  destruct (String.eqb_spec (rstrip (lstrip s)) "") as [e|e]; [left; exact e|]. right. split; [|exact k3].
  destruct h3 as [h3|[c [r [h3 b]]]]; [rewrite h3 in e; cbn in e; congruence|]. destruct (rstrip (lstrip s)) as [|d t]; [congruence|].
  rewrite h3 in k1. cbn in k1. injection k1 as -> _. eauto.
Qed.
