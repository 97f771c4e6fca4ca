(** * OwnFacts: converting to the unit at hand *)
From Coq Require Import String Ascii List ZArith QArith Qcanon Bool Reals Lra.
From Verif Require Import Py Num UnitsData UnitsStruct Units Spec NumFacts SpecFacts PrefixSpec PrefixExact ReadSpec ReadFacts SignSpec SignFacts CommuteFacts SolveFacts HeapProps TextFacts.
Import ListNotations.
Local Open Scope string_scope.
Local Open Scope list_scope.
Local Open Scope R_scope.

Lemma own_parse c (v : R) s a : mk_multi c v s = Ok a -> s <> "" -> parse_units s = Ok (mtop a, mbot a) /\ mc a = c /\ mv a = v.
Proof.
  unfold mk_multi. intros h hs. destruct (String.eqb s EmptyString) eqn:e; [apply String.eqb_eq in e; contradiction|].
  destruct (parse_units s) as [[pt pb]|]; cbn [bind fst snd] in h; [|discriminate]. injection h as <-. auto.
Qed.
Lemma own_empty tb (a : multi_obj R) r : multi_convert_to tb a "" <> Ok r.
Proof.
  unfold multi_convert_to. assert (hp : exists e, parse_units "" = Ok ([BU "" e], nil)) by (eexists; vm_compute; reflexivity). destruct hp as (e & ->). cbn [bind fst snd].
  unfold conv_prepare at 1. rewrite (proj2 (prefix_actual [BU "" e] nil)); [discriminate|]. exists (BU "" e). split; [left; reflexivity|reflexivity].
Qed.
Lemma own_multi tb c (v : R) s a r : mk_multi c v s = Ok a -> multi_convert_to tb a s = Ok r -> r = a.
Proof.
  intro h. destruct (string_dec s "") as [hs|hs]; [subst s; intro hr; destruct (own_empty _ _ _ hr)|]. destruct (own_parse c v s a h hs) as (hp & h1 & h2). unfold multi_convert_to. rewrite hp. cbn [bind fst snd].
  destruct (conv_prepare (T := R) (mtop a) (mbot a)) as [[[lt lb] lf]|]; cbn [bind]; [|discriminate].
  destruct (conv_factor tb lt lb lf) as [[[lt' lb'] lf']|]; cbn [bind]; [|discriminate].
  destruct (classes_known _) as [ks|]; cbn [bind]; [|discriminate]. destruct (same_dims _ _ _ _); [|discriminate].
  destruct (Req_EM_T lf' 0) as [hz|hz]; [rewrite hz, pydiv_0; discriminate|]. rewrite (pydiv_ok _ _ hz). cbn [bind].
  intro hr. cbn [nmul ndiv Rnum] in hr. rewrite h1, h2 in hr. replace (v * (lf' / lf')) with v in hr by (field; exact hz). rewrite h in hr. injection hr as <-. reflexivity.
Qed.
Lemma own_exact c (v : R) s a : mk_multi c v s = Ok a -> s <> "" ->
  ((exists r, multi_convert_to tables0 a s = Ok r) <-> understood (mtop a) /\ understood (mbot a) /\ ~ lost (mtop a) /\ ~ lost (mbot a)).
Proof.
  intros h hs. destruct (own_parse c v s a h hs) as (hp & _). rewrite (convert_iff a s _ _ hp). split.
  - intros (u1 & u2 & _ & _ & z1 & z2 & _). rewrite (seen_lost _ u1), (seen_lost _ u2). auto.
  - intros (u1 & u2 & z1 & z2). rewrite (seen_lost _ u1) in z1. rewrite (seen_lost _ u2) in z2. do 7 (split; [assumption|]). reflexivity.
Qed.
Lemma own_unit (tb : tables R) u : has_char "^" (un u) = false ->
  unit_convert_to tb u (un u) = if in_dec string_dec (un u) ["L"; "acre"] then Raise EValueError else Ok u.
Proof.
  intro h. unfold unit_convert_to. change UNIT_COMPOSITES with ["L"; "acre"]. destruct (in_dec string_dec (un u) ["L"; "acre"]) as [i|i].
  - rewrite (proj2 (mem_str_iff _ _) i), (split_on_none "^" (un u) h). reflexivity.
  - rewrite (proj2 (mem_str_no _ _) i), h. unfold unit_convert_core. rewrite String.eqb_refl. reflexivity.
Qed.
Lemma own_power (tb : tables R) u d q : has_char "^" (un u) = false -> ~ In (un u) ["L"; "acre"] -> has_char "^" d = false -> py_float d = Ok q ->
  unit_convert_to tb u (un u +++ String "^" d) = Ok u.
Proof.
  intros h i hd hq. unfold unit_convert_to. change UNIT_COMPOSITES with ["L"; "acre"]. rewrite (proj2 (mem_str_no _ _) i).
  assert (hc : forall t, has_char "^" (t +++ String "^" d) = true) by (induction t as [|ch t IH]; [reflexivity|]; cbn; rewrite IH; apply orb_true_r).
  rewrite hc, (split_sep "^"%char _ d h), (split_on_none "^"%char d hd), hq. cbn [bind]. unfold unit_convert_core. rewrite String.eqb_refl. reflexivity.
Qed.
Definition watts : multi_obj R := MO MMulti 5 [BU "W" (eflt (qc 1)); BU "W" (eflt (qc 1))] nil.
Lemma own_watts : mk_multi MMulti 5 "W*W" = Ok watts /\ forall r, multi_convert_to tables0 watts "W*W" <> Ok r.
Proof.
  assert (h : mk_multi MMulti 5 "W*W" = Ok watts) by (vm_compute; repeat (f_equal; try (apply Qc_is_canon; reflexivity))). split; [exact h|].
  intros r hr. assert (hu : understood (mtop watts)) by (apply (own_exact _ _ _ _ h); [discriminate|eauto]).
  destruct hu as [_ hu]. apply (hu true (BU "W" (eflt (qc 1)))); [right; left; reflexivity|reflexivity].
Qed.
Lemma own_litre : mk_unit Volume 5 "L" (eint 1) = Ok (UO Volume 5 "L" (eint 1)) /\ forall tb, unit_convert_to tb (UO Volume (5 : R) "L" (eint 1)) "L" = Raise EValueError.
Proof. split; [reflexivity|]. intro tb. apply (own_unit tb (UO Volume 5 "L" (eint 1))). reflexivity. Qed.
Lemma own_case : mk_multi MMulti 3 "km/hr" = Ok speed_a /\ exists r, multi_convert_to tables0 speed_a "km/hr" = Ok r.
Proof.
  destruct commute_case as (h & _). split; [exact h|]. apply (own_exact _ _ _ _ h); [discriminate|]. 
  destruct (positive_plain (mtop speed_a)) as [l1 _]; [intros x [<-|[]]; reflexivity|]. destruct (positive_plain (mbot speed_a)) as [l2 _]; [intros x [<-|[]]; reflexivity|].
  refine (conj _ (conj _ (conj l1 l2))); apply known_understood; reflexivity.
Qed.
