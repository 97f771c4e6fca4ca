(** * ArrheniusNone: the Arrhenius relation without the frequency factor *)
From Coq Require Import String List Bool Reals.
From Verif Require Import Py Num UnitsData UnitsStruct Units Solve Formulas FormulaSpec NumFacts.
Import ListNotations.
Local Open Scope string_scope.
Local Open Scope R_scope.

Lemma missing_A o env extra s : dict_get env "A" = Some ANone -> dict_get extra "solving_for" = Some (AName s) -> In s ["k"; "Ea"; "T"] ->
  exists e, arrhenius_body o env extra = Raise e.
Proof.
  intros ha hs hi. unfold arrhenius_body. destruct (arrhenius_units o) as [u|e0]; cbn [bind]; [|eauto].
  unfold param at 1. rewrite ha. cbn [bind]. destruct (mk_multi MMulti 1 u) as [m|e0]; cbn [bind rmap]; [|eauto]. rewrite hs.
  assert (hn : forall r, exists e, of_none VNone r = Raise e) by (intros [r|e0]; cbn; eauto).
  destruct hi as [<-|[<-|[<-|[]]]]; cbn [String.eqb Ascii.eqb Bool.eqb].
  - apply hn.
  - destruct (hn (odiv (param env "k") (Ok (VMulti m)))) as [e0 h]. rewrite h. cbn. eauto.
  - destruct (hn (odiv (param env "k") (Ok (VMulti m)))) as [e0 h]. rewrite h. cbn. eauto.
Qed.
(** Keywords out of order: Ea is taken to be missing. *)
Lemma missing_A_case : exists vE vR vT vk, multi "ActivationEnergy" 5000 "J/mol" = Ok vE /\ constant 8.314 "J/mol*K" = Ok vR /\
  simple Temperature 350 "K" = Ok vT /\ multi "KineticConstant" 2 "s^-1" = Ok vk /\
  arrhenius (eint 1) [] [("Ea", AVal vE); ("A", ANone); ("R", AVal vR); ("T", AVal vT); ("k", AVal vk)] = Raise ETypeError.
Proof.
  destruct (multi "ActivationEnergy" 5000 "J/mol") as [vE|] eqn:h1; [|discriminate]. destruct (constant 8.314 "J/mol*K") as [vR|] eqn:h2; [|discriminate].
  destruct (simple Temperature 350 "K") as [vT|] eqn:h3; [|discriminate]. destruct (multi "KineticConstant" 2 "s^-1") as [vk|] eqn:h4; [|discriminate].
  exists vE, vR, vT, vk. repeat (split; [reflexivity|]).
  unfold multi in h4. destruct (mk_multi (MSub "KineticConstant") (2 : R) "s^-1") as [m|] eqn:hm; [|discriminate]. injection h4 as <-.
  unfold mk_multi in hm. cbn [String.eqb] in hm. destruct (parse_units "s^-1") as [p|] eqn:hp; [|discriminate]. injection hm as <-.
  unfold arrhenius, decorated.
  match goal with |- context [wrapper ?a ?b ?c ?d ?e] => let w := eval cbn - [QcR] in (wrapper a b c d e) in change (wrapper a b c d e) with w end.
  cbn [bind fst snd]. unfold arrhenius_body. change (arrhenius_units (eint 1)) with (@Ok string "s^-1"). cbn [bind].
  match goal with |- context [param ?e "A"] => let w := eval cbv in (param e "A") in change (param e "A") with w end.
  match goal with |- context [param ?e "k"] => let w := eval cbn - [Rplus] in (param e "k") in change (param e "k") with w end.
  cbn [bind]. unfold mk_multi. cbn [String.eqb]. rewrite hp. cbn [bind rmap dict_get find fst snd String.eqb Ascii.eqb Bool.eqb].
  assert (ht : half_eqb (fst p) (fst p) && half_eqb (snd p) (snd p) = true) by (injection hp as <-; reflexivity).
  unfold odiv at 1. cbn [bind py_div multi_div mtop mbot mv]. rewrite ht. rewrite pydiv_ok by exact R1_neq_R0. reflexivity.
Qed.
