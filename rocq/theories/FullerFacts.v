(** * FullerFacts: the unit checks of fullers *)
From Coq Require Import String Ascii List ZArith QArith Qcanon Bool Reals Lra.
From Verif Require Import Py Num UnitsData UnitsStruct Units Spec ConvSpec Solve Formulas Correlations FormulaSpec UnitConvMore.
Import ListNotations.
Local Open Scope string_scope.
Local Open Scope list_scope.
Local Open Scope R_scope.

Lemma check_inv (v : val) s t b : parse_units s = Ok (t, b) -> check_units v s = Ok tt ->
  (forall u, v = VUnit u -> un u = s) /\ (forall m, v = VMulti m -> shape v = shape (VMulti (MO MMulti 0 t b))).
Proof.
  intros hp h. split.
  - intros u ->. destruct (string_dec (un u) s) as [e|e]; [exact e|]. rewrite (proj2 (check_unit u s) e) in h. discriminate h.
  - intros m ->. cbn [check_units] in h. rewrite hp in h. cbn [bind fst snd] in h.
    destruct (half_eqb (mtop m) t && half_eqb (mbot m) b) eqn:e; [|discriminate h].
    assert (k : forall x y, half_eqb x y = true -> map (fun z => (bname z, ev (bexp z))) x = map (fun z => (bname z, ev (bexp z))) y).
    { induction x as [|z x IH]; intros [|w y] g; cbn in g; try discriminate; [reflexivity|]. apply andb_true_iff in g. destruct g as [g1 g2]. unfold bu_eqb, eeqb in g1. apply andb_true_iff in g1. destruct g1 as [g1 g3].
      apply String.eqb_eq in g1. apply Qc_eq_bool_correct in g3. cbn [map]. rewrite g1, g3, (IH y g2). reflexivity. }
    apply andb_true_iff in e. destruct e as [e1 e2]. cbn [shape mtop mbot]. rewrite (k _ _ e1), (k _ _ e2). reflexivity.
Qed.
Lemma fuller_checked (vT vP vMa vMb vVa vVb : val) w : fullers vT vP vMa vMb vVa vVb = Ok w ->
  forall v s, In (v, s) [(vT, "K"); (vP, "atm"); (vMa, "g/mol"); (vMb, "g/mol"); (vVa, "cm^3/mol"); (vVb, "cm^3/mol")] ->
  (forall u, v = VUnit u -> un u = s) /\ (forall m, v = VMulti m -> exists t b, parse_units s = Ok (t, b) /\ shape v = shape (VMulti (MO MMulti 0 t b))).
Proof.
  unfold fullers. intro h.
  destruct (check_units vT "K") as [[]|] eqn:e1; cbn [bind] in h; [|discriminate h]. destruct (check_units vP "atm") as [[]|] eqn:e2; cbn [bind] in h; [|discriminate h].
  destruct (check_units vMa "g/mol") as [[]|] eqn:e3; cbn [bind] in h; [|discriminate h]. destruct (check_units vMb "g/mol") as [[]|] eqn:e4; cbn [bind] in h; [|discriminate h].
  destruct (check_units vVa "cm^3/mol") as [[]|] eqn:e5; cbn [bind] in h; [|discriminate h]. destruct (check_units vVb "cm^3/mol") as [[]|] eqn:e6; cbn [bind] in h; [|discriminate h].
  clear h. assert (k : forall v s t b, parse_units s = Ok (t, b) -> check_units v s = Ok tt ->
    (forall u, v = VUnit u -> un u = s) /\ (forall m, v = VMulti m -> exists t b, parse_units s = Ok (t, b) /\ shape v = shape (VMulti (MO MMulti 0 t b)))).
  { intros v s t b hp hc. destruct (check_inv v s t b hp hc) as [a1 a2]. split; [exact a1|]. intros m hm. exists t, b. split; [exact hp|exact (a2 m hm)]. }
  intros v s hv. cbn [In] in hv. repeat destruct hv as [hv|hv]; try contradiction hv; injection hv as <- <-; (eapply k; [reflexivity|assumption]).
Qed.
Lemma fuller_check_case : exists vT vP : val, simple Temperature 300 "K" = Ok vT /\ simple Pressure 101325 "Pa" = Ok vP /\
  fullers vT vP (VNum 2) (VNum 29) (VNum 7) (VNum 20) = Raise EIncorrectUnits.
Proof. eexists. eexists. split; [reflexivity|]. split; [reflexivity|]. reflexivity. Qed.
