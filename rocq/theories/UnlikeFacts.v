(** * UnlikeFacts: no nonzero quantity is denoted in units of different length dimension *)
From Coq Require Import String Ascii List ZArith QArith Qcanon Bool Reals Qreals Lia Lra.
From Verif Require Import Py Num UnitsData UnitsStruct Units NumFacts Spec SpecFacts StructFacts
  OpFacts NamesFacts ClosureFacts FactorFacts LawFacts WitnessFacts PropFacts OpPropFacts Solve Formulas Correlations FormulaSpec TransferSpec SemFacts SymFacts SweepFacts SimFacts ParamFacts DimlessFacts ProbeFacts DenoteFacts PrefixFacts ConvSpec ConvCases.
Import ListNotations.
Local Open Scope string_scope.
Local Open Scope list_scope.
Local Open Scope R_scope.

Definition ldim_base : list (string * Z) := [("m", 1); ("J", 2); ("W", 2); ("V", 2); ("Pa", -1); ("N", 1); ("L", 3)]%Z.
Definition ldim_table : list (string * Z) :=
  flat_map (fun p => map (fun sx => (String (fst p) (fst sx), snd sx)) ldim_base) si_prefixes ++ ldim_base
  ++ [("ft", 1); ("in", 1); ("yd", 1); ("mile", 1); ("acre", 2); ("BTU", 2); ("lbf", 1); ("psi", -1); ("atm", -1); ("bar", -1); ("mmHg", -1); ("cP", -1)]%Z.
Definition ldim (n : string) : Z := match find (fun p => String.eqb (fst p) n) ldim_table with Some p => snd p | None => 0%Z end.
(** The library's units, with every length twice as long. *)
Definition twice (n : string) : R := lib_si n * powerRZ 2 (ldim n).
Ltac ldims := repeat match goal with |- context [ldim ?s] => let v := eval vm_compute in (ldim s) in change (ldim s) with v end; cbn [powerRZ]; change (2 ^ Pos.to_nat 1) with (2 * 1); change (2 ^ Pos.to_nat 2) with (2 * (2 * 1)).
Lemma twice_coherent : coherent twice.
Proof.
  destruct lib_coherent as [h1 h2 h3 h4 h5 h6 h7 h8 h9]. assert (p2 : forall z, 0 < powerRZ 2 z) by (intro; apply powerRZ_lt; lra).
  unfold twice. constructor.
  - intro n. apply Rmult_lt_0_compat; [apply h1|apply p2].
  - intros p f s hp hs. rewrite (h2 p f s hp hs). replace (ldim (String p s)) with (ldim s); [ring|].
    assert (hb : forallb (fun p => forallb (fun s => Z.eqb (ldim s) (ldim (String (fst p) s))) si_symbols) si_prefixes = true) by (vm_compute; reflexivity).
    rewrite forallb_forall in hb. specialize (hb _ hp). cbn [fst] in hb. rewrite forallb_forall in hb. apply Z.eqb_eq, hb. exact hs.
  - rewrite h3. ldims. pose proof (h1 "m"). pose proof (h1 "s"). field; repeat split; lra.
  - rewrite h4. ldims. pose proof (h1 "s"). field; repeat split; lra.
  - rewrite h5. ldims. pose proof (h1 "s"). field; repeat split; lra.
  - rewrite h6. ldims. pose proof (h1 "in"). field; repeat split; lra.
  - rewrite h7. ldims. pose proof (h1 "m"). pose proof (h1 "s"). field; repeat split; lra.
  - rewrite h8. ldims. field.
  - rewrite h9. ldims. pose proof (h1 "s"). pose proof (h1 "A"). field; repeat split; lra.
Qed.
Definition qlen (l : dl) : Qc := fold_right (fun p s => (snd p * qc (ldim (fst p)) + s)%Qc) (qc 0) l.
Lemma ln_powerRZ z : ln (powerRZ 2 z) = IZR z * ln 2.
Proof. rewrite powerRZ_Rpower by lra. unfold Rpower. apply ln_exp. Qed.
Lemma twice_dsum l : dsum (fun m => ln (twice m)) l = dsum (fun m => ln (lib_si m)) l + ln 2 * QcR (qlen l).
Proof.
  induction l as [|p l ih]; [cbn; rewrite QcR_qc; ring|]. cbn [dsum fold_right qlen]. fold (dsum (fun m => ln (twice m)) l) (dsum (fun m => ln (lib_si m)) l) (qlen l).
  rewrite ih, QcR_plus, QcR_mult, QcR_qc. unfold twice at 1. rewrite ln_mult, ln_powerRZ by (try apply powerRZ_lt; try lra; apply (co_pos _ lib_coherent)). ring.
Qed.
Definition unlike (s s' : string) : bool :=
  match mk_multi MMulti 1%Q s, mk_multi MMulti 1%Q s' with Ok m, Ok m' => negb (Qc_eq_bool (qlen (vdims (VMulti m))) (qlen (vdims (VMulti m')))) | _, _ => false end.
Lemma constant_obj x s m : mk_multi MMulti 1%Q s = Ok m -> constant x s = Ok (obj (VMulti m) x).
Proof.
  unfold constant, mk_multi. destruct (String.eqb s EmptyString); [intro e; injection e as <-; reflexivity|]. destruct (parse_units s) as [p|]; cbn; [intro e; injection e as <-; reflexivity|discriminate].
Qed.
Lemma unlike_ok s s' r x y : unlike s s' = true -> denotes r x s -> denotes r y s' -> x = 0.
Proof.
  unfold unlike. destruct (mk_multi MMulti 1%Q s) as [m|] eqn:e; [|discriminate]. destruct (mk_multi MMulti 1%Q s') as [m'|] eqn:e'; [|discriminate].
  intros hn [v [ev q]] [v' [ev' q']]. rewrite (constant_obj _ _ _ e) in ev. rewrite (constant_obj _ _ _ e') in ev'. injection ev as <-. injection ev' as <-.
  pose proof (q _ lib_coherent) as a. rewrite (q' _ lib_coherent) in a. pose proof (q _ twice_coherent) as b. rewrite (q' _ twice_coherent) in b.
  rewrite !vdims_ok in a, b by (apply lib_coherent || apply twice_coherent || reflexivity). rewrite !twice_dsum, !exp_plus in b. injection a as a. injection b as b.
  rewrite <- !Rmult_assoc, a in b. destruct (Req_dec x 0) as [h|h]; [exact h|exfalso].
  assert (hp : exp (dsum (fun m0 => ln (lib_si m0)) (vdims (VMulti m))) <> 0) by apply Rgt_not_eq, exp_pos.
  apply Rmult_eq_reg_l in b; [|apply Rmult_integral_contrapositive; split; assumption]. apply exp_inv in b. apply Rmult_eq_reg_l in b.
  - apply QcR_inj in b. apply negb_true_iff in hn. unfold Qc_eq_bool in hn. destruct (Qc_eq_dec _ _) as [_|k] in hn; [discriminate|]. apply k. symmetry. exact b.
  - assert (0 < ln 2) by (rewrite <- ln_1; apply ln_increasing; lra). lra.
Qed.
