(** * ConstFacts: the constants of utility/constants.py *)
From Coq Require Import String List ZArith QArith Qcanon Bool Reals Qreals Lra Lia.
From Verif Require Import Py Num UnitsData UnitsStruct Units Spec Formulas FormulaSpec Constants ConstSpec OpFacts SpecFacts SafetyFacts.
Import ListNotations.
Local Open Scope string_scope.
Local Open Scope list_scope.
Local Open Scope R_scope.

Definition avogadro : unit_obj R := UO UUnit NA_SI "mol" (eint (-1)).
Lemma avogadro_ok : AVAGADROS_CONSTANT = Ok (VUnit avogadro).
Proof. reflexivity. Qed.

Lemma constants_close c x p : In (c, x, p) constants -> exists v y, c = Ok v /\ qty si v = Some y /\ Rabs (y - x) <= p.
Proof.
  intro h.
  assert (hc : forall r s q z d, match smm s with Ok v => msz v | Raise _ => None end = Some q -> Rabs (r * Q2R q - z) <= d ->
    exists v y, constant r s = Ok v /\ qty si v = Some y /\ Rabs (y - z) <= d).
  { intros r s q z d e b. destruct (constant_si r s q e) as [v [ev hv]]. exists v, (r * Q2R q). auto. }
  repeat (destruct h as [h|h]; [injection h as <- <- <-|]); [ | | | | | | |destruct h].
  - eapply hc; [vm_compute; reflexivity|]. unfold Q2R, k_SI. cbn [Qnum Qden]. rewrite Rabs_pos_eq; lra.
  - exists (VUnit avogadro), NA_SI. split; [reflexivity|]. split; [|unfold Rminus; rewrite Rplus_opp_r, Rabs_R0; lra].
    cbn [qty avogadro uv un ue]. apply (f_equal Some).
    replace (si "mol") with 1 by (unfold si; vm_compute; lra). unfold Rpower. rewrite ln_1, Rmult_0_r, exp_0. lra.
  - eapply hc; [vm_compute; reflexivity|]. unfold Q2R, h_SI. cbn [Qnum Qden]. rewrite Rabs_pos_eq; lra.
  - eapply hc; [vm_compute; reflexivity|]. unfold Q2R, sigma_SI. cbn [Qnum Qden]. apply Rabs_le. split; lra.
  - eapply hc; [vm_compute; reflexivity|]. unfold Q2R, F_SI, e_SI, NA_SI. cbn [Qnum Qden]. apply Rabs_le. split; lra.
  - eapply hc; [vm_compute; reflexivity|]. unfold Q2R, R_SI, k_SI, NA_SI. cbn [Qnum Qden]. apply Rabs_le. split; lra.
  - eapply hc; [vm_compute; reflexivity|]. unfold Q2R, R_SI, k_SI, NA_SI. cbn [Qnum Qden]. apply Rabs_le. split; lra.
Qed.

Lemma gas_close g r p : In (g, r, p) gas_table -> exists v y, g = Ok v /\ qty si v = Some y /\ Rabs (y - R_SI) <= / 10000 * R_SI.
Proof.
  intro h. destruct (gas_sizes g r p h) as [v [e q]]. exists v, r. split; [exact e|]. split; [exact q|].
  unfold R_SI, k_SI, NA_SI. destruct h as [h|[h|[h|[h|[]]]]]; injection h as _ <- _; apply Rabs_le; split; lra.
Qed.
Lemma gas_last_digit : exists g r p v y, In (g, r, p) gas_table /\ g = Ok v /\ qty si v = Some y /\ Rabs (y - R_SI) > p.
Proof.
  destruct (gas_sizes (get_gas_constant "K" "m^3" "atm" false) (8.205746 / 10 ^ 5 * 101325) (0.000001 / 10 ^ 5 * 101325)) as [v [e q]]; [right; right; right; left; reflexivity|].
  exists (get_gas_constant "K" "m^3" "atm" false), (8.205746 / 10 ^ 5 * 101325), (0.000001 / 10 ^ 5 * 101325), v, (8.205746 / 10 ^ 5 * 101325).
  split; [right; right; right; left; reflexivity|]. split; [exact e|]. split; [exact q|].
  unfold R_SI, k_SI, NA_SI. rewrite Rabs_pos_eq; lra.
Qed.

Definition boltzmann : multi_obj R :=
  MO MMulti k_SI [BU "m" (eflt (qc 2)); BU "kg" (eflt (qc 1))] [BU "s" (eflt (qc 2)); BU "K" (eflt (qc 1))].
Lemma boltzmann_ok : BOLTZMANS_CONSTANT = Ok (VMulti boltzmann).
Proof. reflexivity. Qed.
Lemma Rpower_m1 x : 0 < x -> Rpower x (QcR (ev (eint (-1)))) = / x.
Proof.
  intro h. replace (QcR (ev (eint (-1)))) with (- (1)) by (unfold QcR, Q2R; cbn; lra). rewrite Rpower_Ropp, Rpower_1 by exact h. reflexivity.
Qed.
Lemma Rpower_f1 x : 0 < x -> Rpower x (QcR (ev (eflt (qc 1)))) = x.
Proof. intro h. replace (QcR (ev (eflt (qc 1)))) with 1 by (unfold QcR, Q2R; cbn; lra). apply Rpower_1, h. Qed.
Lemma Rpower_f2 x : 0 < x -> Rpower x (QcR (ev (eflt (qc 2)))) = x ^ 2.
Proof. intro h. replace (QcR (ev (eflt (qc 2)))) with (INR 2) by (unfold QcR, Q2R; cbn; lra). apply Rpower_pow, h. Qed.

Lemma product_is_R : exists b a r, BOLTZMANS_CONSTANT = Ok b /\ AVAGADROS_CONSTANT = Ok a /\
  py_mul b a = Ok r /\ py_mul a b = Ok r /\
  forall w, coherent w -> qty w r = Some (R_SI * w "J" / (w "mol" * w "K")).
Proof.
  exists (VMulti boltzmann), (VUnit avogadro).
  destruct (mul_mu boltzmann avogadro) as [r [e1 [e2 q]]].
  - split; intros x [<-|[<-|[]]]; cbn [bname]; try (left; eexists; reflexivity); right; right; cbn; tauto.
  - right; right; cbn; tauto.
  - exists r. split; [exact boltzmann_ok|]. split; [exact avogadro_ok|]. split; [exact e1|]. split; [exact e2|].
    intros w hw. pose proof (co_pos w hw) as hp.
    rewrite (q w _ _ hw eq_refl eq_refl). apply (f_equal Some). unfold msize. cbn [mv mtop mbot boltzmann usize bname bexp avogadro uv un ue].
    rewrite !Rpower_f1, !Rpower_f2, Rpower_m1 by apply hp. rewrite (co_J w hw). unfold R_SI.
    pose proof (hp "s"). pose proof (hp "K"). pose proof (hp "mol"). field. repeat split; apply Rgt_not_eq; assumption.
Qed.

Lemma molecule_right (m : multi_obj R) : adm_multi m -> exists a r, AVAGADROS_CONSTANT = Ok a /\ py_div (VMulti m) a = Ok r /\
  forall w x, coherent w -> qty w (VMulti m) = Some x -> qty w r = Some (x * w "mol" / NA_SI).
Proof.
  intro hm. exists (VUnit avogadro).
  destruct (div_mu m avogadro hm) as [r [e q]].
  - right; right; left. cbn. tauto.
  - cbn. unfold NA_SI. lra.
  - exists r. split; [exact avogadro_ok|]. split; [exact e|]. intros w x hw hx.
    rewrite (q w x (NA_SI * / w "mol") hw hx).
    + apply (f_equal Some). pose proof (co_pos w hw "mol"). unfold NA_SI. field. lra.
    + cbn [qty avogadro uv un ue]. rewrite Rpower_m1 by apply (co_pos w hw). reflexivity.
Qed.

Lemma amount_product x : exists n a r, simple Amount x "mol" = Ok n /\ AVAGADROS_CONSTANT = Ok a /\ py_mul n a = Ok r /\ py_mul a n = Ok (match r with VMulti m => VMulti (MO MMulti (NA_SI * x) (mtop m) (mbot m)) | v => v end) /\
  forall w, coherent w -> (qty w r = Some (x * NA_SI) <-> x = 0 \/ w "mol" = 1).
Proof.
  exists (VUnit (UO Amount x "mol" (eint 1))), (VUnit avogadro). eexists. split; [reflexivity|]. split; [reflexivity|]. split; [reflexivity|].
  split; [reflexivity|]. intros w hw. pose proof (co_pos w hw "mol") as hp.
  cbn [qty]. unfold msize. cbn [mv mtop mbot usize bname bexp un uv avogadro].
  assert (e : Rpower (w "mol") (QcR (ev (eint 1))) = w "mol") by (replace (QcR (ev (eint 1))) with 1 by (unfold QcR, Q2R; cbn; lra); apply Rpower_1, hp).
  rewrite e. cbn [nmul Rnum]. split.
  - intro h. injection h as h.
    assert (hz : x * (w "mol" - 1) * (w "mol" + 1) = 0) by (unfold NA_SI in h; nra).
    destruct (Rmult_integral _ _ hz) as [h1|h1]; [|lra]. destruct (Rmult_integral _ _ h1); [left; assumption|right; lra].
  - intros [->| ->]; apply (f_equal Some); lra.
Qed.
(** Amounts in half moles, everything else in SI units. *)
Definition moles2 (n : string) : R := if mem_str n ["mol"; "umol"; "mmol"; "cmol"; "dmol"; "kmol"; "Mmol"] then 2 * si n else si n.
Lemma si_mol : si "mol" = 1.
Proof. unfold si. vm_compute. lra. Qed.
Lemma moles2_coherent : coherent moles2.
Proof.
  destruct coherent_si as [h1 h2 h3 h4 h5 h6 h7 h8 h9]. constructor; try assumption.
  - intro n. unfold moles2. destruct (mem_str _ _); pose proof (h1 n); lra.
  - intros p f s hp hs. pose proof (h2 p f s hp hs) as e.
    assert (c : mem_str (String p s) ["mol"; "umol"; "mmol"; "cmol"; "dmol"; "kmol"; "Mmol"] = mem_str s ["mol"; "umol"; "mmol"; "cmol"; "dmol"; "kmol"; "Mmol"]).
    { repeat (destruct hp as [hp|hp]; [injection hp as <- <-|]); try destruct hp; repeat (destruct hs as [<-|hs]; [reflexivity|]); destruct hs. }
    unfold moles2. rewrite c, e. destruct (mem_str s _); lra.
Qed.
Lemma amount_refuted : exists w x n a r, coherent w /\ simple Amount x "mol" = Ok n /\ AVAGADROS_CONSTANT = Ok a /\ py_mul n a = Ok r /\ qty w r <> Some (x * NA_SI).
Proof.
  destruct (amount_product 1) as [n [a [r [e1 [e2 [e3 [_ h]]]]]]].
  exists moles2, 1, n, a, r. split; [exact moles2_coherent|]. split; [exact e1|]. split; [exact e2|]. split; [exact e3|].
  intro q. apply (h moles2 moles2_coherent) in q. assert (e : moles2 "mol" = 2) by (change (2 * si "mol" = 2); rewrite si_mol; lra). lra.
Qed.
Lemma count_refused x : exists a, AVAGADROS_CONSTANT = Ok a /\ py_div (VNum x) a = Raise ETypeError.
Proof. exists (VUnit avogadro). split; reflexivity. Qed.
Lemma amount_exact x : exists n a r, simple Amount x "mol" = Ok n /\ AVAGADROS_CONSTANT = Ok a /\ py_mul n a = Ok r /\
  forall w, coherent w -> (qty w r = Some (x * NA_SI) <-> x = 0 \/ w "mol" = 1).
Proof. destruct (amount_product x) as [n [a [r [e1 [e2 [e3 [_ h]]]]]]]. exists n, a, r. auto. Qed.
Lemma water_weight : exists m, mk_multi (MSub "MolecularWeight") 18 "g/mol" = Ok m /\ adm_multi m /\ qty si (VMulti m) = Some 0.018.
Proof.
  exists (MO (MSub "MolecularWeight") 18 [BU "g" (eflt (qc 1))] [BU "mol" (eflt (qc 1))]). split; [reflexivity|]. split.
  - split; intros x [<-|[]]; cbn [bname]; [left; eexists; reflexivity|right; right; left; cbn; tauto].
  - cbn [qty mv mtop mbot]. unfold msize. cbn [usize bname bexp]. rewrite !Rpower_f1 by apply (co_pos si coherent_si). rewrite si_mol.
    replace (si "g") with (/ 1000) by (unfold si; vm_compute; lra). apply (f_equal Some). lra.
Qed.
