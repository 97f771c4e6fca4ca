(** * EosExact: what van der Waals and Peng-Robinson settle on *)
From Coq Require Import String List ZArith QArith Bool Reals Lra.
From Verif Require Import Py Num UnitsData UnitsStruct Units Eos EosSpec EosFacts.
Local Open Scope string_scope.
Local Open Scope R_scope.

Lemma form_root om psi al T P Tc Pc z : 0 < om -> psi * al <> 0 -> 0 < T -> 0 < P -> 0 < Tc -> 0 < Pc ->
  cubic (om * ((P / Pc) / (T / Tc))) (psi * al / (om * (T / Tc))) z -> compressibility (kwong_form om (psi * al)) T P Tc Pc z.
Proof.
  intros ho hpa hT hP hTc hPc h. pose proof (proj1 (rk_form om psi al T P Tc Pc z ho hpa hT hP hTc hPc) h) as k.
  intros Rg hR. specialize (k Rg hR). cbv zeta in k. unfold kwong_form. cbv zeta. destruct k as [k1 [k2 k3]]. split; [exact k1|split; [exact k2|]].
  rewrite k3 at 1. f_equal. f_equal. field. lra.
Qed.
Theorem vdw_actual tn pn T P Tc Pc st z : 0 < T -> 0 < P -> 0 < Tc -> 0 < Pc ->
  settles (van_der_waals (temp tn T) (pres pn P) (temp tn Tc) (pres pn Pc) st) z -> compressibility (kwong_form (1 / 8) (27 / 64)) T P Tc Pc z.
Proof.
  intros hT hP hTc hPc h.
  pose proof (settles_cubic (van_der_waals (temp tn T) (pres pn P) (temp tn Tc) (pres pn Pc)) _ _ _ _ st z (vdw_call tn pn T P Tc Pc hT hTc hPc st) h) as hq.
  replace (27 / 64) with (27 / 64 * 1) by ring. apply form_root; try assumption; lra.
Qed.
Theorem pr_actual tn pn T P Tc Pc st w z : 0 < T -> 0 < P -> 0 < Tc -> 0 < Pc ->
  1 + (0.37464 + 1.54226 * w - 0.26992 * w ^ 2) * (1 - sqrt (T / Tc)) <> 0 ->
  settles (peng_robinson (temp tn T) (pres pn P) (temp tn Tc) (pres pn Pc) st (VNum w)) z ->
  compressibility (kwong_form 0.07780 (0.45724 * (1 + (0.37464 + 1.54226 * w - 0.26992 * w ^ 2) * (1 - sqrt (T / Tc))) ^ 2)) T P Tc Pc z.
Proof.
  intros hT hP hTc hPc hal h.
  pose proof (settles_cubic (fun st => peng_robinson (temp tn T) (pres pn P) (temp tn Tc) (pres pn Pc) st (VNum w)) _ _ _ _ st z (pr_call tn pn T P Tc Pc hT hTc hPc st w) h) as hq.
  apply form_root; try assumption; try lra. apply nz_mul; [lra|]. apply pow_nonzero. exact hal.
Qed.
(** Any other state raises, whatever the numbers. *)
Lemma state_other fv v fl l (b : pyval R) st n : st <> "vapor" -> st <> "liquid" -> solve_state st fv v fl l b n = Raise EUnboundLocalError.
Proof. intros h1 h2. unfold solve_state. apply String.eqb_neq in h1, h2. rewrite h1, h2. reflexivity. Qed.
Theorem other_state tn pn T P Tc Pc st w n : 0 < T -> 0 < Tc -> 0 < Pc -> st <> "vapor" -> st <> "liquid" ->
  rendlich_kwong (temp tn T) (pres pn P) (temp tn Tc) (pres pn Pc) st n = Raise EUnboundLocalError /\
  van_der_waals (temp tn T) (pres pn P) (temp tn Tc) (pres pn Pc) st n = Raise EUnboundLocalError /\
  soave_rendlich_kwong (temp tn T) (pres pn P) (temp tn Tc) (pres pn Pc) st (VNum w) n = Raise EUnboundLocalError /\
  peng_robinson (temp tn T) (pres pn P) (temp tn Tc) (pres pn Pc) st (VNum w) n = Raise EUnboundLocalError.
Proof.
  intros hT hTc hPc h1 h2. rewrite rk_call, vdw_call, srk_call, pr_call by assumption. cbv zeta. repeat split; apply state_other; assumption.
Qed.
