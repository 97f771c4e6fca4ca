(** * FuncFacts: on exact numbers the terms are the formulas *)
From Coq Require Import String List ZArith QArith Qcanon Bool Reals Qreals Lia Lra.
From Verif Require Import Py Num NumFacts UnitsData UnitsStruct Units Expr Solve Formulas SymFacts SafetyFacts Rounding RoundSpec Func FuncSpec.
Import ListNotations.
Local Open Scope string_scope.
Local Open Scope list_scope.
Local Open Scope R_scope.

Section Runs.
Variable erf : R -> R.
Notation ev_ l t := (@teval R Rnum (Rfn erf) (fun x => x) l t).

Lemma log_is x : (let* y := x in on_number (Rlog ln) y) = math_log x.
Proof. destruct x as [[r| | |w|w]|e]; try reflexivity. cbn. unfold Rlog. destruct (Rltb 0 r); reflexivity. Qed.
Lemma fun_is f x : (let* y := x in on_number (fun r => Ok (f r)) y) = math1 f x.
Proof. destruct x as [[r| | |w|w]|e]; reflexivity. Qed.
Lemma plain_is e : forall l, ev_ l (plain e) = eval e.
Proof.
  induction e as [v|e IHe f IHf|e IHe f IHf|e IHe f IHf|e IHe f IHf|e IHe k|e IHe]; intro l; cbn [plain teval eval]; rewrite ?IHe; try reflexivity;
    destruct (eval e); cbn [bind]; try reflexivity; rewrite IHf; reflexivity.
Qed.
Lemma run_pipe k T1 T2 length r2 r1 : exact erf (pipe_term k T1 T2 length r2 r1) = pipe_heat k T1 T2 length r2 r1.
Proof.
  unfold exact, pipe_term, pipe_heat. cbn [teval]. unfold omul, odiv, osub. cbn [bind flog Rfn fpi]. rewrite <- log_is. reflexivity.
Qed.
Lemma run_pipe_mass D r2 r1 C2 C1 L : exact erf (pipe_term D C1 C2 L r2 r1) = pipe_mass_transfer D r2 r1 C2 C1 L.
Proof. apply run_pipe. Qed.
Lemma run_log_mean T0A T1A T0B T1B : exact erf (log_mean_term T0A T1A T0B T1B) = deltat_logmean T0A T1A T0B T1B false.
Proof.
  unfold exact, log_mean_term, deltat_logmean. cbn [teval nth_error bind]. unfold odiv, osub. cbn [bind].
  destruct (py_sub T0A T1B) as [p|e]; cbn [bind]; [|reflexivity]. destruct (py_sub T1A T0B) as [q|e]; cbn [bind]; [|reflexivity].
  cbn [nth_error bind flog Rfn]. rewrite <- log_is. reflexivity.
Qed.
Lemma run_semi_infinite Ts To z time rho Cp k :
  exact erf (semi_infinite_term Ts To z time rho Cp k) = semi_infinite_slab_conduction erf Ts To z time rho Cp k.
Proof.
  unfold exact, semi_infinite_term, semi_infinite_slab_conduction. cbn [teval nth_error bind]. unfold omul, odiv, osub, opow. cbn [bind].
  destruct (py_mul rho Cp) as [p|e]; cbn [bind]; [|reflexivity]. destruct (py_div k p) as [q|e]; cbn [bind]; [|reflexivity].
  cbn [ferf Rfn]. rewrite <- fun_is. reflexivity.
Qed.
Lemma run_lumped Tf To h A rho cP V time : exact erf (lumped_term Tf To h A rho cP V time) = lumped_parameter Tf To h A rho cP V time.
Proof.
  unfold exact, lumped_term, lumped_parameter, math_exp. cbn [teval]. rewrite plain_is. unfold omul at 1 2, osub. cbn [bind].
  cbn [fexp Rfn]. rewrite fun_is. reflexivity.
Qed.
Lemma bind_id {A} (r : res A) : (let* x := r in Ok x) = r.
Proof. destruct r; reflexivity. Qed.
Lemma odd_pos n : 0 < odd_ n.
Proof. unfold odd_. pose proof (pos_INR n). lra. Qed.
Lemma one_over x : x <> 0 -> py_div (VNum 1) (VNum x) = Ok (VNum (1 / x)).
Proof.
  intro h. cbn [py_div]. unfold pydiv. cbn [neqb nq Rnum ndiv]. replace (Q2R 0) with 0 by (unfold Q2R; cbn; field).
  rewrite (proj2 (Reqb_false x 0) h). reflexivity.
Qed.
Lemma sum_is f g l : (forall n, ev_ l (f n) = g n) -> forall n, ev_ l (sum_term f n) = sum_terms g n.
Proof. intros h n. induction n as [|n IH]; [reflexivity|]. cbn [sum_term sum_terms teval]. rewrite IH, h. reflexivity. Qed.
Lemma decay_is alpha time s rest n : ev_ (alpha :: rest) (slab_decay (TVar 0) (TLeaf time) (TLeaf s) n) =
  math_exp (omul (oneg (opow (omul (Ok (VNum (odd_ n))) (odiv (Ok (VNum PI)) (Ok (VNum 2)))) (eint 2)))
                 (odiv (omul (Ok alpha) (Ok time)) (opow (Ok s) (eint 2)))).
Proof. unfold slab_decay, math_exp. cbn [teval nth_error fexp fpi Rfn]. rewrite fun_is. reflexivity. Qed.
Lemma slab_is x s alpha time n : ev_ [alpha] (slab_term_ x s time n) = slab_term x s alpha time n.
Proof.
  unfold slab_term_, slab_term. cbn [teval bind]. rewrite one_over by (pose proof (odd_pos n); lra). rewrite decay_is.
  cbn [fsin fpi Rfn]. unfold math_sin. unfold omul at 1 2. cbn [bind]. rewrite <- fun_is. reflexivity.
Qed.
Lemma run_finite_slab Ts To x s k rho Cp time iterations :
  exact erf (finite_slab_term Ts To x s k rho Cp time iterations) = finite_slab_conduction Ts To x s k rho Cp time iterations.
Proof.
  unfold exact, finite_slab_term, finite_slab_conduction. cbn [teval bind]. unfold odiv at 1, omul at 1. cbn [bind].
  destruct (py_mul rho Cp) as [p|e]; cbn [bind]; [|reflexivity]. destruct (py_div k p) as [q|e]; cbn [bind]; [|reflexivity].
  rewrite (sum_is (slab_term_ x s time) (slab_term x s q time)) by (intro; apply slab_is).
  destruct (sum_terms (slab_term x s q time) (S iterations)) as [r|e]; cbn [bind]; [|reflexivity]. reflexivity.
Qed.
Lemma slab_heat_is s time q rest n : ev_ (q :: rest) (slab_heat_term_ time s n) = slab_heat_term q time s n.
Proof.
  unfold slab_heat_term_, slab_heat_term. cbn [teval bind]. rewrite one_over by (apply pow_nonzero; pose proof (odd_pos n); lra). rewrite decay_is. reflexivity.
Qed.
Lemma run_total_heat s rho cp Ts To k time area iterations :
  exact erf (total_heat_term s rho cp Ts To k time area iterations) = finite_slab_total_heat s rho cp Ts To k time area iterations.
Proof.
  unfold exact, total_heat_term, finite_slab_total_heat. cbn [teval bind].
  replace (py_pow (VNum fpi) (eint 2)) with (Ok (VNum (PI ^ 2) : pyval R)).
  2: { cbn. unfold Rpowq. cbn. rewrite andb_false_r. cbn. do 2 f_equal; try ring. }
  unfold odiv at 1, omul at 1 2 3 4 5, osub at 1. cbn [bind].
  destruct (py_mul (VNum 8) s) as [a1|e]; cbn [bind]; [|reflexivity]. destruct (py_mul a1 rho) as [a2|e]; cbn [bind]; [|reflexivity].
  destruct (py_mul a2 cp) as [a3|e]; cbn [bind]; [|reflexivity]. destruct (py_sub Ts To) as [a4|e]; cbn [bind]; [|reflexivity].
  destruct (py_mul a3 a4) as [a5|e]; cbn [bind]; [|reflexivity]. destruct (py_mul a5 area) as [a6|e]; cbn [bind]; [|reflexivity].
  destruct (py_div a6 _) as [a7|e]; cbn [bind]; [|reflexivity]. unfold odiv at 1, omul at 1. cbn [bind].
  destruct (py_mul rho cp) as [p|e]; cbn [bind]; [|reflexivity]. destruct (py_div k p) as [q|e]; cbn [bind]; [|reflexivity].
  rewrite (sum_is (slab_heat_term_ time s) (slab_heat_term q time s)) by (intro; apply slab_heat_is).
  destruct (sum_terms (slab_heat_term q time s) iterations) as [r|e]; cbn [bind nth_error]; reflexivity.
Qed.
Lemma run_semi_diffusion Cs Co z D t : exact erf (semi_infinite_diffusion_term Cs Co z D t) = semi_infinite_slab_diffusion erf Cs Co z D t.
Proof.
  unfold exact, semi_infinite_diffusion_term, semi_infinite_slab_diffusion. cbn [teval ferf Rfn]. rewrite fun_is. reflexivity.
Qed.
Lemma slab_diffusion_is a z D t n : ev_ [] (slab_diffusion_term_ a z D t n) = slab_diffusion_term erf a z D t n.
Proof. unfold slab_diffusion_term_, slab_diffusion_term. cbn [teval ferf Rfn]. rewrite !fun_is. reflexivity. Qed.
Lemma run_finite_diffusion Cs Co a z D t iterations :
  exact erf (finite_diffusion_term Cs Co a z D t iterations) = finite_slab_diffusion erf Cs Co a z D t iterations.
Proof.
  unfold exact, finite_diffusion_term, finite_slab_diffusion. cbn [teval].
  rewrite (sum_is (slab_diffusion_term_ a z D t) (slab_diffusion_term erf a z D t)) by (intro; apply slab_diffusion_is).
  destruct (sum_terms _ iterations) as [r|e]; cbn [bind nth_error]; reflexivity.
Qed.
Lemma pulse_is l m bottom distance D time : ev_ l (pulse_term m bottom distance D time) =
  let* x := ev_ l m in let* top := omul (Ok x) (pulse_exp distance D time) in let* b := ev_ (top :: x :: l) bottom in py_div top b.
Proof.
  unfold pulse_term. cbn [teval]. destruct (ev_ l m) as [x|e]; cbn [bind nth_error]; [|reflexivity].
  replace (let* y := ev_ (x :: l) (plain (pulse_exponent distance D time)) in on_number (fun r => Ok (@fexp R (Rfn erf) r)) y) with (pulse_exp distance D time).
  - unfold omul. cbn [bind]. destruct (let* y := pulse_exp distance D time in py_mul x y) as [top|e]; cbn [bind]; [|reflexivity].
    destruct (ev_ (top :: x :: l) bottom) as [b|e]; reflexivity.
  - rewrite plain_is. cbn [fexp Rfn]. rewrite fun_is. reflexivity.
Qed.
Lemma run_three_d m d D t shape : exact erf (three_d_term m d D t shape) = three_d_pulse_decay m d D t shape.
Proof.
  unfold exact, three_d_term, three_d_pulse_decay. rewrite pulse_is. unfold pulse_mass.
  destruct (String.eqb shape "hemisphere"); [reflexivity|]. destruct (String.eqb shape "cube"); reflexivity.
Qed.
Lemma run_two_d m L d D t : exact erf (two_d_term m L d D t) = two_d_pulse_decay m L d D t.
Proof. unfold exact, two_d_term, two_d_pulse_decay. rewrite pulse_is. reflexivity. Qed.
Lemma run_one_d m A d D t : exact erf (one_d_term m A d D t) = one_d_pulse_decay m A d D t.
Proof. unfold exact, one_d_term, one_d_pulse_decay. rewrite pulse_is. reflexivity. Qed.
Lemma run_rate o s A vA Ea R_ T : arrhenius_units o = Ok s -> constant A s = Ok vA ->
  exact erf (rate_term vA Ea R_ T) = arrhenius o [AVal (VNum A); AVal Ea; AVal R_; AVal T] [].
Proof.
  intros hu hA. rewrite (ak_run o s A vA) by assumption. unfold exact, rate_term. cbn [teval]. rewrite plain_is. cbn [fexp Rfn bind]. rewrite fun_is. reflexivity.
Qed.
Lemma run_energy o s A vA R_ T k : arrhenius_units o = Ok s -> constant A s = Ok vA ->
  exact erf (energy_term vA R_ T k) = arrhenius o [AVal (VNum A); ANone; AVal R_; AVal T; AVal k] [].
Proof.
  intros hu hA. rewrite (ae_run o s A vA VNone) by assumption. unfold exact, energy_term. cbn [teval]. rewrite plain_is. cbn [flog Rfn bind]. rewrite log_is. reflexivity.
Qed.
Lemma run_temperature o s A vA Ea R_ k : arrhenius_units o = Ok s -> constant A s = Ok vA ->
  exact erf (rate_temperature_term vA Ea R_ k) = arrhenius o [AVal (VNum A); AVal Ea; AVal R_; ANone; AVal k] [].
Proof.
  intros hu hA. rewrite (at_run o s A vA _ _ VNone) by assumption. unfold exact, rate_temperature_term. cbn [teval]. rewrite plain_is. cbn [flog Rfn bind]. rewrite log_is. reflexivity.
Qed.
End Runs.
