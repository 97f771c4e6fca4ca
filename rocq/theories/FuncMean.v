(** * FuncMean: the error of the log-mean temperature difference *)
From Coq Require Import Ascii String List ZArith QArith Qcanon Bool Reals Qreals Lia Lra.
From Verif Require Import Py Num NumFacts UnitsData UnitsStruct Units Expr Solve Formulas Rounding RoundSpec RoundFacts RoundErr RoundCases SumSpec SumErr Func FuncSpec FuncErr FuncFacts FuncBounds FuncDecay.
Import ListNotations.
Local Open Scope string_scope.
Local Open Scope list_scope.
Local Open Scope R_scope.

Lemma ln_upper f : 0 < f -> ln f <= f - 1.
Proof. intro h. pose proof (exp_ineq1_le (ln f)) as k. rewrite exp_ln in k by assumption. lra. Qed.
Lemma ln_share x y : 0 < x -> 0 < y -> Rabs (x - y) <= (x + y) * Rabs (ln (x / y)).
Proof.
  assert (k : forall x y, 0 < x -> 0 < y -> x - y <= (x + y) * Rabs (ln (x / y))).
  { intros p q hp hq. destruct (Rle_lt_dec p q) as [l|l]; [assert (0 <= (p + q) * Rabs (ln (p / q))) by (apply Rmult_le_pos; [lra|apply Rabs_pos]); lra|].
    assert (hr : 0 < q / p) by (apply Rdiv_lt_0_compat; lra). pose proof (ln_upper _ hr) as h.
    assert (e : ln (p / q) = - ln (q / p)) by (rewrite <- ln_Rinv by assumption; f_equal; field; lra).
    assert (h2 : (p - q) / p <= Rabs (ln (p / q))). { eapply Rle_trans; [|apply Rle_abs]. rewrite e. replace ((p - q) / p) with (1 - q / p) by (field; lra). lra. }
    replace (p - q) with (p * ((p - q) / p)) by (field; lra). pose proof (Rabs_pos (ln (p / q))).
    assert (p * ((p - q) / p) <= p * Rabs (ln (p / q))) by (apply Rmult_le_compat_l; lra). assert (0 <= q * Rabs (ln (p / q))) by (apply Rmult_le_pos; lra). lra. }
  intros hx hy. unfold Rabs at 1. destruct (Rcase_abs (x - y)); [|apply k; assumption]. pose proof (k y x hy hx) as h.
  replace (ln (y / x)) with (- ln (x / y)) in h; [rewrite Rabs_Ropp in h; lra|]. rewrite <- ln_Rinv by (apply Rdiv_lt_0_compat; assumption). f_equal. field. lra.
Qed.
Lemma quotient_share N l n' l' nu la : 0 <= nu -> 0 <= la <= / 20 -> l <> 0 -> Rabs (n' - N) <= nu * Rabs N -> Rabs (l' - l) <= la * Rabs l ->
  l' <> 0 /\ Rabs (n' / l' - N / l) <= 1.06 * (nu + la) * Rabs (N / l).
Proof.
  intros hn hl h0 h1 h2. assert (pl : 0 < Rabs l) by (apply Rabs_pos_lt; assumption).
  assert (low : 0.95 * Rabs l <= Rabs l').
  { pose proof (Rabs_triang (l - l') l') as t. replace (l - l' + l') with l in t by ring. rewrite <- Rabs_Ropp in h2. replace (- (l' - l)) with (l - l') in h2 by ring.
    assert (la * Rabs l <= / 20 * Rabs l) by (apply Rmult_le_compat_r; lra). lra. }
  assert (n0 : l' <> 0) by (intros ->; rewrite Rabs_R0 in low; lra). split; [exact n0|].
  replace (n' / l' - N / l) with (((n' - N) * l - N * (l' - l)) / (l' * l)) by (field; tauto).
  unfold Rdiv. rewrite !Rabs_mult, !Rabs_inv, Rabs_mult. set (A := Rabs l) in *. set (B := Rabs l') in *. set (C := Rabs N) in *.
  assert (num : Rabs ((n' - N) * l - N * (l' - l)) <= (nu + la) * (C * A)).
  { unfold Rminus at 1. eapply Rle_trans; [apply Rabs_triang|]. rewrite Rabs_Ropp, !Rabs_mult. fold A C.
    assert (Rabs (n' - N) * A <= nu * C * A) by (apply Rmult_le_compat_r; lra). assert (C * Rabs (l' - l) <= C * (la * A)) by (apply Rmult_le_compat_l; [apply Rabs_pos|lra]). lra. }
  assert (hB : 0 < B) by lra. apply (Rmult_le_reg_r (B * A)); [apply Rmult_lt_0_compat; assumption|].
  rewrite Rmult_assoc, Rinv_l by (apply Rgt_not_eq, Rmult_lt_0_compat; assumption).
  replace (1.06 * (nu + la) * (C * / A) * (B * A)) with ((nu + la) * C * (1.06 * B)) by (field; lra). rewrite Rmult_1_r.
  eapply Rle_trans; [exact num|]. rewrite <- Rmult_assoc. apply Rmult_le_compat_l; [apply Rmult_le_pos; [lra|apply Rabs_pos]|lra].
Qed.

Section Mean.
Variables u v L : R.
Hypothesis hu : 0 <= u <= / 100.
Hypothesis hv : 0 <= v <= / 100.
Variable a : arith.
Hypothesis ha : accurate u a.
Variable erf : R -> R.
Variable m : funs.
Hypothesis hm : accurate_fun u v L erf m.

Lemma near_pos x y : 0 < x -> near1 u x y -> 0 < y.
Proof. unfold near1. intros h k. rewrite (Rabs_pos_eq x) in k by lra. apply Rabs_le_inv in k. assert (u * x <= / 100 * x) by (apply Rmult_le_compat_r; lra). lra. Qed.
(** The logarithm of a quotient known up to [n] roundings. *)
Lemma ln_within n r s : 0 < r -> INR n * u <= / 100 -> within u n r s -> 0 < s /\ Rabs (ln s - ln r) <= 1.02 * (INR n * u).
Proof.
  intros hr hn (f & (f1 & f2) & ->). assert (u1 : 0 <= u < 1) by lra. pose proof (base_pos u u1 n) as bp. pose proof (base_inv u u1 n) as bi.
  destruct (growth_bound u n u1 hn) as (_ & g1). assert (fp : 0 < f) by lra. split; [apply Rmult_lt_0_compat; assumption|]. rewrite ln_mult by assumption.
  replace (ln r + ln f - ln r) with (ln f) by ring. apply Rabs_le. pose proof (ln_upper f fp) as h1. split; [|lra].
  assert (ip : 0 < / f) by (apply Rinv_0_lt_compat; assumption). pose proof (ln_upper (/ f) ip) as h2. rewrite ln_Rinv in h2 by assumption.
  assert (/ f <= / (1 - u) ^ n) by (apply Rinv_le_contravar; assumption). lra.
Qed.
Lemma mean_number x y x' y' : 0 < x -> 0 < y -> x <> y -> near1 u x x' -> near1 u y y' -> (x + y) / Rabs (x - y) * u <= / 300 ->
  0 < x / y /\ ln (x / y) <> 0 /\ y' <> 0 /\ 0 < a_div a x' y' /\ m_log m (a_div a x' y') <> 0 /\
  near1 (7 * ((x + y) / Rabs (x - y) * u) + 1.1 * v) ((x - y) / ln (x / y)) (a_div a (a_sub a x' y') (m_log m (a_div a x' y'))).
Proof.
  intros hx hy ne nx ny hk. destruct ha as (_ & hs & _ & hd & _). destruct hm as (_ & _ & hl & _). assert (u1 : 0 <= u < 1) by lra.
  pose proof (near_pos x x' hx nx) as px. pose proof (near_pos y y' hy ny) as py. assert (y0 : y' <> 0) by lra.
  assert (hr : 0 < x / y) by (apply Rdiv_lt_0_compat; assumption).
  pose proof (hd x' y' y0) as nq. set (q := a_div a x' y') in *. pose proof (hs x' y') as nN. set (N' := a_sub a x' y') in *.
  set (k := (x + y) / Rabs (x - y)) in *.
  assert (pd : 0 < Rabs (x - y)) by (apply Rabs_pos_lt; lra).
  assert (k1 : 1 <= k). { unfold k. apply (Rmult_le_reg_r (Rabs (x - y))); [assumption|]. unfold Rdiv. rewrite Rmult_assoc, Rinv_l by lra. rewrite Rmult_1_l, Rmult_1_r. apply Rabs_le. lra. }
  assert (ku : u <= k * u). { rewrite <- (Rmult_1_l u) at 1. apply Rmult_le_compat_r; lra. }
  assert (wq : within u 3 (x / y) q).
  { replace 3%nat with (1 + 1 + 1)%nat by reflexivity. apply (within_trans u u1 _ _ _ (x' / y')); [|apply (near_within u u1); exact nq]. apply (within_div u u1); [lra|apply (near_within u u1); assumption|apply (near_within u u1); assumption]. }
  destruct (ln_within 3 _ _ hr ltac:(cbn; lra) wq) as (pq & lq). replace (1.02 * (INR 3 * u)) with (3.06 * u) in lq by (cbn; lra).
  pose proof (hl q pq) as nl. set (l' := m_log m q) in *. set (l := ln (x / y)) in *.
  assert (kl : 1 <= k * Rabs l).
  { unfold k. apply (Rmult_le_reg_r (Rabs (x - y))); [assumption|]. replace ((x + y) / Rabs (x - y) * Rabs l * Rabs (x - y)) with ((x + y) * Rabs l) by (field; lra).
    rewrite Rmult_1_l. apply ln_share; assumption. }
  assert (l0 : l <> 0) by (intro e; rewrite e, Rabs_R0 in kl; lra).
  assert (kx : (x + y) = k * Rabs (x - y)) by (unfold k; field; lra).
  clearbody q N' l' k. clear hs hd hl.
  (* the numerator *)
  set (N := x - y) in *. assert (dN : Rabs (x' - y' - N) <= k * u * Rabs N).
  { unfold near1 in nx, ny. rewrite (Rabs_pos_eq x) in nx by lra. rewrite (Rabs_pos_eq y) in ny by lra. replace (x' - y' - N) with ((x' - x) + - (y' - y)) by (unfold N; ring).
    eapply Rle_trans; [apply Rabs_triang|]. rewrite Rabs_Ropp. assert (u * (x + y) = k * u * Rabs N) by (rewrite kx; ring). lra. }
  assert (hN : Rabs (N' - N) <= 2.02 * (k * u) * Rabs N).
  { unfold near1 in nN. replace (N' - N) with ((N' - (x' - y')) + (x' - y' - N)) by ring. eapply Rle_trans; [apply Rabs_triang|].
    assert (Rabs (x' - y') <= (1 + k * u) * Rabs N). { pose proof (Rabs_triang (x' - y' - N) N) as t. replace (x' - y' - N + N) with (x' - y') in t by ring. lra. }
    assert (u * Rabs (x' - y') <= u * ((1 + k * u) * Rabs N)) by (apply Rmult_le_compat_l; lra).
    assert (s1 : u * (1 + k * u) <= 1.01 * (k * u)). { assert (u * (1 + k * u) <= u * 1.01) by (apply Rmult_le_compat_l; lra). lra. }
    assert (u * (1 + k * u) * Rabs N <= 1.01 * (k * u) * Rabs N) by (apply Rmult_le_compat_r; lra).
    assert (0 <= k * u * Rabs N) by (apply Rmult_le_pos; lra). lra. }
  (* the logarithm *)
  assert (hlog : Rabs (l' - l) <= (3.1 * (k * u) + v) * Rabs l).
  { unfold near1 in nl. set (z := ln q) in *. replace (l' - l) with ((l' - z) + (z - l)) by ring. eapply Rle_trans; [apply Rabs_triang|].
    assert (Rabs z <= Rabs l + 3.06 * u). { pose proof (Rabs_triang (z - l) l) as t. replace (z - l + l) with z in t by ring. lra. }
    assert (v * Rabs z <= v * (Rabs l + 3.06 * u)) by (apply Rmult_le_compat_l; lra).
    assert (v * (3.06 * u) <= / 100 * (3.06 * u)) by (apply Rmult_le_compat_r; lra).
    assert (u * 1 <= u * (k * Rabs l)) by (apply Rmult_le_compat_l; lra). lra. }
  destruct (quotient_share N l N' l' (2.02 * (k * u)) (3.1 * (k * u) + v) ltac:(lra) ltac:(lra) l0 hN hlog) as (l1 & hq).
  do 5 (split; [assumption|]). pose proof (proj1 (proj2 (proj2 (proj2 ha)))) as hd. pose proof (hd N' l' l1) as nz. set (Z := N / l) in *. set (Z' := N' / l') in *.
  unfold near1 in *. replace (a_div a N' l' - Z) with ((a_div a N' l' - Z') + (Z' - Z)) by ring. eapply Rle_trans; [apply Rabs_triang|].
  assert (aZ : Rabs Z' <= Rabs Z + 1.06 * (2.02 * (k * u) + (3.1 * (k * u) + v)) * Rabs Z).
  { pose proof (Rabs_triang (Z' - Z) Z) as t. replace (Z' - Z + Z) with Z' in t by ring. lra. }
  set (e := 1.06 * (2.02 * (k * u) + (3.1 * (k * u) + v))) in *. assert (e1 : 0 <= e <= 0.07) by (unfold e; lra). pose proof (Rabs_pos Z) as pz.
  assert (u * Rabs Z' <= u * (Rabs Z + e * Rabs Z)) by (apply Rmult_le_compat_l; lra).
  assert (e * Rabs Z <= 0.07 * Rabs Z) by (apply Rmult_le_compat_r; lra).
  assert (u * (Rabs Z + e * Rabs Z) <= u * (1.07 * Rabs Z)) by (apply Rmult_le_compat_l; lra).
  assert (u * (1.07 * Rabs Z) <= k * u * (1.07 * Rabs Z)) by (apply Rmult_le_compat_r; lra).
  assert ((e + 1.07 * (k * u)) * Rabs Z <= (7 * (k * u) + 1.1 * v) * Rabs Z) by (apply Rmult_le_compat_r; [lra|unfold e; lra]). lra.
Qed.
Notation fsub := (@py_sub R (Fnum a)).
Lemma sub_near p q : same_outcome (near1 u) (py_sub p q) (fsub p q).
Proof.
  pose proof (proj1 (proj2 ha)) as hs.
  destruct p as [p| | |p|p], q as [q| | |q|q]; cbn [py_sub unit_addsub multi_sub nsub Rnum Fnum same_outcome]; try reflexivity; try apply hs.
  - destruct (mk_unit_shape (uc p) (un p) (eint 1)) as [(x & hx)|(i & f & hx)]; rewrite !hx; cbn [vunit rmap same_outcome same_but uc un ue uv]; [reflexivity|].
    do 3 (split; [reflexivity|]). apply hs.
  - destruct (ucls_sub (uc q) (uc p)); [|reflexivity]. destruct (String.eqb (un p) (un q) && eeqb (ue p) (ue q))%bool; [|reflexivity].
    destruct (mk_unit_shape (uc p) (un p) (ue p)) as [(x & hx)|(i & f & hx)]; rewrite !hx; cbn [vunit rmap same_outcome same_but uc un ue uv]; [reflexivity|].
    do 3 (split; [reflexivity|]). apply hs.
  - destruct (half_eqb (mtop p) (mtop q) && half_eqb (mbot p) (mbot q))%bool; [|reflexivity]. cbn [same_outcome same_but mc mv mtop mbot]. do 3 (split; [reflexivity|]). apply hs.
Qed.
Lemma nonzero (y : R) : y <> 0 -> @neqb R Rnum y (@nq R Rnum 0%Q) = false.
Proof. intro h. cbn [neqb nq Rnum]. apply Reqb_false. intro e. apply h. rewrite e. unfold Q2R. cbn. lra. Qed.
Lemma nonzero_f (y : R) : y <> 0 -> @neqb R (Fnum a) y (@nq R (Fnum a) 0%Q) = false.
Proof.
  intro h. cbn [neqb nq Fnum]. destruct ha as (_ & _ & _ & _ & _ & hz & _). specialize (hz 0%Z ltac:(cbn; lia)). change (inject_Z 0) with 0%Q in hz. rewrite hz. apply Reqb_false. exact h.
Qed.
Lemma pydiv_r (x y : R) : y <> 0 -> @pydiv R Rnum x y = Ok (x / y).
Proof. intro h. unfold pydiv. rewrite nonzero by exact h. reflexivity. Qed.
Lemma pydiv_f (x y : R) : y <> 0 -> @pydiv R (Fnum a) x y = Ok (a_div a x y).
Proof. intro h. unfold pydiv. rewrite nonzero_f by exact h. reflexivity. Qed.
Lemma Rlog_pos (f : R -> R) x : 0 < x -> Rlog f x = Ok (f x).
Proof. intro h. unfold Rlog. rewrite (proj2 (Rltb_true 0 x) h). reflexivity. Qed.

Lemma mean_error T0A T1A T0B T1B p q : py_sub T0A T1B = Ok p -> py_sub T1A T0B = Ok q ->
  let x := number (Ok p) in let y := number (Ok q) in
  0 < x -> 0 < y -> x <> y -> (x + y) / Rabs (x - y) * u <= / 300 ->
  same_outcome (near1 (7 * ((x + y) / Rabs (x - y) * u) + 1.1 * v)) (deltat_logmean T0A T1A T0B T1B false) (floats a m (log_mean_term T0A T1A T0B T1B)).
Proof.
  intros hp hq x y hx hy hne hk. rewrite <- (run_log_mean erf). unfold exact, floats, log_mean_term. cbn [teval bind nth_error].
  pose proof (sub_near T0A T1B) as np. pose proof (sub_near T1A T0B) as nq. rewrite hp in np |- *. rewrite hq in nq |- *.
  destruct (fsub T0A T1B) as [p'|]; [|contradiction]. destruct (fsub T1A T0B) as [q'|]; [|contradiction]. cbn [bind nth_error same_outcome] in *.
  destruct p as [p| | |p|p], p' as [p'| | |p'|p']; try contradiction; cbn [number] in x; try (exfalso; unfold x in hx; lra);
    destruct q as [q| | |q|q], q' as [q'| | |q'|q']; try contradiction; cbn [number] in y; try (exfalso; unfold y in hy; lra); cbn [same_but] in np, nq;
    cbn [py_sub unit_addsub multi_sub py_div unit_div multi_div]; try reflexivity.
  - destruct (mean_number x y p' q' hx hy hne np nq hk) as (e1 & e2 & e3 & e4 & e5 & e6). cbn [bind nsub Rnum Fnum]. rewrite pydiv_r, pydiv_f by (assumption || (fold y; lra)).
    cbn [rmap bind on_number flog Rfn Ffn]. fold x y. rewrite !Rlog_pos by assumption. cbn [rmap bind py_div]. rewrite pydiv_r, pydiv_f by assumption. exact e6.
  - destruct np as (c1 & c2 & c3 & np). rewrite <- c1, <- c2. destruct (mk_unit_shape (uc p) (un p) (eint 1)) as [(z & hz)|(i & f & hz)]; rewrite !hz; [reflexivity|].
    cbn [vunit rmap bind]. pose proof (near_pos y q' hy nq) as q0. rewrite pydiv_r, pydiv_f by (unfold y in *; lra). cbn [bind].
    destruct (mk_unit_shape (uc p) (un p) (ue p)) as [(w & hw)|(j & g & hw)]; rewrite <- ?c3, !hw; reflexivity.
  - destruct np as (c1 & c2 & c3 & np), nq as (d1 & d2 & d3 & nq). rewrite <- c1, <- c2, <- c3, <- d1, <- d2, <- d3.
    destruct (mean_number x y (uv p') (uv q') hx hy hne np nq hk) as (e1 & e2 & e3 & e4 & e5 & e6).
    destruct (ucls_sub (uc q) (uc p)); [|reflexivity]. destruct (String.eqb (un p) (un q)) eqn:en; cbn [andb]; [|reflexivity]. destruct (eeqb (ue p) (ue q)); [|reflexivity].
    destruct (mk_unit_shape (uc p) (un p) (ue p)) as [(w & hw)|(j & g & hw)]; rewrite !hw; [reflexivity|]. cbn [vunit rmap bind nsub Rnum Fnum].
    rewrite pydiv_r, pydiv_f by (assumption || (fold y; lra)). cbn [bind].
    destruct (e_is (esub (ue p) (ue q)) 0).
    + cbn [bind on_number rmap flog Rfn Ffn]. fold x y. rewrite !Rlog_pos by assumption. cbn [rmap bind py_div unit_div uv]. rewrite pydiv_r, pydiv_f by assumption. cbn [bind uc un ue].
      destruct (mk_unit_shape (uc p) j g) as [(z & hz)|(i & f & hz)]; rewrite !hz; [reflexivity|]. cbn [vunit rmap same_outcome same_but uc un ue uv]. do 3 (split; [reflexivity|]). exact e6.
    + destruct (mk_unit_shape (uc p) (un p) (esub (ue p) (ue q))) as [(z & hz)|(i & f & hz)]; rewrite !hz; reflexivity.
  - destruct np as (c1 & c2 & c3 & np), nq as (d1 & d2 & d3 & nq). rewrite <- c2, <- c3, <- d2, <- d3.
    destruct (mean_number x y (mv p') (mv q') hx hy hne np nq hk) as (e1 & e2 & e3 & e4 & e5 & e6).
    destruct (half_eqb (mtop p) (mtop q) && half_eqb (mbot p) (mbot q))%bool; [|reflexivity]. cbn [bind nsub Rnum Fnum].
    rewrite pydiv_r, pydiv_f by (assumption || (fold y; lra)). cbn [rmap bind on_number flog Rfn Ffn]. fold x y. rewrite !Rlog_pos by assumption. cbn [rmap bind py_div multi_div mv mtop mbot].
    rewrite pydiv_r, pydiv_f by assumption. cbn [bind rmap same_outcome same_but mc mv mtop mbot]. do 3 (split; [reflexivity|]). exact e6.
Qed.
End Mean.
