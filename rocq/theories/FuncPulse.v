(** * FuncPulse: the errors of pulses and pipes *)
From Coq Require Import Ascii String List ZArith QArith Qcanon Bool Reals Qreals Lia Lra.
From Verif Require Import Py Num NumFacts UnitsData UnitsStruct Units Expr Solve Formulas Rounding RoundSpec RoundFacts RoundErr RoundCases SumSpec SumErr Func FuncSpec FuncErr FuncFacts FuncBounds FuncDecay FuncMean FuncCount.
Import ListNotations.
Local Open Scope string_scope.
Local Open Scope list_scope.
Local Open Scope R_scope.

Fixpoint products (t : term) : Prop :=
  match t with
  | TLeaf _ | TVar _ => True
  | TLet a b | TMul a b | TDiv a b => products a /\ products b
  | TPow a _ | TNeg a => products a
  | _ => False
  end.
Lemma grows u n : 0 <= u < 1 -> exp (INR n * u) <= / (1 - u) ^ n.
Proof.
  intro hu. assert (k : exp u <= / (1 - u)).
  { pose proof (exp_ineq1_le (- u)) as h. rewrite <- (Rinv_inv (exp u)) by (pose proof (exp_pos u); lra). rewrite <- exp_Ropp. apply Rinv_le_contravar; lra. }
  induction n as [|n ih]; [cbn; rewrite Rmult_0_l, exp_0; lra|]. rewrite S_INR, Rmult_plus_distr_r, Rmult_1_l, exp_plus. cbn [pow]. rewrite Rinv_mult, Rmult_comm.
  apply Rmult_le_compat; auto; left; apply exp_pos.
Qed.
Lemma shrinks u n : 0 <= u < 1 -> (1 - u) ^ n <= exp (- (INR n * u)).
Proof.
  intro hu. rewrite exp_Ropp. pose proof (base_pos u hu n) as p. rewrite <- (Rinv_inv ((1 - u) ^ n)) by lra. apply Rinv_le_contravar; [apply exp_pos|apply grows; exact hu].
Qed.
(** With the exponential and pi as variables a pulse is the same. *)
Lemma pulse_same {T} {N : Num T} {F : Fn T} (leaf : pyval R -> pyval T) E mass bottom bottom' d D t :
  (forall l, teval leaf l (TExp (plain (pulse_exponent d D t))) = Ok (VNum E)) ->
  (forall l, teval leaf [] mass = teval leaf l mass) ->
  (forall p q, teval leaf [p; q] bottom = teval leaf [p; q; VNum E; VNum fpi] bottom') ->
  teval leaf [] (pulse_term mass bottom d D t) = teval leaf [VNum E; VNum fpi] (pulse_shape mass bottom').
Proof.
  intros he hm hb. unfold pulse_term, pulse_shape. cbn [teval]. cbn [teval] in he. rewrite <- (hm [VNum E; VNum fpi]). destruct (teval leaf [] mass) as [p|e]; cbn [bind nth_error]; [|reflexivity].
  rewrite he. cbn [bind]. destruct (py_mul p (VNum E)) as [q|e]; cbn [bind]; [|reflexivity]. rewrite hb. destruct (teval leaf [q; p; VNum E; VNum fpi] bottom') as [r|e]; reflexivity.
Qed.
Section Counted.
Variables u L : R.
Hypothesis hu : 0 <= u <= / 100.
Variable a : arith.
Hypothesis ha : accurate u a.
Variable erf : R -> R.
Variable m : funs.
Hypothesis hm : accurate_fun u u L erf m.
Lemma u1 : 0 <= u < 1. Proof. lra. Qed.
Notation close := (RoundErr.close u).
Definition near_env : list (pyval R) -> list (pyval R) -> list (pyval nat) -> Prop :=
  fix go x y z := match x, y, z with
    | nil, nil, nil => True
    | p :: x, q :: y, r :: z => relv close p q r /\ go x y z
    | _, _, _ => False
    end.
Lemma env_nth : forall x y z n, near_env x y z ->
  rr false (relv close) (match nth_error x n with Some v => Ok v | None => Raise EUnboundLocalError end)
    (match nth_error y n with Some v => Ok v | None => Raise EUnboundLocalError end) (match nth_error z n with Some v => Ok v | None => Raise EUnboundLocalError end).
Proof.
  induction x as [|p x ih]; intros [|q y] [|r z] n h; try contradiction; [destruct n; apply rr_raise|]. destruct h as [h1 h2]. destruct n as [|n]; [apply rr_ok; exact h1|cbn [nth_error]; apply ih; exact h2].
Qed.
Lemma run_products t : products t -> forall x y z, near_env x y z ->
  rr false (relv close) (@teval R Rnum (Rfn erf) (fun v => v) x t) (@teval R (Fnum a) (Ffn m) (fun v => v) y t) (@teval nat Cnum Cfn fresh z t).
Proof.
  induction t as [v| |n|t IHt s IHs|t IHt s IHs|t IHt s IHs|t IHt s IHs|t IHt s IHs|t IHt k|t IHt|t IHt|t IHt|t IHt|t IHt]; cbn [products teval]; intros h x y z hz; try contradiction.
  - apply rr_ok, fresh_close.
  - apply env_nth, hz.
  - destruct h as (h & h'). eapply rr_bind; [apply IHt; assumption|]. intros p q r hp. apply IHs; [exact h'|split; assumption].
  - destruct h as (h & h'). eapply rr_bind; [apply IHt; assumption|]. intros p q r hp. eapply rr_bind; [apply IHs; assumption|]. intros p' q' r' hp'.
    apply (rr_mul false close (fun _ => True)); auto using (c_lit u u1 a ha), (c_mul u u1 a ha), (c_div u u1 a ha), (c_pow u u1 a ha).
  - destruct h as (h & h'). eapply rr_bind; [apply IHt; assumption|]. intros p q r hp. eapply rr_bind; [apply IHs; assumption|]. intros p' q' r' hp'.
    apply (rr_divide false close (fun _ => True)); auto using (c_lit u u1 a ha), (c_mul u u1 a ha), (c_div u u1 a ha), (c_pow u u1 a ha).
  - eapply rr_bind; [apply IHt; assumption|]. intros p q r hp. apply (rr_power false close); auto using (c_pow u u1 a ha).
  - eapply rr_bind; [apply IHt; assumption|]. intros p q r hp. apply (rr_neg false close); auto using (c_opp u a).
Qed.
(** The count bounds the relative error. *)
Lemma counted_error t x y z : products t -> near_env x y z -> INR (roundings_from z t) * u <= / 100 ->
  same_outcome (near1 (1.02 * (INR (roundings_from z t) * u))) (@teval R Rnum (Rfn erf) (fun v => v) x t) (@teval R (Fnum a) (Ffn m) (fun v => v) y t).
Proof.
  intros ht hz hn. pose proof (run_products t ht x y z hz) as k. unfold roundings_from in *. apply rr_tight in k.
  destruct (@teval R Rnum (Rfn erf) (fun v => v) x t) as [p|e], (@teval R (Fnum a) (Ffn m) (fun v => v) y t) as [q|e']; try contradiction; [|exact k].
  destruct k as (r & er & k). rewrite er in *. cbn [same_outcome].
  assert (b : forall n s s', INR n * u <= / 100 -> within u n s s' -> near1 (1.02 * (INR n * u)) s s').
  { intros n s s' h1 h2. pose proof (within_bound u u1 n s s' h1 h2) as w. unfold near1. lra. }
  destruct p as [p| | |p|p], q as [q| | |q|q], r as [r| | |r|r]; cbn in k; try contradiction; cbn [same_but]; try exact I.
  - apply b; assumption.
  - destruct k as (k1 & _ & k2 & _ & k3 & _ & k). do 3 (split; [congruence|]). apply b; assumption.
  - destruct k as (k1 & _ & k2 & _ & k3 & _ & k). do 3 (split; [congruence|]). apply b; assumption.
Qed.
(** exp of a number known up to [n] roundings. *)
Lemma exp_within n K x y : INR n * u <= / 100 -> 1.02 * Rabs x * INR n <= INR K -> within u n x y -> within u (S K) (exp x) (m_exp m y).
Proof.
  intros hn hK hw. pose proof (within_bound u u1 n x y hn hw) as w. destruct hm as (_ & he & _). replace (S K) with (K + 1)%nat by lia.
  apply (within_trans u u1 _ _ _ (exp y)); [|apply (near_within u u1), he]. exists (exp (y - x)). split.
  - assert (d : Rabs (y - x) <= INR K * u). { apply Rle_trans with (1 := w). replace (1.02 * INR n * u * Rabs x) with (1.02 * Rabs x * INR n * u) by ring. apply Rmult_le_compat_r; lra. }
    apply Rabs_le_inv in d. pose proof (grows u K u1) as g. pose proof (shrinks u K u1) as s.
    assert (mono : forall p q, p <= q -> exp p <= exp q) by (intros p q [h| ->]; [left; apply exp_increasing; exact h|lra]).
    pose proof (mono _ _ (proj1 d)). pose proof (mono _ _ (proj2 d)). lra.
  - rewrite <- exp_plus. f_equal. ring.
Qed.
(** log of such a number. *)
Lemma log_within n K x y : 0 < x -> INR n * u <= / 100 -> 1.05 * INR n <= INR K * Rabs (ln x) -> INR K * u <= / 50 -> x <> 1 ->
  within u n x y -> 0 < y /\ within u (S K) (ln x) (m_log m y).
Proof.
  intros hx hn hK hk1 h1 hw. destruct (ln_within u hu n x y hx hn hw) as (hy & d). split; [exact hy|].
  destruct hm as (_ & _ & hl & _). replace (S K) with (K + 1)%nat by lia.
  apply (within_trans u u1 _ _ _ (ln y)); [|apply (near_within u u1), hl, hy].
  assert (l0 : ln x <> 0) by (intro e; apply h1; apply ln_inv; [exact hx|lra|rewrite ln_1; exact e]).
  assert (p : 0 < Rabs (ln x)) by (apply Rabs_pos_lt; exact l0).
  set (s := INR K * u) in *. assert (hs : 0 <= s) by (apply Rmult_le_pos; [apply pos_INR|lra]).
  assert (q : 1.05 * (INR n * u) <= s * Rabs (ln x)). { unfold s. replace (1.05 * (INR n * u)) with (1.05 * INR n * u) by ring. replace (INR K * u * Rabs (ln x)) with (INR K * Rabs (ln x) * u) by ring. apply Rmult_le_compat_r; lra. }
  exists (ln y / ln x). split; [|field; exact l0].
  assert (e : Rabs (ln y / ln x - 1) <= s / 1.029).
  { replace (ln y / ln x - 1) with ((ln y - ln x) / ln x) by (field; exact l0). unfold Rdiv at 1. rewrite Rabs_mult, Rabs_inv.
    apply (Rmult_le_reg_r (Rabs (ln x))); [exact p|]. rewrite Rmult_assoc, Rinv_l, Rmult_1_r by lra. assert (1.02 * (INR n * u) <= s / 1.029 * Rabs (ln x)); [|lra].
    replace (s / 1.029 * Rabs (ln x)) with (s * Rabs (ln x) / 1.029) by (field; lra). assert (0 <= INR n * u) by (apply Rmult_le_pos; [apply pos_INR|lra]). lra. }
  apply Rabs_le_inv in e. pose proof (grows u K u1) as g. pose proof (shrinks u K u1) as sh. fold s in g, sh. pose proof (exp_ineq1_le s) as x1. split; [|lra].
  assert (x2 : exp (- s) <= 1 - s / 1.029).
  { rewrite exp_Ropp. apply Rle_trans with (/ (1 + s)); [apply Rinv_le_contravar; lra|]. apply (Rmult_le_reg_r (1 + s)); [lra|]. rewrite Rinv_l by lra.
    assert (0 <= s * (1.029 - 1 - s)) by (apply Rmult_le_pos; lra). assert (x3 : (1 - s / 1.029) * (1 + s) = 1 + s * (1.029 - 1 - s) / 1.029) by (field; lra). rewrite x3. lra. }
  lra.
Qed.
Lemma pi_within : within u 1 PI (m_pi m).
Proof. apply (near_within u u1). apply hm. Qed.
Section Pulse.
Variables d D t : pyval R.
Variable x : R.
Let n := roundings (pulse_exponent d D t).
Hypothesis hx : eval (pulse_exponent d D t) = Ok (VNum x).
Hypothesis hn : INR n * u <= / 100.
Variable K : nat.
Hypothesis hK : 1.02 * Rabs x * INR n <= INR K.
Notation counts := [VNum (S K); VNum 1%nat].
Lemma exponent_known : exists y, feval a (pulse_exponent d D t) = Ok (VNum y) /\ within u (S K) (exp x) (m_exp m y).
Proof.
  destruct (number_known u hu a ha (pulse_exponent d D t) x ltac:(cbn; tauto) hx) as (y & ey & w & _). exists y. split; [exact ey|]. apply (exp_within n); assumption.
Qed.
Lemma exp_exact l : @teval R Rnum (Rfn erf) (fun v => v) l (TExp (plain (pulse_exponent d D t))) = Ok (VNum (exp x)).
Proof. cbn [teval]. rewrite plain_is, hx. reflexivity. Qed.
Lemma exp_float y l : feval a (pulse_exponent d D t) = Ok (VNum y) -> @teval R (Fnum a) (Ffn m) (fun v => v) l (TExp (plain (pulse_exponent d D t))) = Ok (VNum (m_exp m y)).
Proof. intro e. cbn [teval]. rewrite plain_floats, e. reflexivity. Qed.
Lemma mass_any {T} {N : Num T} {F : Fn T} (leaf : pyval R -> pyval T) mass shape l : teval leaf [] (pulse_mass mass shape) = teval leaf l (pulse_mass mass shape).
Proof. unfold pulse_mass. destruct (String.eqb shape "hemisphere"); [reflexivity|]. destruct (String.eqb shape "cube"); reflexivity. Qed.
Lemma three_d_error mass shape : INR (roundings_from counts (three_d_shape mass D t shape)) * u <= / 100 ->
  same_outcome (near1 (1.02 * (INR (roundings_from counts (three_d_shape mass D t shape)) * u))) (three_d_pulse_decay mass d D t shape) (floats a m (three_d_term mass d D t shape)).
Proof.
  intro hN. destruct exponent_known as (y & ey & w). rewrite <- (run_three_d erf).
  assert (hp : products (three_d_shape mass D t shape)).
  { unfold three_d_shape, pulse_mass. destruct (String.eqb shape "hemisphere"); [cbn; tauto|]. destruct (String.eqb shape "cube"); cbn; tauto. }
  assert (he : near_env [VNum (exp x); VNum PI] [VNum (m_exp m y); VNum (m_pi m)] counts) by (cbn; repeat split; [exact w|exact pi_within]).
  pose proof (counted_error _ _ _ _ hp he hN) as k.
  unfold exact, floats, three_d_term. rewrite (pulse_same _ (exp x) _ _ (TPow (spread_shape D t) (eflt (Q2Qc (3 # 2))))), (pulse_same _ (m_exp m y) _ _ (TPow (spread_shape D t) (eflt (Q2Qc (3 # 2))))); auto using exp_exact, mass_any.
  intro l. apply exp_float. exact ey.
Qed.
Lemma two_d_error mass len : INR (roundings_from counts (two_d_shape mass len D t)) * u <= / 100 ->
  same_outcome (near1 (1.02 * (INR (roundings_from counts (two_d_shape mass len D t)) * u))) (two_d_pulse_decay mass len d D t) (floats a m (two_d_term mass len d D t)).
Proof.
  intro hN. destruct exponent_known as (y & ey & w). rewrite <- (run_two_d erf).
  assert (he : near_env [VNum (exp x); VNum PI] [VNum (m_exp m y); VNum (m_pi m)] counts) by (cbn; repeat split; [exact w|exact pi_within]).
  pose proof (counted_error (two_d_shape mass len D t) _ _ _ ltac:(cbn; tauto) he hN) as k.
  unfold exact, floats, two_d_term. rewrite (pulse_same _ (exp x) _ _ (spread_shape D t)), (pulse_same _ (m_exp m y) _ _ (spread_shape D t)); auto using exp_exact.
  intro l. apply exp_float. exact ey.
Qed.
Lemma one_d_error mass area : INR (roundings_from counts (one_d_shape mass area D t)) * u <= / 100 ->
  same_outcome (near1 (1.02 * (INR (roundings_from counts (one_d_shape mass area D t)) * u))) (one_d_pulse_decay mass area d D t) (floats a m (one_d_term mass area d D t)).
Proof.
  intro hN. destruct exponent_known as (y & ey & w). rewrite <- (run_one_d erf).
  assert (he : near_env [VNum (exp x); VNum PI] [VNum (m_exp m y); VNum (m_pi m)] counts) by (cbn; repeat split; [exact w|exact pi_within]).
  pose proof (counted_error (one_d_shape mass area D t) _ _ _ ltac:(cbn; tauto) he hN) as k.
  unfold exact, floats, one_d_term. rewrite (pulse_same _ (exp x) _ _ (TPow (spread_shape D t) half_)), (pulse_same _ (m_exp m y) _ _ (TPow (spread_shape D t) half_)); auto using exp_exact.
  intro l. apply exp_float. exact ey.
Qed.
End Pulse.
Lemma once_near p q : same_but (near1 u) p q -> relv close p q (once p).
Proof.
  destruct p as [p| | |p|p], q as [q| | |q|q]; cbn; try contradiction; try exact (fun h => h).
  - apply (near_within u u1).
  - intros (h1 & h2 & h3 & h). unfold relu. cbn. repeat split; try congruence. apply (near_within u u1), h.
  - intros (h1 & h2 & h3 & h). unfold relm. cbn. repeat split; try congruence. apply (near_within u u1), h.
Qed.
Lemma pipe_error k T1 T2 len r2 r1 p x : py_sub T2 T1 = Ok p -> eval (EDiv (ELeaf r2) (ELeaf r1)) = Ok (VNum x) -> 0 < x -> x <> 1 ->
  INR (roundings (EDiv (ELeaf r2) (ELeaf r1))) * u <= / 100 -> forall K, 1.05 * INR (roundings (EDiv (ELeaf r2) (ELeaf r1))) <= INR K * Rabs (ln x) -> INR K * u <= / 50 ->
  let N := roundings_from [VNum 1%nat; once p; VNum (S K)] (pipe_shape k len) in
  INR N * u <= / 100 ->
  same_outcome (near1 (1.02 * (INR N * u))) (pipe_heat k T1 T2 len r2 r1) (floats a m (pipe_term k T1 T2 len r2 r1)).
Proof.
  intros hp hx h0 h1 hn K hK hk N hN. rewrite <- (run_pipe erf). pose proof (sub_near u a ha T2 T1) as np. rewrite hp in np.
  destruct (@py_sub R (Fnum a) T2 T1) as [p'|] eqn:ep; [|contradiction]. cbn [same_outcome] in np.
  destruct (number_known u hu a ha (EDiv (ELeaf r2) (ELeaf r1)) x ltac:(cbn; tauto) hx) as (y & ey & w & _).
  destruct (log_within _ K x y h0 hn hK hk h1 w) as (hy & wl).
  assert (he : near_env [VNum PI; p; VNum (ln x)] [VNum (m_pi m); p'; VNum (m_log m y)] [VNum 1%nat; once p; VNum (S K)]).
  { split; [exact pi_within|]. split; [apply once_near; exact np|]. split; [exact wl|exact I]. }
  pose proof (counted_error (pipe_shape k len) _ _ _ ltac:(cbn; tauto) he hN) as r. fold N in r. set (P := near1 _) in *. clearbody P N.
  unfold eval, feval in hx, ey. cbn [geval bind] in hx, ey.
  unfold exact, floats, pipe_term, pipe_shape in *. cbn [teval bind nth_error] in *. rewrite hp, ep, hx, ey. cbn [bind on_number flog Rfn Ffn fpi]. rewrite !Rlog_pos by assumption. cbn [rmap bind]. exact r.
Qed.
Lemma pipe_mass_error D C1 C2 len r2 r1 p x : py_sub C2 C1 = Ok p -> eval (EDiv (ELeaf r2) (ELeaf r1)) = Ok (VNum x) -> 0 < x -> x <> 1 ->
  INR (roundings (EDiv (ELeaf r2) (ELeaf r1))) * u <= / 100 -> forall K, 1.05 * INR (roundings (EDiv (ELeaf r2) (ELeaf r1))) <= INR K * Rabs (ln x) -> INR K * u <= / 50 ->
  let N := roundings_from [VNum 1%nat; once p; VNum (S K)] (pipe_shape D len) in
  INR N * u <= / 100 ->
  same_outcome (near1 (1.02 * (INR N * u))) (pipe_mass_transfer D r2 r1 C2 C1 len) (floats a m (pipe_term D C1 C2 len r2 r1)).
Proof. intros. rewrite <- (run_pipe_mass erf), (run_pipe erf). eapply pipe_error; eassumption. Qed.
End Counted.
