(** * FuncCallFacts: proofs about the calls of the functions of math *)
From Coq Require Import String List ZArith QArith Qcanon Bool Reals Lra Lia.
From Verif Require Import Py Num NumFacts UnitsData UnitsStruct Units Expr Spec Rounding Formulas RoundSpec RoundFacts RoundErr FactorFacts ParamFacts Func FuncSpec FuncErr FuncFacts FuncCount FuncPulse FuncCalls.
Import ListNotations.
Local Open Scope R_scope.

(** ** Functions that agree where they are called *)
Lemma same_calls a m m' (P : fname -> R -> Prop) : m_pi m = m_pi m' -> (forall f x, (f = NLog -> 0 < x) -> P f x -> computed m f x = computed m' f x) ->
  forall t env, calls a m P env t -> runs a m env t = runs a m' env t.
Proof.
  intros hp h. unfold runs. induction t as [v| |n|t IHt s IHs|t IHt s IHs|t IHt s IHs|t IHt s IHs|t IHt s IHs|t IHt k|t IHt|t IHt|t IHt|t IHt|t IHt]; cbn [calls teval]; intros env hc.
  - reflexivity.
  - cbn. rewrite hp. reflexivity.
  - reflexivity.
  - destruct hc as (h1 & h2). rewrite <- (IHt env h1). unfold runs, on_result in h2. destruct (teval _ env t); [|reflexivity]. cbn [bind]. apply IHs, h2.
  - destruct hc as (h1 & h2). rewrite <- (IHt env h1). unfold runs, on_result in h2. destruct (teval _ env t); [|reflexivity]. cbn [bind]. rewrite (IHs env h2). reflexivity.
  - destruct hc as (h1 & h2). rewrite <- (IHt env h1). unfold runs, on_result in h2. destruct (teval _ env t); [|reflexivity]. cbn [bind]. rewrite (IHs env h2). reflexivity.
  - destruct hc as (h1 & h2). rewrite <- (IHt env h1). unfold runs, on_result in h2. destruct (teval _ env t); [|reflexivity]. cbn [bind]. rewrite (IHs env h2). reflexivity.
  - destruct hc as (h1 & h2). rewrite <- (IHt env h1). unfold runs, on_result in h2. destruct (teval _ env t); [|reflexivity]. cbn [bind]. rewrite (IHs env h2). reflexivity.
  - rewrite (IHt env hc). reflexivity.
  - rewrite (IHt env hc). reflexivity.
  - destruct hc as (h1 & h2). rewrite <- (IHt env h1). unfold runs, on_result in h2. destruct (teval _ env t) as [[x| | |w|w]|]; try reflexivity. cbn [bind on_number]. cbn [call] in h2. change (Ok (VNum (m_exp m x)) = Ok (VNum (m_exp m' x))). f_equal. f_equal. apply (h NExp); [discriminate|exact h2].
  - destruct hc as (h1 & h2). rewrite <- (IHt env h1). unfold runs, on_result in h2. destruct (teval _ env t) as [[x| | |w|w]|]; try reflexivity. cbn [bind on_number]. cbn [call] in h2. cbn [flog Ffn]. unfold Rlog. destruct (Rltb 0 x) eqn:e; [|reflexivity]. apply Rltb_true in e.
    cbn [rmap]. f_equal. f_equal. apply (h NLog); [intros; exact e|exact (h2 e)].
  - destruct hc as (h1 & h2). rewrite <- (IHt env h1). unfold runs, on_result in h2. destruct (teval _ env t) as [[x| | |w|w]|]; try reflexivity. cbn [bind on_number]. cbn [call] in h2. change (Ok (VNum (m_sin m x)) = Ok (VNum (m_sin m' x))). f_equal. f_equal. apply (h NSin); [discriminate|exact h2].
  - destruct hc as (h1 & h2). rewrite <- (IHt env h1). unfold runs, on_result in h2. destruct (teval _ env t) as [[x| | |w|w]|]; try reflexivity. cbn [bind on_number]. cbn [call] in h2. change (Ok (VNum (m_erf m x)) = Ok (VNum (m_erf m' x))). f_equal. f_equal. apply (h NErf); [discriminate|exact h2].
Qed.
Definition mended (v : R) (erf : R -> R) (m : funs) (f : fname) (x : R) : R :=
  if Rle_dec (Rabs (computed m f x - meant erf f x)) (v * Rabs (meant erf f x)) then computed m f x else meant erf f x.
Lemma mended_near v erf m f x : 0 <= v -> near1 v (meant erf f x) (mended v erf m f x).
Proof.
  intro h. unfold mended, near1. destruct (Rle_dec _ _) as [k|k]; [exact k|]. unfold Rminus. rewrite Rplus_opp_r, Rabs_R0. apply Rmult_le_pos; [exact h|apply Rabs_pos].
Qed.
Lemma calls_local u v L erf a m t : 0 <= v -> near1 u PI (m_pi m) -> (forall x y, Rabs (erf y - erf x) <= L * Rabs (y - x)) ->
  calls a m (accurate_at v erf m) [] t -> exists m', accurate_fun u v L erf m' /\ floats a m t = floats a m' t.
Proof.
  intros hv hp hl hc. exists (Funs (m_pi m) (mended v erf m NExp) (mended v erf m NLog) (mended v erf m NSin) (mended v erf m NErf)). split.
  - unfold accurate_fun. cbn [m_pi m_exp m_log m_sin m_erf]. split; [exact hp|]. split; [intro; apply (mended_near v erf m NExp), hv|]. split; [intros; apply (mended_near v erf m NLog), hv|].
    split; [intro; apply (mended_near v erf m NSin), hv|]. split; [intro; apply (mended_near v erf m NErf), hv|exact hl].
  - apply (same_calls a m _ (accurate_at v erf m)); [reflexivity| |exact hc]. intros f x _ h.
    assert (e : mended v erf m f x = computed m f x) by (unfold mended; destruct (Rle_dec _ _) as [k|k]; [reflexivity|contradiction]).
    destruct f; symmetry; exact e.
Qed.

(** ** Signs in exact arithmetic *)
Lemma value_sign v x : (0 <= x -> 0 <= value (setv v x)) /\ (x <= 0 -> value (setv v x) <= 0).
Proof. destruct v; cbn; lra. Qed.
Lemma nn_value v : not_negative v <-> 0 <= value v.
Proof. destruct v; cbn; split; intros; try exact I; try assumption; lra. Qed.
Lemma s_mul a b r : py_mul a b = Ok r -> 0 <= value b -> (0 <= value a -> 0 <= value r) /\ (value a <= 0 -> value r <= 0).
Proof.
  intros h hb. destruct (mul_ok a b r h) as (c & s & hs & _ & -> & _). destruct (value_sign c (value a * value b * s)) as (p & q). split; intro ha.
  - apply p. apply Rmult_le_pos; [apply Rmult_le_pos; assumption|lra].
  - apply q. assert (k : 0 <= - value a * value b * s) by (apply Rmult_le_pos; [apply Rmult_le_pos; lra|lra]). lra.
Qed.
Lemma div_hollow a b r : ~ carries b -> py_div a b = Ok r -> value r = 0.
Proof. destruct b as [| | |u|m]; cbn [carries]; intro hb; try tauto; destruct a; cbn; intro h; try discriminate h; injection h as <-; reflexivity. Qed.
Lemma s_div a b r : py_div a b = Ok r -> 0 <= value b -> (0 <= value a -> 0 <= value r) /\ (value a <= 0 -> value r <= 0).
Proof.
  intros h hb. assert (d : carries b \/ ~ carries b) by (destruct b; cbn; tauto). destruct d as [d|d]; [|rewrite (div_hollow a b r d h); split; lra].
  destruct (div_ok a b r d h) as (c & s & hs & _ & hn & -> & _). destruct (value_sign c (value a / value b * s)) as (p & q).
  assert (hi : 0 < / value b) by (apply Rinv_0_lt_compat; lra). split; intro ha.
  - apply p. apply Rmult_le_pos; [apply Rmult_le_pos; lra|lra].
  - apply q. assert (k : 0 <= - value a * / value b * s) by (apply Rmult_le_pos; [apply Rmult_le_pos; lra|lra]). unfold Rdiv. lra.
Qed.
Lemma s_neg a r : py_neg a = Ok r -> value r = - value a.
Proof. intro h. destruct (neg_ok a r h) as (c & hc & -> & _). apply value_setv, hc. Qed.
Lemma s_square a r : py_pow a (eint 2) = Ok r -> 0 <= value r.
Proof.
  assert (k : forall x : R, @npow R Rnum x (ev (eint 2)) = Ok (x ^ 2)).
  { intro x. change (Rpowq x (qc 2) = Ok (x ^ 2)). rewrite Rpowq_int by (right; lia). reflexivity. }
  destruct a as [x| | |u|m]; cbn [py_pow]; intro h; try discriminate h.
  - rewrite k in h. injection h as <-. apply pow2_ge_0.
  - unfold unit_pow in h. rewrite k in h. cbn [bind] in h.
    destruct (mk_acts (uc u) (un u) (emul (ue u) (eint 2))) as [(er & e)|(w & e)]; rewrite e in h; [discriminate h|]. injection h as <-. cbn. apply pow2_ge_0.
  - unfold multi_pow in h. destruct (reduce_tail _ _ _ _) as [q|]; [|discriminate h]. cbn [bind] in h. rewrite k in h. injection h as <-. apply pow2_ge_0.
Qed.

(** ** The same signs in floats *)
Lemma plain_products e : no_sums e -> products (plain e).
Proof. induction e; cbn; tauto. Qed.
Section Signs.
Variable u : R.
Hypothesis hu : 0 <= u <= / 100.
Lemma hu1 : 0 <= u < 1.
Proof. lra. Qed.
Variable a : arith.
Hypothesis ha : accurate u a.
Variable m : funs.
Lemma env_close : forall env, near_env u env env (map fresh env).
Proof. induction env as [|v env ih]; cbn; [exact I|]. split; [apply fresh_close|exact ih]. Qed.
Lemma within_signs n x y : within u n x y -> (0 <= x -> 0 <= y) /\ (x <= 0 -> y <= 0).
Proof.
  intro w. pose proof (within_sign u hu1 n x y w) as p. pose proof (within_eq u hu1 n x y w) as e.
  assert (d : 0 < y \/ y = 0 \/ y < 0) by lra. split; intro h; destruct d as [d|[d|d]]; try lra.
Qed.
Notation exactly := (@teval R Rnum (Rfn (fun x => x)) (fun v => v)).
Lemma float_signs t env y : products t -> runs a m env t = Ok y -> exists x, exactly env t = Ok x /\
  (0 <= value x -> 0 <= value y) /\ (value x <= 0 -> value y <= 0).
Proof.
  intros ht hy. pose proof (run_products u hu a ha (fun x => x) m t ht env env _ (env_close env)) as k. apply rr_tight in k. unfold runs in hy. rewrite hy in k.
  destruct (exactly env t) as [x|er]; [|contradiction]. exists x. split; [reflexivity|]. destruct k as (z & _ & k).
  destruct x as [x| | |[c1 x n1 e1]|[c1 x p1 q1]], y as [y| | |[c2 y n2 e2]|[c2 y p2 q2]], z as [z| | |[c3 z n3 e3]|[c3 z p3 q3]]; cbn in k; try contradiction; cbn [value]; try lra.
  - eapply within_signs, k.
  - destruct k as (_ & _ & _ & _ & _ & _ & k). eapply within_signs, k.
  - destruct k as (_ & _ & _ & _ & _ & _ & k). eapply within_signs, k.
Qed.
(** ** The exponents *)
Ltac steps := repeat match goal with
  | h : bind ?r _ = Ok _ |- _ => let v := fresh "v" in let e := fresh "e" in destruct r as [v|] eqn:e; cbn [bind] in h; [|discriminate h]
  | h : Ok ?x = Ok ?y |- _ => injection h as h; subst
  end.
Lemma exponent_call t env : products t -> (forall x, exactly env t = Ok x -> value x <= 0) -> on_result (runs a m env t) (call exp_below_0 NExp).
Proof.
  intros ht h. destruct (runs a m env t) as [y|] eqn:e; [|exact I]. destruct (float_signs t env y ht e) as (x & ex & _ & k). specialize (h x ex). specialize (k h).
  destruct y; cbn; try exact I. intros _. exact k.
Qed.
Lemma product_calls P : forall t env, products t -> calls a m P env t.
Proof.
  induction t as [v| |n|t IHt s IHs|t IHt s IHs|t IHt s IHs|t IHt s IHs|t IHt s IHs|t IHt k|t IHt|t IHt|t IHt|t IHt|t IHt]; cbn [products calls]; intros env h; try contradiction; try exact I; try (apply IHt; exact h).
  - destruct h as (h & h'). split; [apply IHt, h|]. destruct (runs a m env t); cbn; [apply IHs, h'|exact I].
  - destruct h as (h & h'). split; [apply IHt, h|]. destruct (runs a m env t); cbn; [apply IHs, h'|exact I].
  - destruct h as (h & h'). split; [apply IHt, h|]. destruct (runs a m env t); cbn; [apply IHs, h'|exact I].
Qed.
Lemma exp_calls t env : products t -> (forall x, exactly env t = Ok x -> value x <= 0) -> calls a m exp_below_0 env (TExp t).
Proof. intros ht h. split; [apply product_calls, ht|apply exponent_call; assumption]. Qed.
Lemma on_any r (Q : pyval R -> Prop) : (forall x, Q x) -> on_result r Q.
Proof. destruct r; cbn; auto. Qed.
Lemma calls_mul P env s t : calls a m P env s -> calls a m P env t -> calls a m P env (TMul s t).
Proof. split; [assumption|apply on_any; intro; assumption]. Qed.
Lemma calls_div P env s t : calls a m P env s -> calls a m P env t -> calls a m P env (TDiv s t).
Proof. split; [assumption|apply on_any; intro; assumption]. Qed.
Lemma calls_add P env s t : calls a m P env s -> calls a m P env t -> calls a m P env (TAdd s t).
Proof. split; [assumption|apply on_any; intro; assumption]. Qed.
Lemma calls_sub P env s t : calls a m P env s -> calls a m P env t -> calls a m P env (TSub s t).
Proof. split; [assumption|apply on_any; intro; assumption]. Qed.
Lemma calls_let P env s t : calls a m P env s -> (forall x, runs a m env s = Ok x -> calls a m P (x :: env) t) -> calls a m P env (TLet s t).
Proof. intros h k. split; [assumption|]. destruct (runs a m env s); cbn; auto. Qed.
Lemma calls_sin env s : calls a m exp_below_0 env s -> calls a m exp_below_0 env (TSin s).
Proof. intro h. split; [assumption|]. apply on_any. intros [x| | |w|w]; cbn; try exact I. discriminate. Qed.
Lemma calls_sum P env f n : (forall k, calls a m P env (f k)) -> calls a m P env (sum_term f n).
Proof. intro h. induction n as [|n IH]; [exact I|]. apply calls_add; auto. Qed.
Ltac signs := repeat match goal with
  | e : py_mul _ ?y = Ok ?r, hy : 0 <= value ?y, hx : 0 <= value ?x |- _ => match type of e with py_mul x y = _ => pose proof (proj1 (s_mul x y r e hy) hx); clear e end
  | e : py_div _ ?y = Ok ?r, hy : 0 <= value ?y, hx : 0 <= value ?x |- _ => match type of e with py_div x y = _ => pose proof (proj1 (s_div x y r e hy) hx); clear e end
  | e : py_pow _ (eint 2) = Ok ?r |- _ => pose proof (s_square _ _ e); clear e
  | e : py_neg _ = Ok _ |- _ => apply s_neg in e
  end.
Lemma lumped_calls Tf To h A rho cP V t : not_negative h -> not_negative A -> not_negative rho -> not_negative cP -> not_negative V -> not_negative t ->
  calls a m exp_below_0 [] (lumped_term Tf To h A rho cP V t).
Proof.
  intros h1 h2 h3 h4 h5 h6. rewrite nn_value in *. apply calls_sub; [exact I|]. apply calls_mul; [apply calls_sub; exact I|].
  apply exp_calls; [apply plain_products; cbn; tauto|]. intros x hx. cbn [plain lumped_exponent teval bind] in hx. steps. signs.
  eapply s_div; [eassumption|assumption|lra].
Qed.
Lemma pulse_exponent_calls env d D t : not_negative D -> not_negative t -> calls a m exp_below_0 env (TExp (plain (pulse_exponent d D t))).
Proof.
  intros h1 h2. rewrite nn_value in *. apply exp_calls; [apply plain_products; cbn; tauto|]. intros x hx. cbn [plain pulse_exponent teval bind] in hx. steps.
  assert (k : 0 <= value (@VNum R 4)) by (cbn; lra). signs. eapply s_div; [eassumption|assumption|lra].
Qed.
Lemma pi_calls P env D t : calls a m P env (pulse_spread D t).
Proof. unfold pulse_spread. repeat apply calls_mul; exact I. Qed.
Lemma three_d_calls mass d D t shape : not_negative D -> not_negative t -> calls a m exp_below_0 [] (three_d_term mass d D t shape).
Proof.
  intros h1 h2. apply calls_let.
  - unfold pulse_mass. destruct (String.eqb shape "hemisphere"); [apply calls_mul; exact I|]. destruct (String.eqb shape "cube"); [apply calls_mul; exact I|exact I].
  - intros. apply calls_let; [apply calls_mul; [exact I|apply pulse_exponent_calls; assumption]|]. intros. apply calls_let; [cbn [calls]; apply pi_calls|]. intros. apply calls_div; exact I.
Qed.
Lemma two_d_calls mass len d D t : not_negative D -> not_negative t -> calls a m exp_below_0 [] (two_d_term mass len d D t).
Proof.
  intros h1 h2. apply calls_let; [apply calls_div; exact I|].
  intros. apply calls_let; [apply calls_mul; [exact I|apply pulse_exponent_calls; assumption]|]. intros. apply calls_let; [apply pi_calls|]. intros. apply calls_div; exact I.
Qed.
Lemma one_d_calls mass area d D t : not_negative D -> not_negative t -> calls a m exp_below_0 [] (one_d_term mass area d D t).
Proof.
  intros h1 h2. apply calls_let; [apply calls_div; exact I|].
  intros. apply calls_let; [apply calls_mul; [exact I|apply pulse_exponent_calls; assumption]|]. intros. apply calls_let; [cbn [calls]; apply pi_calls|]. intros. apply calls_div; exact I.
Qed.
Lemma rate_calls A Ea R_ T : not_negative Ea -> not_negative R_ -> not_negative T -> calls a m exp_below_0 [] (rate_term A Ea R_ T).
Proof.
  intros h1 h2 h3. rewrite nn_value in *. apply calls_mul; [exact I|]. apply exp_calls; [apply plain_products; cbn; tauto|]. intros x hx. cbn [plain rate_exponent teval bind] in hx. steps.
  signs. eapply s_div; [eassumption|assumption|lra].
Qed.
(** The exponent of a slab, with pi a number. *)
Definition decay_exponent (p : R) (alpha time s : term) (n : nat) : term :=
  TMul (TNeg (TPow (TMul (num (odd_ n)) (TDiv (num p) (num 2))) (eint 2))) (TDiv (TMul alpha time) (TPow s (eint 2))).
Lemma decay_calls alpha env t s n : 0 <= value alpha -> not_negative t -> calls a m exp_below_0 (alpha :: env) (slab_decay (TVar 0) (TLeaf t) (TLeaf s) n).
Proof.
  intros h1 h2. rewrite nn_value in h2.
  assert (k : calls a m exp_below_0 (alpha :: env) (TExp (decay_exponent (m_pi m) (TVar 0) (TLeaf t) (TLeaf s) n))).
  { apply exp_calls; [cbn; tauto|]. intros x hx. cbn [decay_exponent teval bind nth_error] in hx. steps. signs. eapply s_mul; [eassumption|assumption|lra]. }
  split; [|exact (proj2 k)]. apply calls_mul; [|apply calls_div; [apply calls_mul; exact I|exact I]]. cbn [calls]. split; [exact I|]. apply on_any. intros _. split; [exact I|]. apply on_any. intros _. exact I.
Qed.
Lemma alpha_sign env k rho Cp x : not_negative k -> not_negative rho -> not_negative Cp -> runs a m env (TDiv (TLeaf k) (TMul (TLeaf rho) (TLeaf Cp))) = Ok x -> 0 <= value x.
Proof.
  intros h1 h2 h3 hx. rewrite nn_value in *. assert (ht : products (TDiv (TLeaf k) (TMul (TLeaf rho) (TLeaf Cp)))) by (cbn; tauto). destruct (float_signs _ _ _ ht hx) as (y & ey & p & _).
  apply p. cbn [teval bind] in ey. steps. signs. assumption.
Qed.
Lemma slab_calls Ts To x s k rho Cp t n : not_negative k -> not_negative rho -> not_negative Cp -> not_negative t -> calls a m exp_below_0 [] (finite_slab_term Ts To x s k rho Cp t n).
Proof.
  intros h1 h2 h3 h4. apply calls_let; [apply calls_div; [exact I|apply calls_mul; exact I]|]. intros al hal. apply alpha_sign in hal; try assumption.
  apply calls_let.
  - apply calls_sum. intro i. apply calls_mul; [|apply decay_calls; assumption]. apply calls_mul; [apply calls_div; exact I|]. apply calls_sin, calls_div; repeat apply calls_mul; exact I.
  - intros. apply calls_sub; [exact I|]. repeat apply calls_mul; exact I.
Qed.
Lemma heat_calls s rho cp Ts To k t area n : not_negative k -> not_negative rho -> not_negative cp -> not_negative t -> calls a m exp_below_0 [] (total_heat_term s rho cp Ts To k t area n).
Proof.
  intros h1 h2 h3 h4. apply calls_let; [apply calls_div; [|exact I]; repeat apply calls_mul; exact I|]. intros w _.
  apply calls_let; [apply calls_div; [exact I|apply calls_mul; exact I]|]. intros al hal. apply alpha_sign in hal; try assumption.
  apply calls_let.
  - apply calls_sum. intro i. apply calls_mul; [apply calls_div; exact I|]. apply calls_sub; [exact I|apply decay_calls; assumption].
  - intros. apply calls_mul; exact I.
Qed.
End Signs.
