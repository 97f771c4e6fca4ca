(** * FuncDecay: the errors of the lumped-parameter temperature *)
From Coq Require Import Ascii String List ZArith QArith Qcanon Bool Reals Qreals Lia Lra.
From Verif Require Import Py Num NumFacts UnitsData UnitsStruct Units Expr Solve Formulas Rounding RoundSpec RoundFacts RoundErr RoundCases SumSpec SumErr Func FuncSpec FuncErr FuncFacts FuncBounds.
Import ListNotations.
Local Open Scope string_scope.
Local Open Scope list_scope.
Local Open Scope R_scope.

(** A constructor looks at the names, never at the number. *)
Lemma mk_unit_shape c n e :
  (exists x, forall T (v : T), mk_unit c v n e = Raise x) \/ (exists k f, forall T (v : T), mk_unit c v n e = Ok (UO c v k f)).
Proof.
  assert (s : forall c, (exists x, forall T (v : T), split_caret c v n e = Raise x) \/ (exists k f, forall T (v : T), split_caret c v n e = Ok (UO c v k f))).
  { intro d. unfold split_caret. destruct (has_char "^"%char n); [|right; eauto]. destruct (split_on "^"%char n) as [|i [|j [|]]]; try (left; eauto; fail).
    destruct (py_float j) as [q|x]; cbn [bind]; [right|left]; eauto. }
  destruct c; cbn [mk_unit]; try apply s; try (right; eauto; fail);
    match goal with |- context [mem_str ?i ?j] => destruct (mem_str i j) end; (right; eauto; fail) || (left; eauto).
Qed.

Lemma wider c d X Y : c <= d -> same_outcome (apart c) X Y -> same_outcome (apart d) X Y.
Proof.
  intros h. assert (k : forall x y, apart c x y -> apart d x y) by (unfold apart; intros; lra).
  destruct X as [[x| | |x|x]|], Y as [[y| | |y|y]|]; cbn [same_outcome same_but]; try tauto; [apply k| |]; intros (h1 & h2 & h3 & h4); repeat split; try assumption; apply k; assumption.
Qed.

Section Decay.
Variables u v L : R.
Hypothesis hu : 0 <= u <= / 100.
Hypothesis hv : 0 <= v <= / 100.
Hypothesis hL : 0 <= L.
Variable a : arith.
Hypothesis ha : accurate u a.
Variable erf : R -> R.
Variable m : funs.
Hypothesis hm : accurate_fun u v L erf m.

Lemma near_abs x y : near1 u x y -> Rabs y <= (1 + u) * Rabs x.
Proof. unfold near1. intro h. pose proof (Rabs_triang (y - x) x) as t. replace (y - x + x) with y in t by ring. lra. Qed.
(** Tf - (Tf - To) * E with E known up to d. *)
Lemma mix_error p q E F e : 0 <= E <= 1 -> 0 <= e -> Rabs (F - E) <= e ->
  Rabs (a_sub a p (a_mul a (a_sub a p q) F) - (p - (p - q) * E)) <= (3.1 * u + 1.04 * e) * (Rabs p + Rabs q).
Proof.
  intros hE he hF. destruct ha as (_ & hs & hmu & _). pose proof (hs p q) as h1. pose proof (hmu (a_sub a p q) F) as h2. pose proof (hs p (a_mul a (a_sub a p q) F)) as h3.
  set (D' := a_sub a p q) in *. set (P' := a_mul a D' F) in *. set (X := a_sub a p P') in *. clearbody D' P' X. unfold near1 in *.
  set (D := p - q) in *. set (M := Rabs p + Rabs q). assert (hD : Rabs D <= M) by (unfold D, M; pose proof (Rabs_triang p (- q)) as t; rewrite Rabs_Ropp in t; exact t).
  assert (aD : 0 <= Rabs D) by apply Rabs_pos.
  assert (aF : Rabs F <= E + e). { pose proof (Rabs_triang (F - E) E) as t. replace (F - E + E) with F in t by ring. rewrite (Rabs_pos_eq E) in t by lra. lra. }
  pose proof (Rabs_pos F) as pF.
  (* P' against D * E *)
  assert (k1 : Rabs (D' * F - D * E) <= Rabs D * (u * (E + e) + e)).
  { replace (D' * F - D * E) with ((D' - D) * F + D * (F - E)) by ring. eapply Rle_trans; [apply Rabs_triang|]. rewrite !Rabs_mult.
    assert (Rabs (D' - D) * Rabs F <= u * Rabs D * (E + e)) by (apply Rmult_le_compat; auto using Rabs_pos).
    assert (Rabs D * Rabs (F - E) <= Rabs D * e) by (apply Rmult_le_compat_l; assumption). lra. }
  assert (k2 : Rabs (D' * F) <= Rabs D * ((1 + u) * (E + e))).
  { rewrite Rabs_mult. assert (Rabs D' <= (1 + u) * Rabs D) by (apply near_abs; exact h1).
    assert (Rabs D' * Rabs F <= (1 + u) * Rabs D * (E + e)) by (apply Rmult_le_compat; auto using Rabs_pos). lra. }
  set (w := u * (E + e)) in *. assert (hw : 0 <= w) by (apply Rmult_le_pos; lra).
  assert (w1 : w <= u + / 100 * e).
  { assert (u * E <= u * 1) by (apply Rmult_le_compat_l; lra). assert (u * e <= / 100 * e) by (apply Rmult_le_compat_r; lra). unfold w. lra. }
  assert (k3 : Rabs (P' - D * E) <= Rabs D * (2.01 * u + 1.021 * e)).
  { replace (P' - D * E) with ((P' - D' * F) + (D' * F - D * E)) by ring. eapply Rle_trans; [apply Rabs_triang|].
    assert (u * Rabs (D' * F) <= u * (Rabs D * ((1 + u) * (E + e)))) by (apply Rmult_le_compat_l; lra).
    assert (u * w <= / 100 * w) by (apply Rmult_le_compat_r; lra).
    assert (Rabs D * (w + (u * w + w + e)) <= Rabs D * (2.01 * u + 1.021 * e)) by (apply Rmult_le_compat_l; lra).
    assert (u * (Rabs D * ((1 + u) * (E + e))) = Rabs D * (w + u * w)) by (unfold w; ring).
    replace (Rabs D * (w + (u * w + w + e))) with (Rabs D * (w + u * w) + Rabs D * (w + e)) in * by ring.
    lra. }
  set (Y := p - D * E). assert (hY : Rabs Y <= M).
  { unfold Y, D. replace (p - (p - q) * E) with (p * (1 - E) + q * E) by ring. eapply Rle_trans; [apply Rabs_triang|]. rewrite !Rabs_mult, (Rabs_pos_eq (1 - E)), (Rabs_pos_eq E) by lra.
    assert (Rabs p * (1 - E) <= Rabs p * 1) by (apply Rmult_le_compat_l; [apply Rabs_pos|lra]).
    assert (Rabs q * E <= Rabs q * 1) by (apply Rmult_le_compat_l; [apply Rabs_pos|lra]). unfold M. lra. }
  set (Z := Rabs (P' - D * E)) in *. assert (hZ : Z <= M * (2.01 * u + 1.021 * e)).
  { eapply Rle_trans; [exact k3|]. apply Rmult_le_compat_r; lra. }
  assert (k4 : Rabs (p - P' - Y) = Z) by (unfold Z, Y; rewrite <- Rabs_Ropp; f_equal; ring).
  assert (k5 : Rabs (p - P') <= M + Z). { pose proof (Rabs_triang (p - P' - Y) Y) as t. replace (p - P' - Y + Y) with (p - P') in t by ring. lra. }
  replace (X - Y) with ((X - (p - P')) + (p - P' - Y)) by ring. eapply Rle_trans; [apply Rabs_triang|]. rewrite k4.
  assert (u * Rabs (p - P') <= u * (M + Z)) by (apply Rmult_le_compat_l; lra).
  assert (zz : 0 <= Z) by apply Rabs_pos. assert (u * Z <= / 100 * Z) by (apply Rmult_le_compat_r; lra).
  assert (M * u >= 0 /\ M * e >= 0) as (m1 & m2) by (split; apply Rle_ge, Rmult_le_pos; lra).
  lra.
Qed.
(** The same for values of any class. *)
Lemma mix_outcome Tf To E F e : 0 <= E <= 1 -> 0 <= e -> Rabs (F - E) <= e ->
  same_outcome (apart ((3.1 * u + 1.04 * e) * (Rabs (number (Ok Tf)) + Rabs (number (Ok To)))))
    (let* d := @py_sub R Rnum Tf To in let* w := @py_mul R Rnum d (VNum E) in @py_sub R Rnum Tf w)
    (let* d := @py_sub R (Fnum a) Tf To in let* w := @py_mul R (Fnum a) d (VNum F) in @py_sub R (Fnum a) Tf w).
Proof.
  intros hE he hF. pose proof (fun p q => mix_error p q E F e hE he hF) as fin.
  destruct Tf as [p| | |p|p], To as [q| | |q|q]; cbn [py_sub unit_addsub multi_sub bind on_number rmap fexp Rfn Ffn py_mul nmul nsub Rnum Fnum number same_outcome]; try reflexivity; try (exact (fin _ _)).
  - destruct (mk_unit_shape (uc p) (un p) (eint 1)) as [(x & hx)|(i & f & hx)]; rewrite !hx; cbn [vunit rmap bind same_outcome]; [reflexivity|].
    destruct (mk_unit_shape (uc p) i (eint 1)) as [(x & hy)|(j & g & hy)]; cbn [py_mul unit_mul uc uv un ue nmul Rnum Fnum vunit rmap bind]; rewrite !hy; cbn [vunit rmap bind same_outcome]; [reflexivity|].
    cbn [py_sub unit_addsub nsub Rnum Fnum uc uv un ue]. destruct (ucls_sub (uc p) (uc p)); [|cbn [bind vunit rmap same_outcome]; reflexivity]. destruct (String.eqb (un p) j && eeqb (ue p) g)%bool; [|cbn [bind vunit rmap same_outcome]; reflexivity].
    destruct (mk_unit_shape (uc p) (un p) (ue p)) as [(x & hz)|(o & b & hz)]; rewrite !hz; cbn [vunit rmap bind same_outcome same_but uc un ue uv]; [reflexivity|]. repeat (split; [reflexivity|]). exact (fin _ _).
  - destruct (ucls_sub (uc q) (uc p)); [|cbn [bind vunit rmap same_outcome]; reflexivity]. destruct (String.eqb (un p) (un q) && eeqb (ue p) (ue q))%bool; [|cbn [bind vunit rmap same_outcome]; reflexivity].
    destruct (mk_unit_shape (uc p) (un p) (ue p)) as [(x & hx)|(i & f & hx)]; rewrite !hx; cbn [vunit rmap bind same_outcome]; [reflexivity|].
    destruct (mk_unit_shape (uc p) i (eint 1)) as [(x & hy)|(j & g & hy)]; cbn [py_mul unit_mul uc uv un ue nmul Rnum Fnum vunit rmap bind]; rewrite !hy; cbn [vunit rmap bind same_outcome]; [reflexivity|].
    cbn [py_sub unit_addsub nsub Rnum Fnum uc uv un ue]. destruct (ucls_sub (uc p) (uc p)); [|cbn [bind vunit rmap same_outcome]; reflexivity]. destruct (String.eqb (un p) j && eeqb (ue p) g)%bool; [|cbn [bind vunit rmap same_outcome]; reflexivity].
    rewrite !hx; cbn [vunit rmap bind same_outcome same_but uc un ue uv]. repeat (split; [reflexivity|]). exact (fin _ _).
  - destruct (half_eqb (mtop p) (mtop q) && half_eqb (mbot p) (mbot q))%bool; [|cbn [bind vunit rmap same_outcome]; reflexivity]. cbn [bind py_mul py_sub multi_sub nsub multi_mul mv mc mtop mbot nmul Rnum Fnum].
    destruct (half_eqb (mtop p) (mtop p) && half_eqb (mbot p) (mbot p))%bool; [|cbn [bind vunit rmap same_outcome]; reflexivity]. cbn [same_outcome same_but mv mc mtop mbot]. repeat (split; [reflexivity|]). exact (fin _ _).
Qed.
Lemma lumped_error Tf To h A rho cP V t s : eval (lumped_exponent h A rho cP V t) = Ok (VNum (- s)) -> 0 <= s ->
  INR (roundings (lumped_exponent h A rho cP V t)) * u <= / 100 ->
  same_outcome (apart ((0.6 * (INR (roundings (lumped_exponent h A rho cP V t)) * u) + 4 * u + 1.1 * v) * (Rabs (number (Ok Tf)) + Rabs (number (Ok To)))))
    (lumped_parameter Tf To h A rho cP V t) (floats a m (lumped_term Tf To h A rho cP V t)).
Proof.
  intros he hs hn. rewrite <- (run_lumped erf). set (n := roundings _) in *.
  destruct (number_known u hu a ha (lumped_exponent h A rho cP V t) (- s) ltac:(cbn; tauto) he) as (y & ey & _ & k). fold n in k.
  assert (E : exists F, m_exp m y = F /\ 0 <= exp (- s) <= 1 /\ Rabs (F - exp (- s)) <= 0.54 * (INR n * u) + 1.01 * v).
  { exists (m_exp m y). split; [reflexivity|]. pose proof (within_env u v L hu hv hL a ha erf m hm _ y _ (TExp (TVar 0)) k) as r.
    cbn [teval nth_error bind on_number rmap fexp Rfn Ffn Efn] in r. inversion r as [p q z hz e1 e2 e3| |]; subst. cbn [relv] in hz. destruct hz as (_ & _ & hz).
    unfold more in hz. cbn [fst snd] in hz. pose proof (growth_bound u n ltac:(lra) hn) as (g0 & g1). set (g := / (1 - u) ^ n - 1) in *.
    rewrite Rabs_Ropp, (Rabs_pos_eq s) in hz by lra. pose proof (exp_pos (- s)) as px. rewrite (Rabs_pos_eq (exp (- s))) in hz by lra.
    assert (hnu : 0 <= INR n * u) by (apply Rmult_le_pos; [apply pos_INR|lra]).
    destruct (decay_numbers s g hs ltac:(lra)) as (d1 & d2). split.
    - split; [lra|]. rewrite <- exp_0. destruct hs as [hs| <-]; [left; apply exp_increasing; lra|rewrite Ropp_0; lra].
    - eapply Rle_trans; [exact hz|]. set (Q := exp (- s) * exp (g * s)) in *. replace (exp (- s) * (exp (g * s) - 1)) with (Q - exp (- s)) by (unfold Q; ring).
      replace (exp (- s) + (Q - exp (- s))) with Q by ring. assert (v * Q <= v * 1) by (apply Rmult_le_compat_l; lra). lra. }
  destruct E as (F & eF & hE & hF). assert (hnu : 0 <= INR n * u) by (apply Rmult_le_pos; [apply pos_INR|lra]).
  pose proof (mix_outcome Tf To (exp (- s)) F (0.54 * (INR n * u) + 1.01 * v) hE ltac:(lra) hF) as r.
  unfold exact, floats, lumped_term. cbn [teval bind]. rewrite plain_is, plain_floats, he, ey.
  assert (w : forall X Y, same_outcome (apart ((3.1 * u + 1.04 * (0.54 * (INR n * u) + 1.01 * v)) * (Rabs (number (Ok Tf)) + Rabs (number (Ok To))))) X Y ->
    same_outcome (apart ((0.6 * (INR n * u) + 4 * u + 1.1 * v) * (Rabs (number (Ok Tf)) + Rabs (number (Ok To))))) X Y).
  { intros X Y. apply wider. apply Rmult_le_compat_r; [pose proof (Rabs_pos (number (Ok Tf))); pose proof (Rabs_pos (number (Ok To))); lra|lra]. }
  apply w. cbn [bind on_number rmap fexp Rfn Ffn]. rewrite eF. destruct (@py_sub R Rnum Tf To), (@py_sub R (Fnum a) Tf To); exact r.
Qed.
(** A half-space. *)
Lemma erf_known i x : no_sums i -> eval i = Ok (VNum x) -> 0 <= erf x <= 1 -> INR (roundings i) * u <= / 100 ->
  exists y, feval a i = Ok (VNum y) /\ Rabs (m_erf m y - erf x) <= 1.04 * (L * Rabs x * (INR (roundings i) * u)) + v.
Proof.
  intros hi he hE hn. destruct (number_known u hu a ha i x hi he) as (y & ey & _ & k). exists y. split; [exact ey|].
  pose proof (within_env u v L hu hv hL a ha erf m hm _ y _ (TErf (TVar 0)) k) as r. cbn [teval nth_error bind on_number rmap ferf Rfn Ffn Efn] in r.
  inversion r as [p q z hz e1 e2 e3| |]; subst. cbn [relv] in hz. destruct hz as (_ & _ & hz). unfold more in hz. cbn [fst snd] in hz.
  set (n := roundings i) in *. pose proof (growth_bound u n ltac:(lra) hn) as (g0 & g1). set (g := / (1 - u) ^ n - 1) in *. rewrite (Rabs_pos_eq (erf x)) in hz by lra.
  eapply Rle_trans; [exact hz|]. pose proof (Rabs_pos x) as px. set (Q := L * (g * Rabs x)). assert (hQ : 0 <= Q) by (apply Rmult_le_pos; [exact hL|apply Rmult_le_pos; lra]).
  assert (v * Q <= / 100 * Q) by (apply Rmult_le_compat_r; lra). assert (v * erf x <= v * 1) by (apply Rmult_le_compat_l; lra).
  assert (Q <= 1.02 * (L * Rabs x * (INR n * u))).
  { unfold Q. replace (1.02 * (L * Rabs x * (INR n * u))) with (L * (1.02 * (INR n * u) * Rabs x)) by ring. apply Rmult_le_compat_l; [exact hL|]. apply Rmult_le_compat_r; lra. }
  lra.
Qed.
Lemma semi_outcome Ts To i x : no_sums i -> eval i = Ok (VNum x) -> 0 <= erf x <= 1 -> INR (roundings i) * u <= / 100 ->
  exists y, feval a i = Ok (VNum y) /\
  same_outcome (apart ((1.1 * (L * Rabs x * (INR (roundings i) * u)) + 4 * u + 1.1 * v) * (Rabs (number (Ok Ts)) + Rabs (number (Ok To)))))
    (let* d := @py_sub R Rnum Ts To in let* w := @py_mul R Rnum d (VNum (erf x)) in @py_sub R Rnum Ts w)
    (let* d := @py_sub R (Fnum a) Ts To in let* w := @py_mul R (Fnum a) d (VNum (m_erf m y)) in @py_sub R (Fnum a) Ts w).
Proof.
  intros hi he hE hn. destruct (erf_known i x hi he hE hn) as (y & ey & hF). exists y. split; [exact ey|].
  assert (q : 0 <= L * Rabs x * (INR (roundings i) * u)) by (apply Rmult_le_pos; apply Rmult_le_pos; try apply Rabs_pos; try apply pos_INR; lra).
  eapply wider; [|apply (mix_outcome Ts To (erf x) (m_erf m y) (1.04 * (L * Rabs x * (INR (roundings i) * u)) + v) hE); [lra|exact hF]].
  apply Rmult_le_compat_r; [pose proof (Rabs_pos (number (Ok Ts))); pose proof (Rabs_pos (number (Ok To))); lra|lra].
Qed.
Lemma semi_diffusion_error Cs Co z D t x : eval (reach z D t) = Ok (VNum x) -> 0 <= erf x <= 1 -> INR (roundings (reach z D t)) * u <= / 100 ->
  same_outcome (apart ((1.1 * (L * Rabs x * (INR (roundings (reach z D t)) * u)) + 4 * u + 1.1 * v) * (Rabs (number (Ok Cs)) + Rabs (number (Ok Co)))))
    (semi_infinite_slab_diffusion erf Cs Co z D t) (floats a m (semi_infinite_diffusion_term Cs Co z D t)).
Proof.
  intros he hE hn. destruct (semi_outcome Cs Co _ x (ltac:(cbn; tauto) : no_sums (reach z D t)) he hE hn) as (y & ey & r). rewrite <- (run_semi_diffusion erf).
  unfold exact, floats. change (semi_infinite_diffusion_term Cs Co z D t) with (TSub (TLeaf Cs) (TMul (TSub (TLeaf Cs) (TLeaf Co)) (TErf (plain (reach z D t))))).
  cbn [teval bind]. rewrite plain_is, plain_floats, he, ey. cbn [bind on_number rmap ferf Rfn Ffn].
  destruct (@py_sub R Rnum Cs Co), (@py_sub R (Fnum a) Cs Co); exact r.
Qed.
Lemma semi_heat_error Ts To z t rho Cp k x : eval (reach_heat z k rho Cp t) = Ok (VNum x) -> 0 <= erf x <= 1 -> INR (roundings (reach_heat z k rho Cp t)) * u <= / 100 ->
  same_outcome (apart ((1.1 * (L * Rabs x * (INR (roundings (reach_heat z k rho Cp t)) * u)) + 4 * u + 1.1 * v) * (Rabs (number (Ok Ts)) + Rabs (number (Ok To)))))
    (semi_infinite_slab_conduction erf Ts To z t rho Cp k) (floats a m (semi_infinite_term Ts To z t rho Cp k)).
Proof.
  intros he hE hn. destruct (semi_outcome Ts To _ x (ltac:(cbn; tauto) : no_sums (reach_heat z k rho Cp t)) he hE hn) as (y & ey & r). rewrite <- (run_semi_infinite erf).
  unfold exact, floats, semi_infinite_term. cbn [teval bind nth_error].
  rewrite <- (plain_is erf _ []) in he. rewrite <- (plain_floats a m _ []) in ey. unfold reach_heat, diffusivity in he, ey. cbn [plain teval bind] in he, ey.
  destruct (let* y := _ in @py_div R Rnum k y) as [al|] in he |- *; [|discriminate]. destruct (let* y := _ in @py_div R (Fnum a) k y) as [be|] in ey |- *; [|discriminate]. cbn [bind nth_error] in *.
  rewrite he, ey. cbn [bind on_number rmap ferf Rfn Ffn].
  destruct (@py_sub R Rnum Ts To), (@py_sub R (Fnum a) Ts To); exact r.
Qed.
End Decay.
