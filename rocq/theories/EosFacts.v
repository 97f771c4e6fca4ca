(** * EosFacts: facts about the cubic equations of state *)
From Coq Require Import String List ZArith QArith Qcanon Bool Reals Qreals Lia Lra Psatz.
From Verif Require Import Py Num UnitsData UnitsStruct Units Eos EosSpec.
Import ListNotations.
Local Open Scope string_scope.
Local Open Scope R_scope.

Ltac q2r := unfold Q2R; cbn [Qnum Qden]; try lra.
Lemma Reqb_no x y : x <> y -> Reqb x y = false.
Proof. intro h. unfold Reqb. destruct (Req_EM_T x y); tauto. Qed.
Lemma Reqb_yes x y : x = y -> Reqb x y = true.
Proof. intro h. unfold Reqb. destruct (Req_EM_T x y); tauto. Qed.
Lemma q0 : Q2R 0 = 0. Proof. q2r. Qed.
Lemma q1 : Q2R 1 = 1. Proof. q2r. Qed.
Lemma q2 : Q2R 2 = 2. Proof. q2r. Qed.

(** ** The right-hand sides on numbers *)
Definition gv (b q z : R) : R := 1 + b - q * b * ((z - b) / (z * (z + b))).
Definition gl (b q z : R) : R := b + z * (z + b) * ((1 + b - z) / (q * b)).
Definition gp (s e b q z : R) : R := b + (z + e * b) * (z + s * b) * ((1 + b - z) / (q * b)).
Lemma vapor_num b q z : vapor_rhs (VNum b) (VNum q) (VNum z) =
  if Reqb (z * (z + b)) 0 then Raise EZeroDivisionError else Ok (VNum (gv b q z)).
Proof.
  unfold vapor_rhs, lift2, num. cbn. unfold pydiv. cbn. rewrite q0, q1.
  destruct (Reqb (z * (z + b)) 0); reflexivity.
Qed.
Lemma liquid_num b q z : liquid_rhs (VNum b) (VNum q) (VNum z) =
  if Reqb (q * b) 0 then Raise EZeroDivisionError else Ok (VNum (gl b q z)).
Proof.
  unfold liquid_rhs, lift2, num. cbn. unfold pydiv. cbn. rewrite q0, q1.
  destruct (Reqb (q * b) 0); reflexivity.
Qed.
Lemma pr_num s e b q z : pr_rhs (VNum s) (VNum e) (VNum b) (VNum q) (VNum z) =
  if Reqb (q * b) 0 then Raise EZeroDivisionError else Ok (VNum (gp s e b q z)).
Proof.
  unfold pr_rhs, lift2, num. cbn. unfold pydiv. cbn. rewrite q0, q1.
  destruct (Reqb (q * b) 0); reflexivity.
Qed.

(** ** Loops *)
Lemma loop_snoc (f : pyval R -> res (pyval R)) n : forall z, loop f (S n) z = (let* y := loop f n z in f y).
Proof. induction n as [|n IH]; intro z; [cbn; destruct (f z); reflexivity|]. cbn [loop]. destruct (f z) as [y|e] eqn:h; [|reflexivity]. cbn [bind]. exact (IH y). Qed.
Lemma state_vapor fv v fl l b n : (0 <= n)%Z ->
  solve_state "vapor" fv v fl l b (n + 1) = (let* y := solve_state "vapor" fv v fl l b n in v y : res (pyval R)).
Proof.
  intros hn. unfold solve_state. replace (String.eqb "vapor" "vapor") with true by reflexivity.
  replace (Z.to_nat (n + 1)) with (S (Z.to_nat n)) by lia. destruct (fv (VNum (nq 1))) as [z|e]; [|reflexivity]. cbn [bind]. apply loop_snoc.
Qed.
Lemma state_liquid fv v fl l b n : (0 <= n)%Z ->
  solve_state "liquid" fv v fl l b (n + 1) = (let* y := solve_state "liquid" fv v fl l b n in l y : res (pyval R)).
Proof.
  intros hn. unfold solve_state. replace (String.eqb "liquid" "vapor") with false by reflexivity. replace (String.eqb "liquid" "liquid") with true by reflexivity.
  replace (Z.to_nat (n + 1)) with (S (Z.to_nat n)) by lia. destruct (fl b) as [z|e]; [|reflexivity]. cbn [bind]. apply loop_snoc.
Qed.

(** ** The cubic *)
Definition cubic (b q z : R) : Prop := (z - 1 - b) * (z * (z + b)) + q * b * (z - b) = 0.
Lemma gv_step b q z y : vapor_rhs (VNum b) (VNum q) (VNum z) = Ok (VNum y) ->
  y * (z * (z + b)) - (1 + b) * (z * (z + b)) + q * b * (z - b) = 0.
Proof.
  rewrite vapor_num. unfold Reqb. destruct (Req_EM_T (z * (z + b)) 0) as [e|ne]; [discriminate|]. intro h. injection h as <-. unfold gv. field.
  split; intro h; apply ne; rewrite h; ring.
Qed.
Lemma gl_step b q z y : liquid_rhs (VNum b) (VNum q) (VNum z) = Ok (VNum y) ->
  (y - b) * (q * b) - z * (z + b) * (1 + b - z) = 0.
Proof.
  rewrite liquid_num. unfold Reqb. destruct (Req_EM_T (q * b) 0) as [e|ne]; [discriminate|]. intro h. injection h as <-. unfold gl. field.
  split; intro h; apply ne; rewrite h; ring.
Qed.
Lemma cubic_regular b q z : 0 < b -> q <> 0 -> cubic b q z -> z <> 0 /\ z + b <> 0 /\ z - b <> 0.
Proof.
  unfold cubic. intros hb hq h. repeat split; intro e.
  - subst z. assert (e : q * (b * b) = 0) by nra. apply Rmult_integral in e. destruct e as [e|e]; [tauto|nra].
  - replace z with (- b) in h by lra. assert (e' : q * (b * b) = 0) by nra. apply Rmult_integral in e'. destruct e' as [e'|e']; [tauto|nra].
  - replace z with b in h by lra. nra.
Qed.
(** The cubic is the law in reduced form. *)
Lemma cubic_iff b k z : z <> 0 -> z + b <> 0 -> z - b <> 0 ->
  ((z - 1 - b) * (z * (z + b)) + k * (z - b) = 0 <-> 1 = 1 / (z - b) - k / (z * (z + b))).
Proof.
  intros h1 h2 h3. set (D := (z - b) * (z * (z + b))).
  assert (hD : D <> 0) by (unfold D; apply Rmult_integral_contrapositive_currified; [exact h3|apply Rmult_integral_contrapositive_currified; assumption]).
  assert (e : 1 / (z - b) - k / (z * (z + b)) - 1 = - ((z - 1 - b) * (z * (z + b)) + k * (z - b)) / D) by (unfold D; field; tauto).
  split; intro h.
  - rewrite h in e. unfold Rdiv at 3 in e. lra.
  - assert (e0 : - ((z - 1 - b) * (z * (z + b)) + k * (z - b)) / D = 0) by lra.
    apply Rmult_integral in e0. destruct e0 as [e0|e0]; [lra|]. exfalso. exact (Rinv_neq_0_compat _ hD e0).
Qed.

(** ** Limits *)
Lemma settles_step (f : Z -> res (pyval R)) (rhs : pyval R -> res (pyval R)) G z :
  (forall n, (0 <= n)%Z -> f (n + 1)%Z = (let* y := f n in rhs y)) ->
  (forall x y, rhs (VNum x) = Ok (VNum y) -> G x y = 0) ->
  (forall u v, Un_cv u z -> Un_cv v z -> Un_cv (fun n => G (u n) (v n)) (G z z)) ->
  settles f z -> G z z = 0.
Proof.
  intros hs hG hc h. destruct (h 1 ltac:(lra)) as [N hN].
  set (N0 := Z.max 0 N).
  set (num_of := fun r : res (pyval R) => match r with Ok (VNum x) => x | _ => 0 end).
  set (u := fun n : nat => num_of (f (N0 + Z.of_nat n)%Z)).
  assert (hu : forall n, f (N0 + Z.of_nat n)%Z = Ok (VNum (u n))).
  { intro n. destruct (hN (N0 + Z.of_nat n)%Z ltac:(lia)) as [x [hx _]]. unfold u. rewrite hx. reflexivity. }
  assert (cu : Un_cv u z).
  { intros e he. destruct (h e he) as [M hM]. exists (Z.to_nat M). intros n hn. destruct (hM (N0 + Z.of_nat n)%Z ltac:(lia)) as [x [hx hd]].
    rewrite hu in hx. injection hx as ->. exact hd. }
  assert (cs : Un_cv (fun n => u (S n)) z).
  { intros e he. destruct (cu e he) as [M hM]. exists M. intros n hn. apply hM. lia. }
  assert (c0 : Un_cv (fun n => G (u n) (u (S n))) 0).
  { intros e he. exists 0%nat. intros n _. replace (G (u n) (u (S n))) with 0; [rewrite R_dist_eq; exact he|]. symmetry. apply hG.
    specialize (hs (N0 + Z.of_nat n)%Z ltac:(lia)). rewrite hu in hs. cbn [bind] in hs. rewrite <- hs.
    rewrite <- hu. f_equal. lia. }
  exact (UL_sequence _ _ _ (hc _ _ cu cs) c0).
Qed.
Lemma cv_const c : Un_cv (fun _ => c) c.
Proof. intros e he. exists 0%nat. intros n _. rewrite R_dist_eq. exact he. Qed.
Ltac cv := repeat first [assumption | apply cv_const | apply CV_minus | apply CV_plus | apply CV_mult].
Lemma vapor_limit (f : Z -> res (pyval R)) b q z :
  (forall n, (0 <= n)%Z -> f (n + 1)%Z = (let* y := f n in vapor_rhs (VNum b) (VNum q) y)) -> settles f z -> cubic b q z.
Proof.
  intros hs h. unfold cubic.
  pose proof (settles_step f _ (fun z y => y * (z * (z + b)) - (1 + b) * (z * (z + b)) + q * b * (z - b)) z hs (gv_step b q)) as k.
  cbv beta in k. specialize (k ltac:(intros u v hu hv; cv) h). lra.
Qed.
Lemma liquid_limit (f : Z -> res (pyval R)) b q z :
  (forall n, (0 <= n)%Z -> f (n + 1)%Z = (let* y := f n in liquid_rhs (VNum b) (VNum q) y)) -> settles f z -> cubic b q z.
Proof.
  intros hs h. unfold cubic.
  pose proof (settles_step f _ (fun z y => (y - b) * (q * b) - z * (z + b) * (1 + b - z)) z hs (gl_step b q)) as k.
  cbv beta in k. specialize (k ltac:(intros u v hu hv; cv) h). lra.
Qed.

(** ** The functions on objects of one unit *)
Section Calls.
Variables (tn pn : string) (T P Tc Pc : R).
Hypothesis hT : 0 < T.
Hypothesis hP : 0 < P.
Hypothesis hTc : 0 < Tc.
Hypothesis hPc : 0 < Pc.
Let t := T / Tc.
Let p := P / Pc.
Lemma t_pos : 0 < t. Proof. apply Rdiv_lt_0_compat; assumption. Qed.
Lemma p_pos : 0 < p. Proof. apply Rdiv_lt_0_compat; assumption. Qed.
Lemma div_same (c : ucls) n x y : y <> 0 -> py_div (VUnit (UO c x n (eint 1))) (VUnit (UO c y n (eint 1))) = Ok (VNum (x / y)).
Proof. intro h. unfold py_div, unit_div, pydiv. cbn [uv un uc ue neqb nq Rnum ndiv]. rewrite q0, Reqb_no by exact h. cbn [bind]. rewrite String.eqb_refl. reflexivity. Qed.
Lemma div_p : py_div (pres pn P) (pres pn Pc) = Ok (VNum p).
Proof. apply div_same. lra. Qed.
Lemma div_t : py_div (temp tn T) (temp tn Tc) = Ok (VNum t).
Proof. apply div_same. lra. Qed.
Lemma div_num x y : y <> 0 -> py_div (VNum x) (VNum y) = Ok (VNum (x / y)).
Proof. intro h. unfold py_div, pydiv. cbn [neqb nq Rnum ndiv]. rewrite q0, Reqb_no by exact h. reflexivity. Qed.
Lemma mul_num x y : py_mul (VNum x) (VNum y) = Ok (VNum (x * y)).
Proof. reflexivity. Qed.
Lemma add_num x y : py_add (VNum x) (VNum y) = Ok (VNum (x + y)).
Proof. reflexivity. Qed.
Lemma sub_num x y : py_sub (VNum x) (VNum y) = Ok (VNum (x - y)).
Proof. reflexivity. Qed.
Lemma half_pow x : 0 < x -> py_pow (VNum x) e_half = Ok (VNum (sqrt x)).
Proof.
  intro h. unfold py_pow. cbn [npow Rnum]. unfold Rpowq. replace (is_int (ev e_half)) with false by reflexivity.
  unfold Rltb. destruct (Rlt_dec 0 x); [|tauto]. cbn [rmap bind]. unfold rmap. cbn [bind]. do 2 f_equal. rewrite <- Rpower_sqrt by exact h. f_equal.
  unfold QcR. replace (this (ev e_half)) with (1 # 2)%Q by reflexivity. q2r.
Qed.
Lemma mhalf_pow x : 0 < x -> py_pow (VNum x) e_mhalf = Ok (VNum (/ sqrt x)).
Proof.
  intro h. unfold py_pow. cbn [npow Rnum]. unfold Rpowq. replace (is_int (ev e_mhalf)) with false by reflexivity.
  unfold Rltb. destruct (Rlt_dec 0 x); [|tauto]. unfold rmap. cbn [bind]. do 2 f_equal. rewrite <- Rpower_sqrt by exact h. rewrite <- Rpower_Ropp. f_equal.
  unfold QcR. replace (this (ev e_mhalf)) with (-1 # 2)%Q by reflexivity. q2r.
Qed.
Lemma sq_pow x : py_pow (VNum x) (eint 2) = Ok (VNum (x ^ 2)).
Proof.
  unfold py_pow. cbn [npow Rnum]. unfold Rpowq. replace (is_int (ev (eint 2))) with true by reflexivity.
  replace (Qcltb (ev (eint 2)) (qc 0)) with false by reflexivity. rewrite andb_false_r. unfold rmap. cbn [bind]. do 2 f_equal.
Qed.
Definition beta_of (om : R) : R := om * (p / t).
Definition q_of (om psi al : R) : R := psi * al / (om * t).
Lemma rk_call st n :
  rendlich_kwong (temp tn T) (pres pn P) (temp tn Tc) (pres pn Pc) st n =
  let b := VNum (beta_of 0.08664) in let q := VNum (q_of 0.08664 0.42748 (/ sqrt t)) in
  solve_state st (vapor_rhs b q) (vapor_rhs b q) (liquid_rhs b q) (liquid_rhs b q) b n.
Proof.
  pose proof t_pos as ht. unfold rendlich_kwong. unfold lift2 at 1. cbn [bind]. rewrite div_p. cbn [bind]. unfold lift2 at 1. cbn [bind]. rewrite div_t. cbn [bind].
  rewrite mhalf_pow by exact ht. cbn [bind]. unfold lift2 at 1 2, num at 1. cbn [bind]. rewrite div_num by lra. cbn [bind]. rewrite mul_num. cbn [bind].
  unfold lift2 at 1 2 3, num at 1 2. cbn [bind]. rewrite !mul_num. cbn [bind nq Rnum]. rewrite div_num by (unfold Q2R; cbn [Qnum Qden]; nra). cbn [bind].
  replace (Q2R (8664 # 100000)) with 0.08664 by q2r. replace (Q2R (42748 # 100000)) with 0.42748 by q2r. reflexivity.
Qed.
Lemma vdw_call st n :
  van_der_waals (temp tn T) (pres pn P) (temp tn Tc) (pres pn Pc) st n =
  let b := VNum (beta_of (1 / 8)) in let q := VNum (q_of (1 / 8) (27 / 64) 1) in
  solve_state st (vapor_rhs b q) (vapor_rhs b q) (liquid_rhs b q) (liquid_rhs b q) b n.
Proof.
  pose proof t_pos as ht. unfold van_der_waals. unfold lift2 at 1. cbn [bind]. rewrite div_p. cbn [bind]. unfold lift2 at 1. cbn [bind]. rewrite div_t. cbn [bind].
  unfold lift2 at 1 2, num at 1. cbn [bind]. rewrite div_num by lra. cbn [bind]. rewrite mul_num. cbn [bind].
  unfold lift2 at 1 2 3, num at 1 2 3. cbn [bind]. rewrite !mul_num. cbn [bind nq Rnum]. rewrite div_num by (unfold Q2R; cbn [Qnum Qden]; nra). cbn [bind].
  replace (Q2R (1 # 8)) with (1 / 8) by q2r. replace (Q2R (27 # 64)) with (27 / 64) by q2r. rewrite q1. reflexivity.
Qed.
Definition al_of (c0 c1 c2 w : R) : R := (1 + (c0 + c1 * w - c2 * w ^ 2) * (1 - sqrt t)) ^ 2.
Lemma alpha_call c0 c1 c2 w : soave_alpha c0 c1 c2 (VNum w) (VNum t) = Ok (VNum (al_of (Q2R c0) (Q2R c1) (Q2R c2) w)).
Proof.
  pose proof t_pos as ht. unfold soave_alpha, lift2, num. cbn [bind]. rewrite sq_pow. cbn [bind]. rewrite half_pow by exact ht. cbn [bind].
  repeat (first [rewrite mul_num|rewrite add_num|rewrite sub_num]; cbn [bind]). rewrite sq_pow. cbn [nq Rnum]. rewrite q1. reflexivity.
Qed.
Lemma srk_call st w n :
  soave_rendlich_kwong (temp tn T) (pres pn P) (temp tn Tc) (pres pn Pc) st (VNum w) n =
  let b := VNum (beta_of 0.08664) in let q := VNum (q_of 0.08664 0.42748 (al_of 0.480 1.574 0.176 w)) in
  solve_state st (vapor_rhs b q) (vapor_rhs b q) (liquid_rhs b q) (liquid_rhs b q) b n.
Proof.
  pose proof t_pos as ht. unfold soave_rendlich_kwong. unfold lift2 at 1. cbn [bind]. rewrite div_p. cbn [bind]. unfold lift2 at 1. cbn [bind]. rewrite div_t. cbn [bind].
  rewrite alpha_call. cbn [bind]. unfold lift2 at 1 2, num at 1. cbn [bind]. rewrite div_num by lra. cbn [bind]. rewrite mul_num. cbn [bind].
  unfold lift2 at 1 2 3, num at 1 2. cbn [bind]. rewrite !mul_num. cbn [bind nq Rnum]. rewrite div_num by (unfold Q2R; cbn [Qnum Qden]; nra). cbn [bind].
  replace (Q2R (8664 # 100000)) with 0.08664 by q2r. replace (Q2R (42748 # 100000)) with 0.42748 by q2r.
  replace (Q2R (480 # 1000)) with 0.480 by q2r. replace (Q2R (1574 # 1000)) with 1.574 by q2r. replace (Q2R (176 # 1000)) with 0.176 by q2r. reflexivity.
Qed.
Lemma pr_call st w n :
  peng_robinson (temp tn T) (pres pn P) (temp tn Tc) (pres pn Pc) st (VNum w) n =
  let b := VNum (beta_of 0.07780) in let q := VNum (q_of 0.07780 0.45724 (al_of 0.37464 1.54226 0.26992 w)) in
  let s := VNum (1 + sqrt 2) in let e := VNum (1 - sqrt 2) in
  solve_state st (pr_rhs s e b q) (vapor_rhs b q) (pr_rhs s e b q) (liquid_rhs b q) b n.
Proof.
  pose proof t_pos as ht. unfold peng_robinson. unfold lift2 at 1. cbn [bind]. rewrite div_p. cbn [bind]. unfold lift2 at 1. cbn [bind]. rewrite div_t. cbn [bind].
  unfold num at 2 4. cbn [bind]. rewrite half_pow by (cbn [nq Rnum]; rewrite q2; lra). unfold lift2 at 1 2, num at 1 2. cbn [bind]. rewrite add_num, sub_num. cbn [bind].
  rewrite alpha_call. cbn [bind]. unfold lift2 at 1 2, num at 1. cbn [bind]. rewrite div_num by lra. cbn [bind]. rewrite mul_num. cbn [bind].
  unfold lift2 at 1 2 3, num at 1 2. cbn [bind]. rewrite !mul_num. cbn [bind nq Rnum]. rewrite div_num by (unfold Q2R; cbn [Qnum Qden]; nra). cbn [bind].
  rewrite q1, q2.
  replace (Q2R (7780 # 100000)) with 0.07780 by q2r. replace (Q2R (45724 # 100000)) with 0.45724 by q2r.
  replace (Q2R (37464 # 100000)) with 0.37464 by q2r. replace (Q2R (154226 # 100000)) with 1.54226 by q2r. replace (Q2R (26992 # 100000)) with 0.26992 by q2r. reflexivity.
Qed.
End Calls.

(** ** From the cubic to the law *)
Lemma law_iff s P z b k : 0 < s -> 0 < P -> z <> 0 -> z + b <> 0 -> z - b <> 0 ->
  (P = s * P / (z * s - b * s) - k * s ^ 2 * P / (z * s * (z * s + b * s)) <-> 1 = 1 / (z - b) - k / (z * (z + b))).
Proof.
  intros hs hP h1 h2 h3.
  assert (e : s * P / (z * s - b * s) - k * s ^ 2 * P / (z * s * (z * s + b * s)) = P * (1 / (z - b) - k / (z * (z + b)))).
  { field. repeat split; try assumption; try lra;
      match goal with |- ?a <> 0 => first [replace a with ((z - b) * s) by ring | replace a with ((z + b) * s) by ring] end;
      apply Rmult_integral_contrapositive_currified; lra. }
  rewrite e. split; intro h; [|rewrite <- h; ring].
  apply (Rmult_eq_reg_l P); [lra|lra].
Qed.
Lemma nz_mul x y : x <> 0 -> y <> 0 -> x * y <> 0.
Proof. apply Rmult_integral_contrapositive_currified. Qed.
(** A law of Redlich and Kwong's form, with its attraction [A]. *)
Lemma rk_form om psi al T P Tc Pc z : 0 < om -> psi * al <> 0 -> 0 < T -> 0 < P -> 0 < Tc -> 0 < Pc ->
  let b := om * ((P / Pc) / (T / Tc)) in let q := psi * al / (om * (T / Tc)) in
  (cubic b q z <-> forall Rg, 0 < Rg ->
    let V := z * Rg * T / P in let B := om * Rg * Tc / Pc in let A := psi * Rg ^ 2 * Tc ^ 2 / Pc in
    V - B <> 0 /\ V * (V + B) <> 0 /\ P = Rg * T / (V - B) - A * al / (V * (V + B))).
Proof.
  intros ho hpa hT hP hTc hPc b q.
  assert (hb : 0 < b) by (unfold b; apply Rmult_lt_0_compat; [exact ho|apply Rdiv_lt_0_compat; apply Rdiv_lt_0_compat; assumption]).
  assert (hq : q <> 0).
  { unfold q, Rdiv. apply nz_mul; [exact hpa|]. apply Rinv_neq_0_compat. apply nz_mul; [lra|]. apply nz_mul; [lra|]. apply Rinv_neq_0_compat. lra. }
  assert (key : forall Rg, 0 < Rg ->
    let V := z * Rg * T / P in let B := om * Rg * Tc / Pc in let A := psi * Rg ^ 2 * Tc ^ 2 / Pc in let s := Rg * T / P in
    0 < s /\ V = z * s /\ B = b * s /\ Rg * T = s * P /\ A * al = q * b * s ^ 2 * P).
  { intros Rg hR. cbv zeta. split; [apply Rdiv_lt_0_compat; nra|]. unfold b, q. repeat split; field; lra. }
  split.
  - intros h Rg hR. cbv zeta. destruct (key Rg hR) as [hs [e1 [e2 [e3 e4]]]]. destruct (cubic_regular b q z hb hq h) as [n1 [n2 n3]].
    set (s := Rg * T / P) in *. rewrite e1, e2, e3, e4. split; [|split].
    + replace (z * s - b * s) with ((z - b) * s) by ring. apply nz_mul; lra.
    + replace (z * s + b * s) with ((z + b) * s) by ring. apply nz_mul; [apply nz_mul; lra|apply nz_mul; lra].
    + apply law_iff; try assumption. apply cubic_iff; try assumption.
  - intro h. specialize (h 1 ltac:(lra)). specialize (key 1 ltac:(lra)). cbv zeta in h, key. destruct key as [hs [e1 [e2 [e3 e4]]]].
    set (s := 1 * T / P) in *. rewrite e1, e2, e3, e4 in h. destruct h as [h1 [h2 h3]].
    assert (n3 : z - b <> 0) by (intro e; apply h1; replace (z * s - b * s) with ((z - b) * s) by ring; rewrite e; ring).
    assert (n1 : z <> 0) by (intro e; apply h2; rewrite e; ring).
    assert (n2 : z + b <> 0) by (intro e; apply h2; replace (z * s + b * s) with ((z + b) * s) by ring; rewrite e; ring).
    apply law_iff in h3; try assumption. apply cubic_iff in h3; try assumption.
Qed.
Lemma rk_root T P Tc Pc z : 0 < T -> 0 < P -> 0 < Tc -> 0 < Pc ->
  (cubic (0.08664 * ((P / Pc) / (T / Tc))) (0.42748 * / sqrt (T / Tc) / (0.08664 * (T / Tc))) z <-> compressibility redlich_kwong_law T P Tc Pc z).
Proof.
  intros hT hP hTc hPc.
  assert (ht : 0 < T / Tc) by (apply Rdiv_lt_0_compat; assumption).
  pose proof (sqrt_lt_R0 _ ht) as hs. pose proof (sqrt_lt_R0 _ hT) as hsT. pose proof (sqrt_lt_R0 _ hTc) as hsC.
  assert (e : / sqrt (T / Tc) = sqrt Tc / sqrt T) by (rewrite sqrt_div by lra; field; lra).
  rewrite (rk_form 0.08664 0.42748 (/ sqrt (T / Tc)) T P Tc Pc z); try assumption; try lra.
  2: { apply nz_mul; [lra|]. apply Rinv_neq_0_compat. lra. }
  unfold compressibility, redlich_kwong_law. cbv zeta. rewrite e.
  split; intros h Rg hR; specialize (h Rg hR); destruct h as [h1 [h2 h3]]; (split; [exact h1|split; [exact h2|]]).
  - rewrite h3 at 1. f_equal. set (W := _ * (_ + _)) in *. field; repeat split; lra.
  - rewrite h3 at 1. f_equal. set (W := _ * (_ + _)) in *. field; repeat split; lra.
Qed.
Lemma srk_root w T P Tc Pc z : 0 < T -> 0 < P -> 0 < Tc -> 0 < Pc ->
  (1 + (0.480 + 1.574 * w - 0.176 * w ^ 2) * (1 - sqrt (T / Tc))) ^ 2 <> 0 ->
  (cubic (0.08664 * ((P / Pc) / (T / Tc))) (0.42748 * (1 + (0.480 + 1.574 * w - 0.176 * w ^ 2) * (1 - sqrt (T / Tc))) ^ 2 / (0.08664 * (T / Tc))) z
   <-> compressibility (soave_law w) T P Tc Pc z).
Proof.
  intros hT hP hTc hPc hal. apply rk_form; try assumption; try lra.
Qed.

(** ** Settling on roots *)
Lemma two_states (f : string -> Z -> res (pyval R)) fv v fl l b st z :
  (forall n, f st n = solve_state st fv v fl l b n) -> settles (f st) z -> st = "vapor" \/ st = "liquid".
Proof.
  intros he h. destruct (h 1 ltac:(lra)) as [N hN]. destruct (hN N ltac:(lia)) as [x [hx _]]. rewrite he in hx. unfold solve_state in hx.
  destruct (String.eqb_spec st "vapor"); [left; assumption|]. destruct (String.eqb_spec st "liquid"); [right; assumption|discriminate].
Qed.
Lemma settles_cubic (f : string -> Z -> res (pyval R)) fv fl bt q st z :
  (forall n, f st n = solve_state st fv (vapor_rhs (VNum bt) (VNum q)) fl (liquid_rhs (VNum bt) (VNum q)) (VNum bt) n) -> settles (f st) z -> cubic bt q z.
Proof.
  intros he h. destruct (two_states f _ _ _ _ _ _ _ he h) as [e|e]; subst st.
  - apply (vapor_limit (f "vapor")); [|exact h]. intros n hn. rewrite !he. apply state_vapor. exact hn.
  - apply (liquid_limit (f "liquid")); [|exact h]. intros n hn. rewrite !he. apply state_liquid. exact hn.
Qed.
Theorem rk_settles tn pn T P Tc Pc st z : 0 < T -> 0 < P -> 0 < Tc -> 0 < Pc ->
  settles (rendlich_kwong (temp tn T) (pres pn P) (temp tn Tc) (pres pn Pc) st) z -> compressibility redlich_kwong_law T P Tc Pc z.
Proof.
  intros hT hP hTc hPc h. apply rk_root; try assumption.
  apply (settles_cubic (rendlich_kwong (temp tn T) (pres pn P) (temp tn Tc) (pres pn Pc)) _ _ _ _ st z (rk_call tn pn T P Tc Pc hT hTc hPc st) h).
Qed.
Theorem srk_settles tn pn T P Tc Pc st w z : 0 < T -> 0 < P -> 0 < Tc -> 0 < Pc ->
  (1 + (0.480 + 1.574 * w - 0.176 * w ^ 2) * (1 - sqrt (T / Tc))) <> 0 ->
  settles (soave_rendlich_kwong (temp tn T) (pres pn P) (temp tn Tc) (pres pn Pc) st (VNum w)) z -> compressibility (soave_law w) T P Tc Pc z.
Proof.
  intros hT hP hTc hPc hal h. apply srk_root; try assumption. { intro e. apply hal. nra. }
  apply (settles_cubic (fun st => soave_rendlich_kwong (temp tn T) (pres pn P) (temp tn Tc) (pres pn Pc) st (VNum w)) _ _ _ _ st z (srk_call tn pn T P Tc Pc hT hTc hPc st w) h).
Qed.
(** Stationary calls settle. *)
Lemma stationary (f : Z -> res (pyval R)) rhs n z : (forall n, (0 <= n)%Z -> f (n + 1)%Z = (let* y := f n in rhs y)) ->
  (0 <= n)%Z -> f n = Ok (VNum z) -> f (n + 1)%Z = Ok (VNum z) -> settles f z.
Proof.
  intros hs hn h1 h2 eps he.
  assert (fix_ : rhs (VNum z) = Ok (VNum z)) by (rewrite hs in h2 by exact hn; rewrite h1 in h2; exact h2).
  assert (all : forall k, f (n + Z.of_nat k)%Z = Ok (VNum z)).
  { induction k as [|k IH]; [rewrite Z.add_0_r; exact h1|]. replace (n + Z.of_nat (S k))%Z with (n + Z.of_nat k + 1)%Z by lia. rewrite hs by lia. rewrite IH. exact fix_. }
  exists n. intros m hm. exists z. split; [|rewrite Rminus_eq_0, Rabs_R0; exact he].
  specialize (all (Z.to_nat (m - n))). rewrite Z2Nat.id in all by lia. rewrite <- all. f_equal. lia.
Qed.

(** ** The vapor iteration in the gas region *)
Section Gas.
Variables (b q : R).
Hypothesis hb : 0 < b <= 1 / 2.
Hypothesis hk : 0 < q * b <= 1 / 5.
Lemma gv_low x : 1 / 2 <= x -> 1 / 2 <= gv b q x.
Proof.
  intro hx. unfold gv. assert (h : (x - b) / (x * (x + b)) <= 2).
  { apply (Rmult_le_reg_r (x * (x + b))); [nra|]. unfold Rdiv. rewrite Rmult_assoc, Rinv_l by nra. nra. }
  nra.
Qed.
Lemma gv_lip x y : 1 / 2 <= x -> 1 / 2 <= y -> Rabs (gv b q x - gv b q y) <= 4 * (q * b) * Rabs (x - y).
Proof.
  intros hx hy. set (F := 2 / ((x + b) * (y + b)) - 1 / (x * y)).
  assert (e : gv b q x - gv b q y = q * b * F * (x - y)) by (unfold gv, F; field; lra).
  assert (h1 : 0 < 1 / (x * y) <= 4).
  { split; [apply Rdiv_lt_0_compat; nra|]. apply (Rmult_le_reg_r (x * y)); [nra|]. unfold Rdiv. rewrite Rmult_assoc, Rinv_l by nra. nra. }
  assert (h2 : 0 < 1 / ((x + b) * (y + b)) <= 1 / (x * y)).
  { split; [apply Rdiv_lt_0_compat; nra|]. unfold Rdiv. rewrite !Rmult_1_l. apply Rinv_le_contravar; nra. }
  assert (hF : Rabs F <= 4). { apply Rabs_le. unfold F. replace (2 / ((x + b) * (y + b))) with (2 * (1 / ((x + b) * (y + b)))) by (field; lra). lra. }
  rewrite e, Rabs_mult, Rabs_mult, (Rabs_pos_eq (q * b)) by lra. pose proof (Rabs_pos (x - y)). pose proof (Rabs_pos F).
  replace (4 * (q * b)) with (q * b * 4) by ring. apply Rmult_le_compat_r; [assumption|]. apply Rmult_le_compat_l; lra.
Qed.
Lemma cubic_fix z : cubic b q z -> gv b q z = z.
Proof.
  intro h. destruct (cubic_regular b q z (proj1 hb) ltac:(intro e; rewrite e in hk; lra) h) as [h1 [h2 h3]]. unfold cubic in h. unfold gv.
  assert (hn : z * (z + b) <> 0) by (apply nz_mul; assumption).
  replace (q * b * ((z - b) / (z * (z + b)))) with (q * b * (z - b) / (z * (z + b))) by (field; split; assumption).
  replace (q * b * (z - b)) with ((1 + b - z) * (z * (z + b))) by lra. field. split; assumption.
Qed.
Lemma cubic_exists : exists z, 1 / 2 <= z <= 1 + b /\ cubic b q z.
Proof.
  set (f := fun z => (z - 1 - b) * (z * (z + b)) + q * b * (z - b)).
  assert (hc : continuity f) by (unfold f; reg).
  destruct (IVT f (1 / 2) (1 + b) hc) as [z [h1 h2]]; [lra| | |].
  - unfold f. nra.
  - unfold f. replace (1 + b - 1 - b) with 0 by ring. nra.
  - exists z. split; [exact h1|exact h2].
Qed.
Lemma cubic_unique z z' : cubic b q z -> cubic b q z' -> 1 / 2 <= z -> z' <= z.
Proof.
  intros h h' hz. destruct (Rle_dec z' z) as [hle|hn]; [exact hle|]. exfalso.
  pose proof (gv_lip z' z ltac:(lra) hz) as hl. rewrite (cubic_fix z h), (cubic_fix z' h') in hl. rewrite Rabs_pos_eq in hl by lra. nra.
Qed.
Lemma gas_seq (f : Z -> res (pyval R)) x0 z : (forall n, (0 <= n)%Z -> f (n + 1)%Z = (let* y := f n in vapor_rhs (VNum b) (VNum q) y)) ->
  f 0%Z = Ok (VNum x0) -> 1 / 2 <= x0 -> cubic b q z -> 1 / 2 <= z ->
  forall n : nat, exists x, f (Z.of_nat n) = Ok (VNum x) /\ 1 / 2 <= x /\ Rabs (x - z) <= (4 * (q * b)) ^ n * Rabs (x0 - z).
Proof.
  intros hs h0 hx0 hz hz2. induction n as [|n IH].
  - exists x0. split; [exact h0|]. split; [exact hx0|]. cbn [pow]. lra.
  - destruct IH as [x [hx [hl hd]]]. exists (gv b q x). split; [|split].
    + replace (Z.of_nat (S n)) with (Z.of_nat n + 1)%Z by lia. rewrite hs by lia. rewrite hx. cbn [bind]. rewrite vapor_num, Reqb_no by nra. reflexivity.
    + apply gv_low. exact hl.
    + rewrite <- (cubic_fix z hz) at 1. eapply Rle_trans; [apply gv_lip; assumption|]. cbn [pow].
      rewrite (Rmult_assoc (4 * (q * b))). apply Rmult_le_compat_l; [lra|exact hd].
Qed.
Lemma gas_settles (f : Z -> res (pyval R)) x0 z : (forall n, (0 <= n)%Z -> f (n + 1)%Z = (let* y := f n in vapor_rhs (VNum b) (VNum q) y)) ->
  f 0%Z = Ok (VNum x0) -> 1 / 2 <= x0 -> cubic b q z -> 1 / 2 <= z -> settles f z.
Proof.
  intros hs h0 hx0 hz hz2 eps he. pose proof (gas_seq f x0 z hs h0 hx0 hz hz2) as h.
  assert (hd : 0 < Rabs (x0 - z) + 1) by (pose proof (Rabs_pos (x0 - z)); lra).
  destruct (pow_lt_1_zero (4 * (q * b)) ltac:(rewrite Rabs_pos_eq; lra) (eps / (Rabs (x0 - z) + 1)) ltac:(apply Rdiv_lt_0_compat; assumption)) as [N hN].
  exists (Z.of_nat N). intros n hn. destruct (h (Z.to_nat n)) as [x [hx [_ hb']]]. rewrite Z2Nat.id in hx by lia. exists x. split; [exact hx|].
  specialize (hN (Z.to_nat n) ltac:(lia)). assert (hp : 0 < (4 * (q * b)) ^ Z.to_nat n) by (apply pow_lt; lra).
  rewrite Rabs_pos_eq in hN by lra. eapply Rle_lt_trans; [exact hb'|]. pose proof (Rabs_pos (x0 - z)).
  apply (Rmult_lt_compat_r (Rabs (x0 - z) + 1)) in hN; [|exact hd]. unfold Rdiv in hN. rewrite Rmult_assoc, Rinv_l in hN by lra. nra.
Qed.
Lemma gas_vapor fl l bl : exists z, 1 / 2 <= z <= 1 + b /\ cubic b q z /\
  forall n, (0 <= n)%Z -> exists x, solve_state "vapor" (vapor_rhs (VNum b) (VNum q)) (vapor_rhs (VNum b) (VNum q)) fl l bl n = Ok (VNum x) /\
    Rabs (x - z) <= (4 * (q * b)) ^ (S (Z.to_nat n)) / 2.
Proof.
  destruct cubic_exists as [z [hz hc]]. exists z. split; [exact hz|]. split; [exact hc|]. intros n hn.
  set (f := solve_state "vapor" (vapor_rhs (VNum b) (VNum q)) (vapor_rhs (VNum b) (VNum q)) fl l bl).
  assert (h0 : f 0%Z = Ok (VNum (gv b q 1))).
  { unfold f, solve_state. cbn [loop Z.to_nat]. replace (String.eqb "vapor" "vapor") with true by reflexivity. cbn [nq Rnum]. rewrite q1, vapor_num, Reqb_no by lra. reflexivity. }
  destruct (gas_seq f (gv b q 1) z (fun n hn => state_vapor _ _ _ _ _ n hn) h0 (gv_low 1 ltac:(lra)) hc (proj1 hz) (Z.to_nat n)) as [x [hx [_ hd]]].
  exists x. rewrite Z2Nat.id in hx by lia. split; [exact hx|]. eapply Rle_trans; [exact hd|]. cbn [pow].
  assert (h1 : Rabs (gv b q 1 - z) <= 4 * (q * b) * Rabs (1 - z)) by (rewrite <- (cubic_fix z hc) at 1; apply gv_lip; lra).
  assert (h2 : Rabs (1 - z) <= 1 / 2) by (apply Rabs_le; lra).
  assert (hp : 0 < (4 * (q * b)) ^ Z.to_nat n) by (apply pow_lt; lra).
  set (w := (4 * (q * b)) ^ Z.to_nat n) in *. set (d := Rabs (gv b q 1 - z)) in *. set (e := Rabs (1 - z)) in *.
  assert (h3 : d <= 4 * (q * b) * (1 / 2)) by (eapply Rle_trans; [exact h1|]; apply Rmult_le_compat_l; lra).
  apply (Rmult_le_compat_l w) in h3; lra.
Qed.
End Gas.

Theorem rk_gas tn pn T P Tc Pc : 0 < T -> 0 < P -> 0 < Tc -> 0 < Pc ->
  let k := 0.42748 * (P / Pc) / ((T / Tc) ^ 2 * sqrt (T / Tc)) in
  0.08664 * (P / Pc) <= 1 / 2 * (T / Tc) -> k <= 1 / 5 ->
  exists z, 1 / 2 <= z /\ compressibility redlich_kwong_law T P Tc Pc z /\ (forall z', compressibility redlich_kwong_law T P Tc Pc z' -> z' <= z) /\
    forall n, (0 <= n)%Z -> exists x, rendlich_kwong (temp tn T) (pres pn P) (temp tn Tc) (pres pn Pc) "vapor" n = Ok (VNum x) /\
      Rabs (x - z) <= (4 * k) ^ (S (Z.to_nat n)) / 2.
Proof.
  intros hT hP hTc hPc k h1 h2.
  assert (ht : 0 < T / Tc) by (apply Rdiv_lt_0_compat; assumption). assert (hp : 0 < P / Pc) by (apply Rdiv_lt_0_compat; assumption).
  pose proof (sqrt_lt_R0 _ ht) as hs. set (t := T / Tc) in *. set (p := P / Pc) in *.
  set (b := 0.08664 * (p / t)). set (q := 0.42748 * / sqrt t / (0.08664 * t)).
  assert (ek : q * b = k) by (unfold q, b, k; field; lra).
  assert (hpt : 0 < p / t) by (apply Rdiv_lt_0_compat; assumption).
  assert (hb : 0 < b <= 1 / 2).
  { unfold b. split; [nra|]. apply (Rmult_le_reg_r t); [exact ht|]. replace (0.08664 * (p / t) * t) with (0.08664 * p) by (field; lra). exact h1. }
  assert (hk : 0 < q * b <= 1 / 5).
  { rewrite ek. split; [|exact h2]. unfold k. apply Rdiv_lt_0_compat; [lra|]. apply Rmult_lt_0_compat; [apply pow_lt; exact ht|exact hs]. }
  destruct (gas_vapor b q hb hk (liquid_rhs (VNum b) (VNum q)) (liquid_rhs (VNum b) (VNum q)) (VNum b)) as [z [hz [hc hn]]].
  exists z. split; [exact (proj1 hz)|]. split; [apply rk_root; assumption|]. split.
  - intros z' h'. apply rk_root in h'; try assumption. exact (cubic_unique b q hb hk z z' hc h' (proj1 hz)).
  - intros n h0. destruct (hn n h0) as [x [hx hd]]. exists x. split; [|rewrite <- ek; exact hd].
    rewrite rk_call by assumption. exact hx.
Qed.
Theorem srk_gas tn pn T P Tc Pc w : 0 < T -> 0 < P -> 0 < Tc -> 0 < Pc ->
  let m := 0.480 + 1.574 * w - 0.176 * w ^ 2 in let al := (1 + m * (1 - sqrt (T / Tc))) ^ 2 in
  let k := 0.42748 * al * (P / Pc) / (T / Tc) ^ 2 in
  0.08664 * (P / Pc) <= 1 / 2 * (T / Tc) -> 0 < k <= 1 / 5 ->
  exists z, 1 / 2 <= z /\ compressibility (soave_law w) T P Tc Pc z /\ (forall z', compressibility (soave_law w) T P Tc Pc z' -> z' <= z) /\
    forall n, (0 <= n)%Z -> exists x, soave_rendlich_kwong (temp tn T) (pres pn P) (temp tn Tc) (pres pn Pc) "vapor" (VNum w) n = Ok (VNum x) /\
      Rabs (x - z) <= (4 * k) ^ (S (Z.to_nat n)) / 2.
Proof.
  intros hT hP hTc hPc m al k h1 h2.
  assert (ht : 0 < T / Tc) by (apply Rdiv_lt_0_compat; assumption). assert (hp : 0 < P / Pc) by (apply Rdiv_lt_0_compat; assumption).
  assert (hal : al <> 0) by (intro e; unfold k in h2; rewrite e in h2; unfold Rdiv in h2; lra).
  set (t := T / Tc) in *. set (p := P / Pc) in *.
  set (b := 0.08664 * (p / t)). set (q := 0.42748 * al / (0.08664 * t)).
  assert (ek : q * b = k) by (unfold q, b, k; field; lra).
  assert (hpt : 0 < p / t) by (apply Rdiv_lt_0_compat; assumption).
  assert (hb : 0 < b <= 1 / 2).
  { unfold b. split; [nra|]. apply (Rmult_le_reg_r t); [exact ht|]. replace (0.08664 * (p / t) * t) with (0.08664 * p) by (field; lra). exact h1. }
  assert (hk : 0 < q * b <= 1 / 5) by (rewrite ek; exact h2).
  destruct (gas_vapor b q hb hk (liquid_rhs (VNum b) (VNum q)) (liquid_rhs (VNum b) (VNum q)) (VNum b)) as [z [hz [hc hn]]].
  exists z. split; [exact (proj1 hz)|]. split; [apply srk_root; assumption|]. split.
  - intros z' h'. apply srk_root in h'; try assumption. exact (cubic_unique b q hb hk z z' hc h' (proj1 hz)).
  - intros n h0. destruct (hn n h0) as [x [hx hd]]. exists x. split; [|rewrite <- ek; exact hd].
    rewrite srk_call by assumption. exact hx.
Qed.

(** ** Van der Waals and Peng-Robinson: the iterations solve another equation *)
Lemma gen_law s P z b k D : 0 < s -> 0 < P -> z * s - b * s <> 0 -> D * s ^ 2 <> 0 ->
  P = s * P / (z * s - b * s) - k * s ^ 2 * P / (D * s ^ 2) -> z - b <> 0 /\ (z - 1 - b) * D + k * (z - b) = 0.
Proof.
  intros hs hP h1 h2 h.
  assert (n1 : z - b <> 0) by (intro e; apply h1; replace (z * s - b * s) with ((z - b) * s) by ring; rewrite e; ring).
  assert (n2 : D <> 0) by (intro e; apply h2; rewrite e; ring). split; [exact n1|].
  assert (e : s * P / (z * s - b * s) - k * s ^ 2 * P / (D * s ^ 2) - P = - P * ((z - 1 - b) * D + k * (z - b)) / ((z - b) * D)).
  { replace (z * s - b * s) with ((z - b) * s) by ring. field. repeat split; try assumption; lra. }
  rewrite <- h in e. replace (P - P) with 0 in e by ring. symmetry in e. unfold Rdiv in e. apply Rmult_integral in e. destruct e as [e|e].
  - apply Rmult_integral in e. destruct e as [e|e]; [lra|exact e].
  - exfalso. exact (Rinv_neq_0_compat _ (nz_mul _ _ n1 n2) e).
Qed.
Lemma no_common b q z D : 0 < b -> q <> 0 -> cubic b q z -> z - b <> 0 -> (z - 1 - b) * D + q * b * (z - b) = 0 ->
  (z - 1 - b) * (D - z * (z + b)) = 0 /\ z - 1 - b <> 0.
Proof.
  intros hb hq hc n h. unfold cubic in hc. split; [lra|]. intro e. rewrite e in h. assert (e' : q * b * (z - b) = 0) by lra.
  revert e'. apply nz_mul; [apply nz_mul; [exact hq|lra]|exact n].
Qed.
Lemma q_nz om psi al t : 0 < om -> 0 < t -> psi * al <> 0 -> psi * al / (om * t) <> 0.
Proof. intros h1 h2 h3. unfold Rdiv. apply nz_mul; [exact h3|]. apply Rinv_neq_0_compat. nra. Qed.
Theorem vdw_wrong tn pn T P Tc Pc st z : 0 < T -> 0 < P -> 0 < Tc -> 0 < Pc ->
  settles (van_der_waals (temp tn T) (pres pn P) (temp tn Tc) (pres pn Pc) st) z -> ~ compressibility van_der_waals_law T P Tc Pc z.
Proof.
  intros hT hP hTc hPc h hc. specialize (hc 1 ltac:(lra)). unfold van_der_waals_law in hc. cbv zeta in hc. destruct hc as [h1 [h2 h3]].
  assert (ht : 0 < T / Tc) by (apply Rdiv_lt_0_compat; assumption). assert (hp : 0 < P / Pc) by (apply Rdiv_lt_0_compat; assumption).
  pose proof (settles_cubic (van_der_waals (temp tn T) (pres pn P) (temp tn Tc) (pres pn Pc)) _ _ _ _ st z (vdw_call tn pn T P Tc Pc hT hTc hPc st) h) as hq.
  unfold beta_of, q_of in hq. set (b := 1 / 8 * (P / Pc / (T / Tc))) in *. set (q := 27 / 64 * 1 / (1 / 8 * (T / Tc))) in *.
  assert (hb : 0 < b) by (unfold b; apply Rmult_lt_0_compat; [lra|apply Rdiv_lt_0_compat; assumption]).
  assert (nq : q <> 0) by (apply q_nz; lra).
  set (s := T / P). assert (hs : 0 < s) by (apply Rdiv_lt_0_compat; assumption).
  assert (e1 : z * 1 * T / P = z * s) by (unfold s; field; lra). assert (e2 : 1 / 8 * 1 * Tc / Pc = b * s) by (unfold b, s; field; lra).
  assert (e3 : 1 * T = s * P) by (unfold s; field; lra). assert (e4 : 27 / 64 * 1 ^ 2 * Tc ^ 2 / Pc = q * b * s ^ 2 * P) by (unfold q, b, s; field; lra).
  rewrite e1, e2 in *. rewrite e3, e4 in h3. replace ((z * s) ^ 2) with (z ^ 2 * s ^ 2) in * by ring.
  destruct (gen_law s P z b (q * b) (z ^ 2) hs hP h1 h2 h3) as [n1 h5]. destruct (no_common b q z (z ^ 2) hb nq hq n1 h5) as [e n].
  destruct (cubic_regular b q z hb nq hq) as [n2 _]. apply Rmult_integral in e. destruct e as [e|e]; [tauto|].
  assert (e' : z * b = 0) by lra. revert e'. apply nz_mul; [exact n2|lra].
Qed.
Theorem pr_wrong tn pn T P Tc Pc st w z : 0 < T -> 0 < P -> 0 < Tc -> 0 < Pc ->
  1 + (0.37464 + 1.54226 * w - 0.26992 * w ^ 2) * (1 - sqrt (T / Tc)) <> 0 ->
  settles (peng_robinson (temp tn T) (pres pn P) (temp tn Tc) (pres pn Pc) st (VNum w)) z -> ~ compressibility (peng_robinson_law w) T P Tc Pc z.
Proof.
  intros hT hP hTc hPc hal h hc. specialize (hc 1 ltac:(lra)). unfold peng_robinson_law in hc. cbv zeta in hc. destruct hc as [h1 [h2 h3]].
  assert (ht : 0 < T / Tc) by (apply Rdiv_lt_0_compat; assumption). assert (hp : 0 < P / Pc) by (apply Rdiv_lt_0_compat; assumption).
  pose proof (settles_cubic (fun st => peng_robinson (temp tn T) (pres pn P) (temp tn Tc) (pres pn Pc) st (VNum w)) _ _ _ _ st z (pr_call tn pn T P Tc Pc hT hTc hPc st w) h) as hq.
  unfold beta_of, q_of, al_of in hq. set (al := (1 + (0.37464 + 1.54226 * w - 0.26992 * w ^ 2) * (1 - sqrt (T / Tc))) ^ 2) in *.
  assert (na : al <> 0) by (unfold al; apply pow_nonzero; exact hal).
  set (b := 0.07780 * (P / Pc / (T / Tc))) in *. set (q := 0.45724 * al / (0.07780 * (T / Tc))) in *.
  assert (hb : 0 < b) by (unfold b; apply Rmult_lt_0_compat; [lra|apply Rdiv_lt_0_compat; assumption]).
  assert (nq : q <> 0) by (apply q_nz; lra).
  set (s := T / P). assert (hs : 0 < s) by (apply Rdiv_lt_0_compat; assumption).
  assert (e1 : z * 1 * T / P = z * s) by (unfold s; field; lra). assert (e2 : 0.07780 * 1 * Tc / Pc = b * s) by (unfold b, s; field; lra).
  assert (e3 : 1 * T = s * P) by (unfold s; field; lra). assert (e4 : 0.45724 * 1 ^ 2 * Tc ^ 2 / Pc * al = q * b * s ^ 2 * P) by (unfold q, b, s; field; lra).
  rewrite e1, e2 in *. rewrite e3, e4 in h3. set (D := z * (z + b) + b * (z - b)).
  replace (z * s * (z * s + b * s) + b * s * (z * s - b * s)) with (D * s ^ 2) in * by (unfold D; ring).
  destruct (gen_law s P z b (q * b) D hs hP h1 h2 h3) as [n1 h5]. destruct (no_common b q z D hb nq hq n1 h5) as [e n].
  apply Rmult_integral in e. destruct e as [e|e]; [tauto|]. unfold D in e.
  assert (e' : b * (z - b) = 0) by lra. revert e'. apply nz_mul; [lra|exact n1].
Qed.

(** There are such calls. *)
Lemma vdw_settled : exists z, settles (van_der_waals (temp "K" 400) (pres "kPa" 100) (temp "K" 400) (pres "kPa" 400) "vapor") z.
Proof.
  set (b := 1 / 32). set (q := 27 / 8).
  assert (hb : 0 < b <= 1 / 2) by (unfold b; lra). assert (hk : 0 < q * b <= 1 / 5) by (unfold q, b; lra).
  destruct (cubic_exists b q hb hk) as [z [hz hc]]. exists z.
  assert (call : forall n, van_der_waals (temp "K" 400) (pres "kPa" 100) (temp "K" 400) (pres "kPa" 400) "vapor" n =
    solve_state "vapor" (vapor_rhs (VNum b) (VNum q)) (vapor_rhs (VNum b) (VNum q)) (liquid_rhs (VNum b) (VNum q)) (liquid_rhs (VNum b) (VNum q)) (VNum b) n).
  { intro n. rewrite vdw_call by lra. cbv zeta. replace (beta_of 400 100 400 400 (1 / 8)) with b by (unfold beta_of, b; lra). replace (q_of 400 400 (1 / 8) (27 / 64) 1) with q by (unfold q_of, q; lra). reflexivity. }
  apply (gas_settles b q hb hk _ (gv b q 1)); try assumption; try lra.
  - intros n hn. rewrite !call. apply state_vapor. exact hn.
  - rewrite call. unfold solve_state. replace (String.eqb "vapor" "vapor") with true by reflexivity. cbn [nq Rnum loop Z.to_nat]. rewrite q1, vapor_num, Reqb_no by nra. reflexivity.
  - apply (gv_low b q hb hk). lra.
Qed.
Lemma pr_settled : exists z, settles (peng_robinson (temp "K" 400) (pres "kPa" 100) (temp "K" 400) (pres "kPa" 1600) "vapor" (VNum 0.2)) z.
Proof.
  set (b := 0.0778 / 16). set (q := 0.45724 / 0.0778).
  assert (hb : 0 < b <= 1 / 2) by (unfold b; lra). assert (ek : q * b = 0.45724 / 16) by (unfold q, b; field; lra). assert (hk : 0 < q * b <= 1 / 5) by (rewrite ek; lra).
  destruct (cubic_exists b q hb hk) as [z [hz hc]]. exists z.
  set (f := peng_robinson (temp "K" 400) (pres "kPa" 100) (temp "K" 400) (pres "kPa" 1600) "vapor" (VNum 0.2)).
  set (sg := VNum (1 + sqrt 2)). set (ep := VNum (1 - sqrt 2)).
  assert (call : forall n, f n =
    solve_state "vapor" (pr_rhs sg ep (VNum b) (VNum q)) (vapor_rhs (VNum b) (VNum q)) (pr_rhs sg ep (VNum b) (VNum q)) (liquid_rhs (VNum b) (VNum q)) (VNum b) n).
  { intro n. unfold f. rewrite pr_call by lra. cbv zeta. replace (beta_of 400 100 400 1600 0.07780) with b by (unfold beta_of, b; lra).
    replace (al_of 400 400 0.37464 1.54226 0.26992 0.2) with 1. 2: { unfold al_of. replace (400 / 400) with 1 by field. rewrite sqrt_1. ring. }
    replace (q_of 400 400 0.07780 0.45724 1) with q by (unfold q_of, q; lra). reflexivity. }
  set (x0 := gp (1 + sqrt 2) (1 - sqrt 2) b q 1).
  assert (s2 : sqrt 2 * sqrt 2 = 2) by (apply sqrt_sqrt; lra).
  assert (hx0 : 1 / 10 <= x0).
  { unfold x0, gp. replace ((1 + (1 - sqrt 2) * b) * (1 + (1 + sqrt 2) * b)) with (1 + 2 * b + (1 - sqrt 2 * sqrt 2) * (b * b)) by ring. rewrite s2.
    replace ((1 + b - 1) / (q * b)) with (/ q) by (field; unfold q, b; lra). unfold q, b. lra. }
  assert (call0 : f 0%Z = Ok (VNum x0)).
  { rewrite call. unfold solve_state. replace (String.eqb "vapor" "vapor") with true by reflexivity. cbn [nq Rnum loop Z.to_nat]. rewrite q1. unfold sg, ep. rewrite pr_num, Reqb_no by (rewrite ek; lra). reflexivity. }
  assert (step : forall n, (0 <= n)%Z -> f (n + 1)%Z = (let* y := f n in vapor_rhs (VNum b) (VNum q) y)) by (intros n hn; rewrite !call; apply state_vapor; exact hn).
  set (g := fun n : Z => f (Z.max 0 n + 1)%Z).
  assert (call1 : g 0%Z = Ok (VNum (gv b q x0))).
  { unfold g. cbn [Z.max Z.compare]. rewrite (step 0%Z) by lia. rewrite call0. cbn [bind]. rewrite vapor_num, Reqb_no by (unfold b; nra). reflexivity. }
  assert (low : 1 / 2 <= gv b q x0).
  { unfold gv. rewrite ek. assert (h : (x0 - b) / (x0 * (x0 + b)) <= 10).
    { apply (Rmult_le_reg_r (x0 * (x0 + b))); [nra|]. unfold Rdiv. rewrite Rmult_assoc, Rinv_l by nra. nra. } unfold b in *. lra. }
  assert (hg : settles g z).
  { apply (gas_settles b q hb hk g (gv b q x0)); try assumption; try lra.
    intros n hn. unfold g. replace (Z.max 0 (n + 1) + 1)%Z with (Z.max 0 n + 1 + 1)%Z by lia. apply step. lia. }
  intros eps he. destruct (hg eps he) as [N hN]. exists (Z.max 1 (N + 1)). intros n hn. destruct (hN (n - 1)%Z ltac:(lia)) as [x [hx hd]].
  exists x. split; [|exact hd]. rewrite <- hx. unfold g. f_equal. lia.
Qed.

(** ** Celsius *)
Theorem rk_celsius : exists T P Tc Pc z, 0 < T /\ 0 < P /\ 0 < Tc /\ 0 < Pc /\
  settles (rendlich_kwong (temp "C" T) (pres "kPa" P) (temp "C" Tc) (pres "kPa" Pc) "vapor") z /\
  ~ compressibility redlich_kwong_law (T + 273.15) P (Tc + 273.15) Pc z.
Proof.
  exists 401.85, 100, 26.85, 400.
  set (t := 401.85 / 26.85). assert (ht : 14 < t < 15) by (unfold t; lra).
  assert (hs : 3 < sqrt t).
  { rewrite <- (sqrt_square 3) by lra. apply sqrt_lt_1; lra. }
  destruct (rk_gas "C" "kPa" 401.85 100 26.85 400 ltac:(lra) ltac:(lra) ltac:(lra) ltac:(lra)) as [z [hz0 [hc [_ hn]]]]; fold t.
  { lra. }
  { apply (Rmult_le_reg_r (t ^ 2 * sqrt t)); [nra|]. unfold Rdiv. rewrite Rmult_assoc, Rinv_l by nra. nra. }
  fold t in hn. exists z. repeat (split; [lra|]). split.
  - set (k := 0.42748 * (100 / 400) / (t ^ 2 * sqrt t)) in *.
    assert (hk : 0 < k <= 1 / 5).
    { unfold k. split; [apply Rdiv_lt_0_compat; nra|]. apply (Rmult_le_reg_r (t ^ 2 * sqrt t)); [nra|]. unfold Rdiv. rewrite Rmult_assoc, Rinv_l by nra. nra. }
    intros eps he. destruct (pow_lt_1_zero (4 * k) ltac:(rewrite Rabs_pos_eq; lra) eps he) as [N hN]. exists (Z.of_nat N). intros n hn'.
    destruct (hn n ltac:(lia)) as [x [hx hd]]. exists x. split; [exact hx|]. specialize (hN (S (Z.to_nat n)) ltac:(lia)).
    rewrite Rabs_pos_eq in hN by (apply pow_le; lra). assert (0 < (4 * k) ^ S (Z.to_nat n)) by (apply pow_lt; lra). lra.
  - intro h. apply rk_root in h; try lra. apply rk_root in hc; try lra.
    replace ((401.85 + 273.15) / (26.85 + 273.15)) with (1.5 * 1.5) in h by lra. rewrite sqrt_square in h by lra. fold t in hc.
    set (b := 0.08664 * (100 / 400 / (1.5 * 1.5))) in *. set (k := 0.42748 * (100 / 400) / (2.25 * 2.25 * 1.5)).
    assert (e : (z - 1 - b) * (z * (z + b)) + k * (z - b) = 0).
    { unfold cubic in h. assert (ek : 0.42748 * / 1.5 / (0.08664 * (1.5 * 1.5)) * b = k) by (unfold k, b; lra). rewrite ek in h. exact h. }
    set (b' := 0.08664 * (100 / 400 / t)) in *. set (k' := 0.42748 * (100 / 400) / (t ^ 2 * sqrt t)).
    assert (e' : (z - 1 - b') * (z * (z + b')) + k' * (z - b') = 0).
    { unfold cubic in hc. assert (ek : 0.42748 * / sqrt t / (0.08664 * t) * b' = k') by (unfold k', b'; field; lra). rewrite ek in hc. exact hc. }
    assert (hb' : 0.08664 / 60 < b' < 0.002) .
    { unfold b'. split; (apply (Rmult_lt_reg_r t); [lra|]); [|]; replace (0.08664 * (100 / 400 / t) * t) with (0.08664 / 4) by (field; lra); nra. }
    assert (hk' : 0 < k' < 0.0002).
    { unfold k'. assert (h1 : 588 < t ^ 2 * sqrt t) by nra. split; [apply Rdiv_lt_0_compat; lra|].
      apply (Rmult_lt_reg_r (t ^ 2 * sqrt t)); [lra|]. unfold Rdiv. rewrite (Rmult_assoc (_ * _)), Rinv_l by lra. lra. }
    assert (hb : b = 0.08664 / 9) by (unfold b; lra). assert (hk : 0.01405 < k < 0.01409) by (unfold k; lra).
    clearbody b k b' k'. clear - e e' hb' hk' hb hk hz0.
    assert (hz : 1 <= z \/ z < 1) by lra. destruct hz as [hz|hz].
    + subst b. nra.
    + nra.
Qed.
(** Any other state. *)
Lemma rk_state tn pn T P Tc Pc st n : 0 < T -> 0 < P -> 0 < Tc -> 0 < Pc -> st <> "vapor" -> st <> "liquid" ->
  rendlich_kwong (temp tn T) (pres pn P) (temp tn Tc) (pres pn Pc) st n = Raise EUnboundLocalError.
Proof.
  intros. rewrite rk_call by assumption. unfold solve_state. cbv zeta.
  destruct (String.eqb_spec st "vapor"); [tauto|]. destruct (String.eqb_spec st "liquid"); [tauto|reflexivity].
Qed.

(** ** Mixed units *)
Lemma ref_l f x y : refused x -> refused (lift2 f x y).
Proof. intros [e ->]. exists e. reflexivity. Qed.
Lemma ref_r f x y : refused y -> refused (lift2 f x y).
Proof. intros [e ->]. destruct x as [a|e']; [exists e|exists e']; reflexivity. Qed.
Lemma ref_bind (x : res (pyval R)) f : (forall a, x = Ok a -> refused (f a)) -> refused (bind x f).
Proof. intro h. destruct x as [a|e]; [apply h; reflexivity|exists e; reflexivity]. Qed.
Lemma one_plus m : refused (lift2 py_add (num 1) (Ok (VMulti m : pyval R))).
Proof. exists ETypeError. reflexivity. Qed.
Lemma vapor_ref m q z : refused (vapor_rhs (VMulti m) q z).
Proof. unfold vapor_rhs. apply ref_l. apply one_plus. Qed.
Lemma liquid_ref m q z : refused (liquid_rhs (VMulti m) q z).
Proof. unfold liquid_rhs. do 2 apply ref_r. apply ref_l, ref_l. apply one_plus. Qed.
Lemma pr_ref s e m q z : refused (pr_rhs s e (VMulti m) q z).
Proof. unfold pr_rhs. do 2 apply ref_r. apply ref_l, ref_l. apply one_plus. Qed.
Lemma state_ref st fv v fl l b n : (forall z, refused (fv z)) -> (forall z, refused (fl z)) -> refused (solve_state st fv v fl l b n).
Proof.
  intros h1 h2. unfold solve_state. destruct (String.eqb st "vapor"); [destruct (h1 (VNum (nq 1))) as [e ->]; exists e; reflexivity|].
  destruct (String.eqb st "liquid"); [destruct (h2 b) as [e ->]; exists e; reflexivity|exists EUnboundLocalError; reflexivity].
Qed.
Lemma beta_multi tn tn' pn pn' T P Tc Pc c p t b : mixed tn tn' pn pn' ->
  py_div (pres pn P) (pres pn' Pc) = Ok p -> py_div (temp tn T) (temp tn' Tc) = Ok t -> lift2 py_mul (num c) (lift2 py_div (Ok p) (Ok t)) = Ok b -> exists m, b = VMulti m.
Proof.
  intros hm hp ht hb. unfold py_div, unit_div, pres, temp in hp, ht. cbn [uv un uc ue] in hp, ht.
  destruct (pydiv P Pc) as [p'|]; [|discriminate]. destruct (pydiv T Tc) as [t'|]; [|discriminate]. cbn [bind] in hp, ht.
  destruct hm as [[n e]|[e n]]; rewrite e, String.eqb_refl in *.
  - replace (e_is (esub (eint 1) (eint 1)) 0) with true in hp by reflexivity. injection hp as <-. destruct (String.eqb_spec tn tn'); [tauto|]. injection ht as <-.
    unfold lift2, num in hb. cbn [bind py_div multi_rdiv mv] in hb. destruct (pydiv p' t'); [|discriminate]. cbn in hb. injection hb as <-. eexists. reflexivity.
  - replace (e_is (esub (eint 1) (eint 1)) 0) with true in ht by reflexivity. injection ht as <-. destruct (String.eqb_spec pn pn'); [tauto|]. injection hp as <-.
    unfold lift2, num in hb. cbn [bind py_div multi_div mv] in hb. destruct (pydiv p' t'); [|discriminate]. cbn in hb. injection hb as <-. eexists. reflexivity.
Qed.
Ltac mixstart hm :=
  apply ref_bind; intros p hp; apply ref_bind; intros t ht; unfold lift2 in hp, ht; cbn [bind] in hp, ht.
Lemma mixed_refused tn tn' pn pn' T P Tc Pc st n : mixed tn tn' pn pn' ->
  refused (rendlich_kwong (temp tn T) (pres pn P) (temp tn' Tc) (pres pn' Pc) st n) /\
  refused (van_der_waals (temp tn T) (pres pn P) (temp tn' Tc) (pres pn' Pc) st n) /\
  (forall w, refused (soave_rendlich_kwong (temp tn T) (pres pn P) (temp tn' Tc) (pres pn' Pc) st w n)) /\
  (forall w, refused (peng_robinson (temp tn T) (pres pn P) (temp tn' Tc) (pres pn' Pc) st w n)).
Proof.
  intro hm. split; [|split; [|split; intro w]].
  - unfold rendlich_kwong. mixstart hm. apply ref_bind; intros al _. apply ref_bind; intros b hb. destruct (beta_multi _ _ _ _ _ _ _ _ _ _ _ _ hm hp ht hb) as [m ->].
    apply ref_bind; intros q _. apply state_ref; intro z; [apply vapor_ref|apply liquid_ref].
  - unfold van_der_waals. mixstart hm. apply ref_bind; intros b hb. destruct (beta_multi _ _ _ _ _ _ _ _ _ _ _ _ hm hp ht hb) as [m ->].
    apply ref_bind; intros q _. apply state_ref; intro z; [apply vapor_ref|apply liquid_ref].
  - unfold soave_rendlich_kwong. mixstart hm. apply ref_bind; intros al _. apply ref_bind; intros b hb. destruct (beta_multi _ _ _ _ _ _ _ _ _ _ _ _ hm hp ht hb) as [m ->].
    apply ref_bind; intros q _. apply state_ref; intro z; [apply vapor_ref|apply liquid_ref].
  - unfold peng_robinson. mixstart hm. apply ref_bind; intros sg _. apply ref_bind; intros ep _. apply ref_bind; intros al _. apply ref_bind; intros b hb.
    destruct (beta_multi _ _ _ _ _ _ _ _ _ _ _ _ hm hp ht hb) as [m ->]. apply ref_bind; intros q _. apply state_ref; intro z; apply pr_ref.
Qed.

(** ** Stationary calls *)
Lemma step_call (f : string -> Z -> res (pyval R)) fv v fl l b st :
  (forall n, f st n = solve_state st fv v fl l b n) -> st = "vapor" \/ st = "liquid" ->
  exists rhs, forall n, (0 <= n)%Z -> f st (n + 1)%Z = (let* y := f st n in rhs y).
Proof.
  intros he [e|e]; subst st; [exists v|exists l]; intros n hn; rewrite !he; [apply state_vapor|apply state_liquid]; exact hn.
Qed.
Lemma ok_state (f : string -> Z -> res (pyval R)) fv v fl l b st n z :
  (forall n, f st n = solve_state st fv v fl l b n) -> f st n = Ok z -> st = "vapor" \/ st = "liquid".
Proof.
  intros he h. rewrite he in h. unfold solve_state in h.
  destruct (String.eqb_spec st "vapor"); [left; assumption|]. destruct (String.eqb_spec st "liquid"); [right; assumption|discriminate].
Qed.
Lemma rk_stationary tn pn T P Tc Pc st n z : 0 < T -> 0 < P -> 0 < Tc -> 0 < Pc -> (0 <= n)%Z ->
  let f := rendlich_kwong (temp tn T) (pres pn P) (temp tn Tc) (pres pn Pc) st in
  f n = Ok (VNum z) -> f (n + 1)%Z = Ok (VNum z) -> compressibility redlich_kwong_law T P Tc Pc z.
Proof.
  intros hT hP hTc hPc hn f h1 h2. apply (rk_settles tn pn T P Tc Pc st z hT hP hTc hPc).
  set (F := rendlich_kwong (temp tn T) (pres pn P) (temp tn Tc) (pres pn Pc)).
  pose proof (rk_call tn pn T P Tc Pc hT hTc hPc st) as he.
  destruct (step_call F _ _ _ _ _ st he (ok_state F _ _ _ _ _ st n _ he h1)) as [rhs hs].
  exact (stationary _ rhs n z hs hn h1 h2).
Qed.
Lemma srk_stationary tn pn T P Tc Pc st w n z : 0 < T -> 0 < P -> 0 < Tc -> 0 < Pc -> (0 <= n)%Z ->
  1 + (0.480 + 1.574 * w - 0.176 * w ^ 2) * (1 - sqrt (T / Tc)) <> 0 ->
  let f := soave_rendlich_kwong (temp tn T) (pres pn P) (temp tn Tc) (pres pn Pc) st (VNum w) in
  f n = Ok (VNum z) -> f (n + 1)%Z = Ok (VNum z) -> compressibility (soave_law w) T P Tc Pc z.
Proof.
  intros hT hP hTc hPc hn ha f h1 h2. apply (srk_settles tn pn T P Tc Pc st w z hT hP hTc hPc ha).
  set (F := fun st => soave_rendlich_kwong (temp tn T) (pres pn P) (temp tn Tc) (pres pn Pc) st (VNum w)).
  pose proof (srk_call tn pn T P Tc Pc hT hTc hPc st w) as he.
  destruct (step_call F _ _ _ _ _ st he (ok_state F _ _ _ _ _ st n _ he h1)) as [rhs hs].
  exact (stationary _ rhs n z hs hn h1 h2).
Qed.
Lemma vdw_refuted : exists T P Tc Pc z, 0 < T /\ 0 < P /\ 0 < Tc /\ 0 < Pc /\
  settles (van_der_waals (temp "K" T) (pres "kPa" P) (temp "K" Tc) (pres "kPa" Pc) "vapor") z /\ ~ compressibility van_der_waals_law T P Tc Pc z.
Proof.
  destruct vdw_settled as [z h]. exists 400, 100, 400, 400, z. repeat (split; [lra|]). split; [exact h|]. apply (vdw_wrong "K" "kPa" 400 100 400 400 "vapor" z); try lra. exact h.
Qed.
Lemma pr_refuted : exists T P Tc Pc w z, 0 < T /\ 0 < P /\ 0 < Tc /\ 0 < Pc /\
  settles (peng_robinson (temp "K" T) (pres "kPa" P) (temp "K" Tc) (pres "kPa" Pc) "vapor" (VNum w)) z /\ ~ compressibility (peng_robinson_law w) T P Tc Pc z.
Proof.
  destruct pr_settled as [z h]. exists 400, 100, 400, 1600, 0.2, z. repeat (split; [lra|]). split; [exact h|]. apply (pr_wrong "K" "kPa" 400 100 400 1600 "vapor" 0.2 z); try lra; [|exact h].
  replace (400 / 400) with 1 by field. rewrite sqrt_1. lra.
Qed.
(** The examples of the docstrings: 0.47750, 0.70816 and 0.4775. *)
Definition five_places (r : res (pyval Q)) : option Z :=
  match r with Ok (VNum x) => Some (Qnum x * 100000 / Zpos (Qden x))%Z | _ => None end.
Definition qtemp (x : Q) : pyval Q := VUnit (UO Temperature x "K" (eint 1)).
Definition qpres (x : Q) : pyval Q := VUnit (UO Pressure x "kPa" (eint 1)).
Lemma docstrings :
  five_places (rendlich_kwong (qtemp (350 # 1)) (qpres (350 # 1)) (qtemp (350 # 1)) (qpres (350 # 1)) "vapor" 6) = Some 47750%Z /\
  five_places (van_der_waals (qtemp (350 # 1)) (qpres (350 # 1)) (qtemp (350 # 1)) (qpres (350 # 1)) "vapor" 6) = Some 70816%Z /\
  five_places (soave_rendlich_kwong (qtemp (350 # 1)) (qpres (350 # 1)) (qtemp (350 # 1)) (qpres (350 # 1)) "vapor" (VNum (224 # 1000)) 6) = Some 47750%Z.
Proof. vm_compute. repeat split. Qed.
