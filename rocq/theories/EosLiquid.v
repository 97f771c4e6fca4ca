(** * EosLiquid: the liquid iterations converge at low temperatures *)
From Coq Require Import String List ZArith QArith Bool Reals Lra Lia.
From Verif Require Import Py Num UnitsData UnitsStruct Units Eos EosSpec EosFoundSpec EosFacts EosExact.
Local Open Scope string_scope.
Local Open Scope R_scope.

Section Liquid.
Variables (b q : R).
Hypothesis hb : 0 < b <= 8 / 11.
Hypothesis hq : 6 <= q.
Lemma qb_pos : 0 < q * b. Proof. nra. Qed.
Lemma gl_eq x : gl b q x = b + x * (x + b) * (1 + b - x) / (q * b).
Proof. unfold gl. field. split; lra. Qed.
Lemma gl_in x : b <= x <= 2 * b -> b <= gl b q x <= 2 * b.
Proof.
  intro hx. pose proof qb_pos as hp. rewrite gl_eq. set (N := x * (x + b) * (1 + b - x)).
  assert (h1 : 2 * (b * b) <= x * (x + b) <= 6 * (b * b)) by nra. assert (h2 : 0 <= 1 + b - x <= 1) by lra.
  assert (hN : 0 <= N <= q * b * b). { unfold N. split; [apply Rmult_le_pos; nra|]. apply Rle_trans with (x * (x + b) * 1); [apply Rmult_le_compat_l; nra|nra]. }
  assert (h3 : 0 <= N / (q * b) <= b); [|lra]. split; [apply Rmult_le_pos; [lra|left; apply Rinv_0_lt_compat; lra]|].
  apply (Rmult_le_reg_r (q * b)); [lra|]. unfold Rdiv. rewrite Rmult_assoc, Rinv_l by lra. lra.
Qed.
Lemma gl_lip x y : b <= x <= 2 * b -> b <= y <= 2 * b -> Rabs (gl b q x - gl b q y) <= 5 / q * Rabs (x - y).
Proof.
  intros hx hy. pose proof qb_pos as hp. set (D := x + y + b * (1 + b) - (x * x + x * y + y * y)).
  assert (e : gl b q x - gl b q y = D / b / q * (x - y)) by (unfold gl, D; field; lra).
  assert (hD : Rabs D <= 5 * b).
  { apply Rabs_le. unfold D. assert (b * b <= x * x <= 4 * (b * b)) by nra. assert (b * b <= y * y <= 4 * (b * b)) by nra. assert (b * b <= x * y <= 4 * (b * b)) by nra. nra. }
  rewrite e, Rabs_mult. apply Rmult_le_compat_r; [apply Rabs_pos|]. unfold Rdiv. rewrite !Rabs_mult.
  rewrite (Rabs_pos_eq (/ q)) by (left; apply Rinv_0_lt_compat; lra). rewrite (Rabs_pos_eq (/ b)) by (left; apply Rinv_0_lt_compat; lra).
  apply Rmult_le_compat_r; [left; apply Rinv_0_lt_compat; lra|]. apply (Rmult_le_reg_r b); [lra|]. rewrite Rmult_assoc, Rinv_l by lra. lra.
Qed.
Lemma rate : 0 < 5 / q < 1.
Proof. split; [apply Rdiv_lt_0_compat; lra|]. apply (Rmult_lt_reg_r q); [lra|]. unfold Rdiv. rewrite Rmult_assoc, Rinv_l by lra. lra. Qed.
Lemma liquid_fix z : cubic b q z -> gl b q z = z.
Proof.
  intro h. rewrite gl_eq. unfold cubic in h. replace (z * (z + b) * (1 + b - z)) with (q * b * (z - b)) by lra. field. lra.
Qed.
Lemma liquid_exists : exists z, b < z < 2 * b /\ cubic b q z.
Proof.
  set (f := fun z => (z - 1 - b) * (z * (z + b)) + q * b * (z - b)). assert (hc : continuity f) by (unfold f; reg).
  assert (l : f b < 0) by (unfold f; nra). assert (r : 0 < f (2 * b)).
  { unfold f. replace ((2 * b - 1 - b) * (2 * b * (2 * b + b)) + q * b * (2 * b - b)) with ((b * b) * (6 * b + (q - 6))) by ring. apply Rmult_lt_0_compat; nra. }
  destruct (IVT f b (2 * b) hc) as [z [h1 h2]]; [lra|exact l|exact r|]. exists z. split; [|exact h2].
  split; (destruct (Rlt_le_dec b z), (Rlt_le_dec z (2 * b)); try assumption; exfalso).
  1,2: replace z with b in h2 by lra; lra. all: replace z with (2 * b) in h2 by lra; lra.
Qed.
Lemma liquid_above z : cubic b q z -> 0 < z -> b < z.
Proof.
  intros h hz. unfold cubic in h. destruct (Rlt_le_dec b z) as [g|g]; [exact g|exfalso].
  assert (h1 : 0 < (1 + b - z) * (z * (z + b))) by (apply Rmult_lt_0_compat; nra). pose proof qb_pos as hp.
  assert (h2 : q * b * (z - b) <= 0) by nra. nra.
Qed.
Lemma liquid_least z z' : b <= z <= 2 * b -> cubic b q z -> cubic b q z' -> 0 < z' -> z <= z'.
Proof.
  intros hz h h' hp. pose proof (liquid_above z' h' hp) as g. destruct (Rle_dec z z') as [o|o]; [exact o|exfalso].
  pose proof (gl_lip z z' hz ltac:(lra)) as hl. rewrite (liquid_fix z h), (liquid_fix z' h'), Rabs_pos_eq in hl by lra. pose proof rate as r.
  assert (5 / q * (z - z') < z - z') by nra. lra.
Qed.
Lemma liquid_start z : b <= z <= 2 * b -> cubic b q z -> Rabs (gl b q b - z) <= 5 / q * b.
Proof.
  intros hz h. rewrite <- (liquid_fix z h) at 1. eapply Rle_trans; [apply gl_lip; lra|]. apply Rmult_le_compat_l; [left; apply rate|]. apply Rabs_le. lra.
Qed.
Lemma liquid_seq fv v fl : fl (VNum b) = Ok (VNum (gl b q b)) ->
  exists z, b < z < 2 * b /\ cubic b q z /\ (forall z', cubic b q z' -> 0 < z' -> z <= z') /\
  forall n, (0 <= n)%Z -> exists x, solve_state "liquid" fv v fl (liquid_rhs (VNum b) (VNum q)) (VNum b) n = Ok (VNum x) /\ b <= x <= 2 * b /\
    Rabs (x - z) <= (5 / q) ^ (S (Z.to_nat n)) * b.
Proof.
  intro h0. destruct liquid_exists as [z [hz hc]]. exists z. split; [exact hz|]. split; [exact hc|].
  split; [intros z'; apply liquid_least; [lra|exact hc]|].
  assert (key : forall n : nat, exists x, solve_state "liquid" fv v fl (liquid_rhs (VNum b) (VNum q)) (VNum b) (Z.of_nat n) = Ok (VNum x) /\ b <= x <= 2 * b /\
    Rabs (x - z) <= (5 / q) ^ S n * b).
  { induction n as [|n IH].
    - exists (gl b q b). split; [unfold solve_state; cbn [String.eqb Ascii.eqb Bool.eqb]; rewrite h0; reflexivity|]. split; [apply gl_in; lra|].
      cbn [pow]. rewrite Rmult_1_r. apply liquid_start; [lra|exact hc].
    - destruct IH as [x [hx [hi hd]]]. exists (gl b q x). split; [|split].
      + replace (Z.of_nat (S n)) with (Z.of_nat n + 1)%Z by lia. rewrite state_liquid by lia. rewrite hx. cbn [bind]. rewrite liquid_num, Reqb_no by (pose proof qb_pos; lra). reflexivity.
      + apply gl_in. exact hi.
      + rewrite <- (liquid_fix z hc) at 1. eapply Rle_trans; [apply gl_lip; [exact hi|lra]|]. change ((5 / q) ^ S (S n)) with (5 / q * (5 / q) ^ S n).
        rewrite Rmult_assoc. apply Rmult_le_compat_l; [left; apply rate|exact hd]. }
  intros n hn. destruct (key (Z.to_nat n)) as [x hx]. exists x. rewrite Z2Nat.id in hx by exact hn. exact hx.
Qed.
Lemma own_start : liquid_rhs (VNum b) (VNum q) (VNum b) = Ok (VNum (gl b q b)).
Proof. rewrite liquid_num, Reqb_no by (pose proof qb_pos; lra). reflexivity. Qed.
(** Peng-Robinson's first step from beta is Redlich-Kwong's: (1 + sigma) (1 + epsilon) = 2. *)
Lemma pr_start : pr_rhs (VNum (1 + sqrt 2)) (VNum (1 - sqrt 2)) (VNum b) (VNum q) (VNum b) = Ok (VNum (gl b q b)).
Proof.
  rewrite pr_num, Reqb_no by (pose proof qb_pos; lra). do 2 f_equal. unfold gp, gl. pose proof (sqrt_sqrt 2 ltac:(lra)) as e.
  assert (e2 : (b + (1 - sqrt 2) * b) * (b + (1 + sqrt 2) * b) = b * (b + b)); [|rewrite e2; reflexivity].
  transitivity (b * b * (4 - sqrt 2 * sqrt 2)); [ring|]. rewrite e. ring.
Qed.
End Liquid.

(** ** The four functions *)
Lemma form_iff om psi al T P Tc Pc z : 0 < om -> psi * al <> 0 -> 0 < T -> 0 < P -> 0 < Tc -> 0 < Pc ->
  (cubic (om * ((P / Pc) / (T / Tc))) (psi * al / (om * (T / Tc))) z <-> compressibility (kwong_form om (psi * al)) T P Tc Pc z).
Proof.
  intros ho hpa hT hP hTc hPc. split; [apply form_root; assumption|]. intro h. apply (rk_form om psi al T P Tc Pc z ho hpa hT hP hTc hPc).
  intros Rg hR. specialize (h Rg hR). unfold kwong_form in h. cbv zeta in *. destruct h as [k1 [k2 k3]]. split; [exact k1|split; [exact k2|]].
  rewrite k3 at 1. f_equal. f_equal. field. lra.
Qed.
Section Call.
Variables (tn pn : string) (T P Tc Pc : R).
Hypotheses (hT : 0 < T) (hP : 0 < P) (hTc : 0 < Tc) (hPc : 0 < Pc).
Lemma ht : 0 < T / Tc. Proof. apply Rdiv_lt_0_compat; assumption. Qed.
Lemma hpt : 0 < P / Pc / (T / Tc). Proof. apply Rdiv_lt_0_compat; [apply Rdiv_lt_0_compat; assumption|exact ht]. Qed.
Notation found law call b q := (finds_least law T P Tc Pc call b (5 / q)).
Lemma found_intro law call fv v fl b q : 0 < b <= 8 / 11 -> 6 <= q -> fl (VNum b) = Ok (VNum (gl b q b)) ->
  (forall z, cubic b q z <-> compressibility law T P Tc Pc z) ->
  (forall n, call n = solve_state "liquid" fv v fl (liquid_rhs (VNum b) (VNum q)) (VNum b) n) -> found law call b q.
Proof.
  intros hb hq h0 hl hc. destruct (liquid_seq b q hb hq fv v fl h0) as [z [h1 [h2 [h3 h4]]]]. exists z. split; [exact h1|].
  split; [apply hl; exact h2|]. split; [intros z' h'; apply h3; apply hl; exact h'|]. intros n hn. rewrite hc. exact (h4 n hn).
Qed.
Lemma rk_liquid : let q := 0.42748 / sqrt (T / Tc) / (0.08664 * (T / Tc)) in let b := 0.08664 * (P / Pc / (T / Tc)) in
  6 <= q -> b <= 8 / 11 -> found redlich_kwong_law (rendlich_kwong (temp tn T) (pres pn P) (temp tn Tc) (pres pn Pc) "liquid") b q.
Proof.
  intros q b h1 h2. pose proof hpt as h. assert (hb : 0 < b <= 8 / 11) by (split; [unfold b; lra|exact h2]).
  eapply found_intro; [exact hb|exact h1|apply own_start; assumption|intro z; apply rk_root; assumption|]. intro n. rewrite rk_call by assumption. reflexivity.
Qed.
Lemma srk_liquid w : let q := 0.42748 * (1 + (0.480 + 1.574 * w - 0.176 * w ^ 2) * (1 - sqrt (T / Tc))) ^ 2 / (0.08664 * (T / Tc)) in let b := 0.08664 * (P / Pc / (T / Tc)) in
  6 <= q -> b <= 8 / 11 -> found (soave_law w) (soave_rendlich_kwong (temp tn T) (pres pn P) (temp tn Tc) (pres pn Pc) "liquid" (VNum w)) b q.
Proof.
  intros q b h1 h2. pose proof hpt as h. assert (hb : 0 < b <= 8 / 11) by (split; [unfold b; lra|exact h2]).
  eapply found_intro; [exact hb|exact h1|apply own_start; assumption| |].
  - intro z. apply srk_root; try assumption. intro e. unfold q in h1. rewrite e in h1. unfold Rdiv in h1. lra.
  - intro n. rewrite srk_call by assumption. reflexivity.
Qed.
Lemma vdw_liquid : let q := 27 / 64 / (1 / 8 * (T / Tc)) in let b := 1 / 8 * (P / Pc / (T / Tc)) in
  6 <= q -> b <= 8 / 11 -> found (kwong_form (1 / 8) (27 / 64)) (van_der_waals (temp tn T) (pres pn P) (temp tn Tc) (pres pn Pc) "liquid") b q.
Proof.
  intros q b h1 h2. pose proof hpt as h. assert (hb : 0 < b <= 8 / 11) by (split; [unfold b; lra|exact h2]).
  assert (eq : q = 27 / 64 * 1 / (1 / 8 * (T / Tc))) by (unfold q; rewrite Rmult_1_r; reflexivity).
  eapply found_intro; [exact hb|exact h1|apply own_start; assumption| |].
  - intro z. rewrite eq. replace (kwong_form (1 / 8) (27 / 64)) with (kwong_form (1 / 8) (27 / 64 * 1)) by (f_equal; ring). apply form_iff; try assumption; lra.
  - intro n. rewrite vdw_call by assumption. rewrite eq. reflexivity.
Qed.
Lemma pr_liquid w : let al := (1 + (0.37464 + 1.54226 * w - 0.26992 * w ^ 2) * (1 - sqrt (T / Tc))) ^ 2 in
  let q := 0.45724 * al / (0.07780 * (T / Tc)) in let b := 0.07780 * (P / Pc / (T / Tc)) in
  6 <= q -> b <= 8 / 11 -> found (kwong_form 0.07780 (0.45724 * al)) (peng_robinson (temp tn T) (pres pn P) (temp tn Tc) (pres pn Pc) "liquid" (VNum w)) b q.
Proof.
  intros al q b h1 h2. pose proof hpt as h. assert (hb : 0 < b <= 8 / 11) by (split; [unfold b; lra|exact h2]).
  eapply found_intro; [exact hb|exact h1|apply pr_start; assumption| |].
  - intro z. apply form_iff; try assumption; try lra. apply nz_mul; [lra|]. intro e. unfold q in h1. rewrite e in h1. unfold Rdiv in h1. lra.
  - intro n. rewrite pr_call by assumption. reflexivity.
Qed.
End Call.

(** ** The vapor calls of van der Waals and Peng-Robinson *)
Section Vapor.
Variables (tn pn : string) (T P Tc Pc : R).
Hypotheses (hT : 0 < T) (hP : 0 < P) (hTc : 0 < Tc) (hPc : 0 < Pc).
Lemma vdw_gas : let k := 27 / 64 * (P / Pc) / (T / Tc) ^ 2 in 1 / 8 * (P / Pc) <= 1 / 2 * (T / Tc) -> k <= 1 / 5 ->
  finds_greatest (kwong_form (1 / 8) (27 / 64)) T P Tc Pc (van_der_waals (temp tn T) (pres pn P) (temp tn Tc) (pres pn Pc) "vapor") (fun n => (4 * k) ^ S n / 2).
Proof.
  intros k h1 h2. pose proof (ht T Tc hT hTc) as h. pose proof (hpt T P Tc Pc hT hP hTc hPc) as hr. assert (hp : 0 < P / Pc) by (apply Rdiv_lt_0_compat; assumption).
  set (b := 1 / 8 * (P / Pc / (T / Tc))). set (q := 27 / 64 * 1 / (1 / 8 * (T / Tc))).
  assert (ek : q * b = k) by (unfold q, b, k; field; lra).
  assert (hb : 0 < b <= 1 / 2).
  { unfold b. split; [lra|]. apply (Rmult_le_reg_r (T / Tc)); [exact h|]. replace (1 / 8 * (P / Pc / (T / Tc)) * (T / Tc)) with (1 / 8 * (P / Pc)) by (field; lra). exact h1. }
  assert (hk : 0 < q * b <= 1 / 5).
  { rewrite ek. split; [|exact h2]. unfold k. apply Rdiv_lt_0_compat; [lra|apply pow_lt; exact h]. }
  assert (law : forall z, cubic b q z <-> compressibility (kwong_form (1 / 8) (27 / 64)) T P Tc Pc z).
  { intro z. replace (kwong_form (1 / 8) (27 / 64)) with (kwong_form (1 / 8) (27 / 64 * 1)) by (f_equal; ring). apply form_iff; try assumption; lra. }
  destruct (gas_vapor b q hb hk (liquid_rhs (VNum b) (VNum q)) (liquid_rhs (VNum b) (VNum q)) (VNum b)) as [z [hz [hc hn]]].
  exists z. split; [exact (proj1 hz)|]. split; [apply law; exact hc|]. split.
  - intros z' h'. apply law in h'. exact (cubic_unique b q hb hk z z' hc h' (proj1 hz)).
  - intros n h0. destruct (hn n h0) as [x [hx hd]]. exists x. split; [|rewrite <- ek; exact hd]. rewrite vdw_call by assumption. exact hx.
Qed.
Lemma pr_first b q : 0 < b <= 1 / 2 -> 0 < q -> q * (q * b) <= 1 / 2 ->
  exists x, pr_rhs (VNum (1 + sqrt 2)) (VNum (1 - sqrt 2)) (VNum b) (VNum q) (VNum 1) = Ok (VNum x) /\ b <= x /\ 1 / 2 <= gv b q x <= 3 / 2.
Proof.
  intros hb hq hk. assert (hp : 0 < q * b) by nra. rewrite pr_num, Reqb_no by lra. eexists. split; [reflexivity|].
  assert (e : gp (1 + sqrt 2) (1 - sqrt 2) b q 1 = b + (1 + 2 * b - b * b) / q).
  { unfold gp. pose proof (sqrt_sqrt 2 ltac:(lra)) as e. replace ((1 + (1 - sqrt 2) * b) * (1 + (1 + sqrt 2) * b)) with (1 + 2 * b + b * b * (1 - sqrt 2 * sqrt 2)) by ring.
    rewrite e. field. lra. }
  rewrite e. set (x := b + (1 + 2 * b - b * b) / q). assert (hx : b + 1 / q <= x).
  { unfold x. apply Rplus_le_compat_l. unfold Rdiv. apply Rmult_le_compat_r; [left; apply Rinv_0_lt_compat; lra|nra]. }
  assert (hi : 0 < 1 / q) by (apply Rdiv_lt_0_compat; lra). split; [lra|].
  assert (hh : 0 <= (x - b) / (x * (x + b)) <= q).
  { assert (hd : 0 < x * (x + b)) by nra. split; [apply Rmult_le_pos; [lra|left; apply Rinv_0_lt_compat; exact hd]|].
    apply (Rmult_le_reg_r (x * (x + b))); [exact hd|]. unfold Rdiv. rewrite Rmult_assoc, Rinv_l by lra.
    assert (1 <= q * x). { apply Rle_trans with (q * (1 / q)); [right; field; lra|apply Rmult_le_compat_l; lra]. } nra. }
  unfold gv. assert (q * b * ((x - b) / (x * (x + b))) <= q * b * q) by (apply Rmult_le_compat_l; lra).
  assert (0 <= q * b * ((x - b) / (x * (x + b)))) by (apply Rmult_le_pos; lra). lra.
Qed.
Lemma pr_gas w : let al := (1 + (0.37464 + 1.54226 * w - 0.26992 * w ^ 2) * (1 - sqrt (T / Tc))) ^ 2 in
  let q := 0.45724 * al / (0.07780 * (T / Tc)) in let k := 0.45724 * al * (P / Pc) / (T / Tc) ^ 2 in
  0.07780 * (P / Pc) <= 1 / 2 * (T / Tc) -> 0 < k <= 1 / 5 -> q * k <= 1 / 2 ->
  finds_greatest (kwong_form 0.07780 (0.45724 * al)) T P Tc Pc
    (fun n => peng_robinson (temp tn T) (pres pn P) (temp tn Tc) (pres pn Pc) "vapor" (VNum w) (n + 1)) (fun n => (4 * k) ^ n).
Proof.
  intros al q k h1 h2 h3. pose proof (ht T Tc hT hTc) as h. pose proof (hpt T P Tc Pc hT hP hTc hPc) as hr. assert (hp : 0 < P / Pc) by (apply Rdiv_lt_0_compat; assumption).
  set (b := 0.07780 * (P / Pc / (T / Tc))). assert (ek : q * b = k) by (unfold q, b, k; field; lra).
  assert (hb : 0 < b <= 1 / 2).
  { unfold b. split; [lra|]. apply (Rmult_le_reg_r (T / Tc)); [exact h|]. replace (0.07780 * (P / Pc / (T / Tc)) * (T / Tc)) with (0.07780 * (P / Pc)) by (field; lra). exact h1. }
  assert (hk : 0 < q * b <= 1 / 5) by (rewrite ek; exact h2). assert (hq : 0 < q) by nra.
  assert (hal : 0.45724 * al <> 0) by (intro e; unfold q in hq; rewrite e in hq; unfold Rdiv in hq; lra).
  assert (law : forall z, cubic b q z <-> compressibility (kwong_form 0.07780 (0.45724 * al)) T P Tc Pc z) by (intro z; apply form_iff; try assumption; lra).
  destruct (cubic_exists b q hb hk) as [z [hz hc]]. exists z. split; [exact (proj1 hz)|]. split; [apply law; exact hc|]. split.
  { intros z' h'. apply law in h'. exact (cubic_unique b q hb hk z z' hc h' (proj1 hz)). }
  destruct (pr_first b q hb hq ltac:(rewrite ek; exact h3)) as [x0 [e0 [hx0 hg]]].
  set (f := fun n => peng_robinson (temp tn T) (pres pn P) (temp tn Tc) (pres pn Pc) "vapor" (VNum w) (n + 1)).
  assert (call : forall n, (0 <= n)%Z -> peng_robinson (temp tn T) (pres pn P) (temp tn Tc) (pres pn Pc) "vapor" (VNum w) (n + 1) =
    (let* y := peng_robinson (temp tn T) (pres pn P) (temp tn Tc) (pres pn Pc) "vapor" (VNum w) n in vapor_rhs (VNum b) (VNum q) y)).
  { intros n hn. rewrite !pr_call by assumption. cbv zeta. rewrite state_vapor by exact hn. reflexivity. }
  assert (f0 : f 0%Z = Ok (VNum (gv b q x0))).
  { unfold f. rewrite call by lia. rewrite pr_call by assumption. cbv zeta. unfold solve_state. cbn [Z.to_nat loop String.eqb Ascii.eqb Bool.eqb nq Rnum]. rewrite q1.
    change (VNum (beta_of T P Tc Pc 0.07780)) with (VNum b). change (VNum (q_of T Tc 0.07780 0.45724 (al_of T Tc 0.37464 1.54226 0.26992 w))) with (VNum q).
    rewrite e0. cbn [bind]. rewrite vapor_num, Reqb_no by nra. reflexivity. }
  intros n hn. destruct (gas_seq b q hb hk f _ z (fun n hn => call (n + 1)%Z ltac:(lia)) f0 (proj1 hg) hc (proj1 hz) (Z.to_nat n)) as [x [hx [_ hd]]].
  exists x. rewrite Z2Nat.id in hx by lia. split; [exact hx|]. rewrite <- ek. eapply Rle_trans; [exact hd|].
  rewrite <- (Rmult_1_r ((4 * (q * b)) ^ Z.to_nat n)) at 2. apply Rmult_le_compat_l; [apply pow_le; lra|]. apply Rabs_le. lra.
Qed.
End Vapor.
