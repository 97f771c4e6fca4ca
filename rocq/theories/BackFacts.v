(** * BackFacts: solving the planar wall for its temperatures and thickness, with prefixed units *)
From Coq Require Import String Ascii List ZArith QArith Qcanon Bool Reals Qreals Lia Lra.
From Verif Require Import Py Num UnitsData UnitsStruct Units NumFacts Spec SpecFacts StructFacts
  OpFacts NamesFacts ClosureFacts FactorFacts LawFacts WitnessFacts OpPropFacts OpExactFacts Expr ExprFacts ExprSpec ExprExact Solve Formulas FormulaSpec SemFacts SymFacts SweepFacts SimFacts ConductionFacts DimlessFacts PrefixedFacts.
Import ListNotations.
Local Open Scope string_scope.
Local Open Scope list_scope.
Local Open Scope R_scope.

(** A division that returns had a divisor other than zero. *)
Lemma div_ok_nonzero w a b y r : coherent w -> good a -> good b -> qty w b = Some y -> py_div a b = Ok r -> y <> 0.
Proof.
  intros hw ga gb qb h z. assert (vz : value b = 0) by (apply (qty_zero w b y (co_pos _ hw) gb qb); exact z).
  destruct (div_total a b ga gb) as [h1 [_ h3]].
  assert (d : (exists x u, a = VNum x /\ b = VUnit u) \/ ((forall x, a <> VNum x) \/ (forall u, b <> VUnit u))).
  { clear. destruct a; try (right; left; intros ? k; discriminate k). destruct b; try (right; right; intros ? k; discriminate k). left. eexists _, _. split; reflexivity. }
  destruct d as [[x0 [u [-> ->]]]|d]; [rewrite (h3 x0 u eq_refl eq_refl) in h|rewrite (h1 (conj vz d)) in h]; discriminate h.
Qed.
Lemma neg_gives w a x r : coherent w -> good a -> qty w a = Some x -> py_neg a = Ok r -> qty w r = Some (- x).
Proof.
  intros hw g q h. destruct (good_quantity a g) as [[p ->]|q1].
  { cbn in *. injection h as <-. injection q as <-. reflexivity. }
  destruct (neg_all a q1) as [r' [e [_ [_ k]]]]. rewrite h in e. injection e as <-. apply k; assumption.
Qed.
(** What a product or quotient loses does not depend on the sign of a factor. *)
Lemma neg_lost w a b r : good a -> py_neg a = Ok r -> lost_mul w r b = lost_mul w a b.
Proof.
  intros g h. destruct a as [v| | |u|m]; cbn in g; try contradiction; cbn [py_neg] in h.
  - injection h as <-. reflexivity.
  - unfold unit_neg in h. unfold vunit in h. rewrite (rebuild u _ _ (proj2 g)) in h. injection h as <-. destruct b; reflexivity.
  - injection h as <-. destruct b; reflexivity.
Qed.
Lemma neg_lost_div a b r : good b -> py_neg b = Ok r -> lost_div a r = lost_div a b.
Proof.
  intros g h. destruct b as [v| | |u|m]; cbn in g; try contradiction; cbn [py_neg] in h.
  - injection h as <-. reflexivity.
  - unfold unit_neg in h. unfold vunit in h. rewrite (rebuild u _ _ (proj2 g)) in h. injection h as <-. destruct a; reflexivity.
  - injection h as <-. destruct a; reflexivity.
Qed.
Lemma off_iff (y u c : R) : Some (y + u * c) = Some (y + u) <-> u = 0 \/ c = 1.
Proof.
  split.
  - intro h. injection h as h. destruct (Req_EM_T u 0) as [e|e]; [left; exact e|right]. apply (Rmult_eq_reg_l u); [lra|exact e].
  - intros [-> | ->]; f_equal; ring.
Qed.

(** ** planar_heat *)
Lemma heat_rise k A d q w x z e p s : coherent w -> good k -> good A -> good d -> good q ->
  qty w k = Some x -> qty w A = Some z -> qty w d = Some e -> qty w q = Some p ->
  (let* dq := py_mul d q in let* nk := py_neg k in let* ka := py_mul nk A in py_div dq ka) = Ok s ->
  exists dq nk ka, py_mul d q = Ok dq /\ py_neg k = Ok nk /\ py_mul nk A = Ok ka /\ good s /\ x <> 0 /\ z <> 0 /\
    qty w s = Some (- (e * p / (x * z)) * (lost_mul w k A / (lost_mul w d q * lost_div dq ka))).
Proof.
  intros hw gk gA gd gq qk qA qd qq h. apply bind_ok in h. destruct h as [dq [h1 h]]. apply bind_ok in h. destruct h as [nk [h2 h]].
  apply bind_ok in h. destruct h as [ka [h3 h]]. exists dq, nk, ka.
  pose proof (good_mul _ _ _ gd gq h1) as g1. pose proof (good_neg _ _ gk h2) as g2. pose proof (good_mul _ _ _ g2 gA h3) as g3. pose proof (good_div _ _ _ g1 g3 h) as gs.
  pose proof (mul_gives w _ _ _ _ _ hw gd gq qd qq h1) as q1. pose proof (neg_gives w _ _ _ hw gk qk h2) as q2.
  pose proof (mul_gives w _ _ _ _ _ hw g2 gA q2 qA h3) as q3. rewrite (neg_lost w k A nk gk h2) in q3.
  pose proof (div_ok_nonzero w _ _ _ _ hw g1 g3 q3 h) as nz.
  pose proof (lost_mul_pos w k A) as p1. pose proof (lost_mul_pos w d q) as p2. pose proof (lost_div_pos dq ka) as p3.
  assert (nx : x <> 0) by (intro c; apply nz; rewrite c; field; lra).
  assert (nzz : z <> 0) by (intro c; apply nz; rewrite c; field; lra).
  pose proof (div_gives w _ _ _ _ _ hw g1 g3 q1 q3 nz h) as qs.
  repeat (split; [assumption|]). rewrite qs. f_equal. field. repeat split; lra.
Qed.
Lemma heat_t2 k t1 A d q r w x y1 z e p : coherent w -> good k -> good (VUnit t1) -> good A -> good d -> good q ->
  qty w k = Some x -> qty w (VUnit t1) = Some y1 -> qty w A = Some z -> qty w d = Some e -> qty w q = Some p ->
  planar_heat [AVal k; AVal (VUnit t1); ANone; AVal A; AVal d; AVal q] [] = Ok r ->
  exists dq nk ka, py_mul d q = Ok dq /\ py_neg k = Ok nk /\ py_mul nk A = Ok ka /\
    let c := lost_mul w k A / (lost_mul w d q * lost_div dq ka) in
    qty w r = Some (y1 - e * p / (x * z) * c) /\ (qty w r = Some (y1 - e * p / (x * z)) <-> e * p = 0 \/ c = 1).
Proof.
  intros hw gk g1 gA gd gq qk q1 qA qd qq h. rewrite (ph_t2_run _ _ _ VNone) in h. cbn [run ph_t2 var nth_error] in h. unfold omul, odiv, oadd, oneg in h. cbn [bind] in h.
  apply bind_ok in h. destruct h as [s [hs h]]. destruct (heat_rise k A d q w x z e p s hw gk gA gd gq qk qA qd qq) as [dq [nk [ka [e1 [e2 [e3 [gs [nx [nz qs]]]]]]]]].
  { rewrite <- hs. destruct (py_mul d q); [|reflexivity]. cbn [bind]. destruct (py_neg k); [|reflexivity]. reflexivity. }
  exists dq, nk, ka. split; [exact e1|]. split; [exact e2|]. split; [exact e3|]. cbv zeta.
  pose proof (proj1 (addsub_gives w _ _ _ _ r hw gs g1 qs q1) h) as qr.
  assert (ea : forall u v, added w s (VUnit t1) u v = u + v) by (intros; destruct s; reflexivity). rewrite ea in qr. rewrite qr.
  set (c := lost_mul w k A / (lost_mul w d q * lost_div dq ka)).
  replace (- (e * p / (x * z)) * c + y1) with (y1 + - (e * p / (x * z)) * c) by ring.
  split; [f_equal; ring|]. replace (y1 - e * p / (x * z)) with (y1 + - (e * p / (x * z))) by ring. rewrite off_iff.
  assert (ez : - (e * p / (x * z)) = 0 <-> e * p = 0).
  { split; intro k0; [|rewrite k0; field; auto]. replace (e * p) with (- (- (e * p / (x * z))) * (x * z)) by (field; auto). rewrite k0. ring. }
  rewrite ez. reflexivity.
Qed.
Lemma heat_t1 k t2 A d q r w x y2 z e p : coherent w -> good k -> good (VUnit t2) -> good A -> good d -> good q ->
  qty w k = Some x -> qty w (VUnit t2) = Some y2 -> qty w A = Some z -> qty w d = Some e -> qty w q = Some p ->
  planar_heat [AVal k; ANone; AVal (VUnit t2); AVal A; AVal d; AVal q] [] = Ok r ->
  exists dq nk ka, py_mul d q = Ok dq /\ py_neg k = Ok nk /\ py_mul nk A = Ok ka /\
    let c := lost_mul w k A / (lost_mul w d q * lost_div dq ka) in
    qty w r = Some (y2 + e * p / (x * z) * c) /\ (qty w r = Some (y2 + e * p / (x * z)) <-> e * p = 0 \/ c = 1).
Proof.
  intros hw gk g1 gA gd gq qk q1 qA qd qq h. rewrite (ph_t1_run _ _ VNone) in h. cbn [run ph_t1 var nth_error] in h. unfold omul, odiv, oadd, oneg in h. cbn [bind] in h.
  apply bind_ok in h. destruct h as [ns [hns h]]. apply bind_ok in hns. destruct hns as [s [hs hns]].
  destruct (heat_rise k A d q w x z e p s hw gk gA gd gq qk qA qd qq) as [dq [nk [ka [e1 [e2 [e3 [gs [nx [nz qs]]]]]]]]].
  { rewrite <- hs. destruct (py_mul d q); [|reflexivity]. cbn [bind]. destruct (py_neg k); [|reflexivity]. reflexivity. }
  exists dq, nk, ka. split; [exact e1|]. split; [exact e2|]. split; [exact e3|]. cbv zeta.
  pose proof (neg_gives w _ _ _ hw gs qs hns) as qns. pose proof (good_neg _ _ gs hns) as gns.
  pose proof (proj1 (addsub_gives w _ _ _ _ r hw gns g1 qns q1) h) as qr.
  assert (ea : forall u v, added w ns (VUnit t2) u v = u + v) by (intros; destruct ns; reflexivity). rewrite ea in qr. rewrite qr.
  set (c := lost_mul w k A / (lost_mul w d q * lost_div dq ka)).
  replace (- (- (e * p / (x * z)) * c) + y2) with (y2 + e * p / (x * z) * c) by ring.
  split; [reflexivity|]. rewrite off_iff.
  assert (ez : e * p / (x * z) = 0 <-> e * p = 0).
  { split; intro k0; [|rewrite k0; field; auto]. replace (e * p) with ((e * p / (x * z)) * (x * z)) by (field; auto). rewrite k0. ring. }
  rewrite ez. reflexivity.
Qed.
Lemma heat_d k t1 t2 A q r w x y1 y2 z p : coherent w -> good k -> good (VUnit t1) -> good (VUnit t2) -> good A -> good q ->
  qty w k = Some x -> qty w (VUnit t1) = Some y1 -> qty w (VUnit t2) = Some y2 -> qty w A = Some z -> qty w q = Some p ->
  planar_heat [AVal k; AVal (VUnit t1); AVal (VUnit t2); AVal A; ANone; AVal q] [] = Ok r ->
  exists nk ka dt s, py_neg k = Ok nk /\ py_mul nk A = Ok ka /\ py_sub (VUnit t2) (VUnit t1) = Ok dt /\ py_mul ka dt = Ok s /\
    let c := lost_mul w k A * lost_mul w ka dt * lost_div s q in
    qty w r = Some (- (x * z * (y2 - y1) / p) / c) /\ (qty w r = Some (- (x * z * (y2 - y1) / p)) <-> - (x * z * (y2 - y1) / p) = 0 \/ c = 1).
Proof.
  intros hw gk g1 g2 gA gq qk q1 q2 qA qq h. rewrite (ph_d_run _ _ _ _ _ VNone) in h. cbn [run ph_d var nth_error] in h. unfold omul, odiv, osub, oneg in h. cbn [bind] in h.
  apply bind_ok in h. destruct h as [s [hs h]]. apply bind_ok in hs. destruct hs as [ka [hka hs]]. apply bind_ok in hka. destruct hka as [nk [hnk hka]].
  apply bind_ok in hs. destruct hs as [dt [hdt hs]]. exists nk, ka, dt, s. split; [exact hnk|]. split; [exact hka|]. split; [exact hdt|]. split; [exact hs|]. cbv zeta.
  pose proof (proj2 (addsub_gives w _ _ _ _ dt hw g2 g1 q2 q1) hdt) as qdt. cbn [added] in qdt.
  pose proof (good_addsub _ _ _ g2 g1 (or_intror hdt)) as gdt. pose proof (good_neg _ _ gk hnk) as gn. pose proof (good_mul _ _ _ gn gA hka) as ga. pose proof (good_mul _ _ _ ga gdt hs) as gs.
  pose proof (neg_gives w _ _ _ hw gk qk hnk) as qn. pose proof (mul_gives w _ _ _ _ _ hw gn gA qn qA hka) as qa. rewrite (neg_lost w k A nk gk hnk) in qa.
  pose proof (mul_gives w _ _ _ _ _ hw ga gdt qa qdt hs) as qs. pose proof (div_ok_nonzero w _ _ _ _ hw gs gq qq h) as np.
  pose proof (div_gives w _ _ _ _ _ hw gs gq qs qq np h) as qr.
  pose proof (lost_mul_pos w k A) as p1. pose proof (lost_mul_pos w ka dt) as p2. pose proof (lost_div_pos s q) as p3.
  set (c := lost_mul w k A * lost_mul w ka dt * lost_div s q). assert (pc : 0 < c) by (unfold c; repeat apply Rmult_lt_0_compat; assumption).
  assert (er : qty w r = Some (- (x * z * (y2 - y1) / p) / c)) by (rewrite qr; f_equal; unfold c; field; repeat split; lra).
  split; [exact er|]. rewrite er. apply right_iff. exact pc.
Qed.

(** ** planar_flux *)
Lemma flux_q k t1 t2 d r w x y1 y2 e : coherent w -> good k -> good (VUnit t1) -> good (VUnit t2) -> good d ->
  qty w k = Some x -> qty w (VUnit t1) = Some y1 -> qty w (VUnit t2) = Some y2 -> qty w d = Some e ->
  planar_flux [AVal k; AVal (VUnit t1); AVal (VUnit t2); AVal d] [] = Ok r ->
  exists dt g, py_sub (VUnit t2) (VUnit t1) = Ok dt /\ py_div dt d = Ok g /\
    let c := lost_mul w k g * lost_div dt d in
    qty w r = Some (- (x * (y2 - y1) / e) / c) /\ (qty w r = Some (- (x * (y2 - y1) / e)) <-> - (x * (y2 - y1) / e) = 0 \/ c = 1).
Proof.
  intros hw gk g1 g2 gd qk q1 q2 qd h. rewrite pf_q_run in h. cbn [run pf_q var nth_error] in h. unfold omul, odiv, osub, oneg in h. cbn [bind] in h.
  apply bind_ok in h. destruct h as [nk [hnk h]]. apply bind_ok in h. destruct h as [g [hg h]]. apply bind_ok in hg. destruct hg as [dt [hdt hg]].
  exists dt, g. split; [exact hdt|]. split; [exact hg|]. cbv zeta.
  pose proof (proj2 (addsub_gives w _ _ _ _ dt hw g2 g1 q2 q1) hdt) as qdt. cbn [added] in qdt.
  pose proof (good_addsub _ _ _ g2 g1 (or_intror hdt)) as gdt. pose proof (good_neg _ _ gk hnk) as gn. pose proof (good_div _ _ _ gdt gd hg) as gg.
  pose proof (neg_gives w _ _ _ hw gk qk hnk) as qn. pose proof (div_ok_nonzero w _ _ _ _ hw gdt gd qd hg) as ne.
  pose proof (div_gives w _ _ _ _ _ hw gdt gd qdt qd ne hg) as qg. pose proof (mul_gives w _ _ _ _ _ hw gn gg qn qg h) as qr. rewrite (neg_lost w k g nk gk hnk) in qr.
  pose proof (lost_mul_pos w k g) as p1. pose proof (lost_div_pos dt d) as p2.
  set (c := lost_mul w k g * lost_div dt d). assert (pc : 0 < c) by (apply Rmult_lt_0_compat; assumption).
  assert (er : qty w r = Some (- (x * (y2 - y1) / e) / c)) by (rewrite qr; f_equal; unfold c; field; repeat split; lra).
  split; [exact er|]. rewrite er. apply right_iff. exact pc.
Qed.
Lemma flux_rise k d q w x e p s : coherent w -> good k -> good d -> good q ->
  qty w k = Some x -> qty w d = Some e -> qty w q = Some p ->
  (let* dq := py_mul d q in let* nk := py_neg k in py_div dq nk) = Ok s ->
  exists dq, py_mul d q = Ok dq /\ good s /\ x <> 0 /\
    qty w s = Some (- (e * p / x) * / (lost_mul w d q * lost_div dq k)).
Proof.
  intros hw gk gd gq qk qd qq h. apply bind_ok in h. destruct h as [dq [h1 h]]. apply bind_ok in h. destruct h as [nk [h2 h]]. exists dq.
  pose proof (good_mul _ _ _ gd gq h1) as g1. pose proof (good_neg _ _ gk h2) as g2. pose proof (good_div _ _ _ g1 g2 h) as gs.
  pose proof (mul_gives w _ _ _ _ _ hw gd gq qd qq h1) as q1. pose proof (neg_gives w _ _ _ hw gk qk h2) as q2.
  pose proof (div_ok_nonzero w _ _ _ _ hw g1 g2 q2 h) as nz. assert (nx : x <> 0) by (intro c; apply nz; rewrite c; ring).
  pose proof (lost_mul_pos w d q) as p2. pose proof (lost_div_pos dq k) as p3.
  pose proof (div_gives w _ _ _ _ _ hw g1 g2 q1 q2 nz h) as qs. rewrite (neg_lost_div dq k nk gk h2) in qs.
  repeat (split; [assumption|]). rewrite qs. f_equal. field. repeat split; lra.
Qed.
Lemma flux_t2 k t1 d q r w x y1 e p : coherent w -> good k -> good (VUnit t1) -> good d -> good q ->
  qty w k = Some x -> qty w (VUnit t1) = Some y1 -> qty w d = Some e -> qty w q = Some p ->
  planar_flux [AVal k; AVal (VUnit t1); ANone; AVal d; AVal q] [] = Ok r ->
  exists dq, py_mul d q = Ok dq /\
    let c := / (lost_mul w d q * lost_div dq k) in
    qty w r = Some (y1 - e * p / x * c) /\ (qty w r = Some (y1 - e * p / x) <-> e * p = 0 \/ c = 1).
Proof.
  intros hw gk g1 gd gq qk q1 qd qq h. rewrite (pf_t2_run _ _ _ VNone) in h. cbn [run pf_t2 var nth_error] in h. unfold omul, odiv, oadd, oneg in h. cbn [bind] in h.
  apply bind_ok in h. destruct h as [s [hs h]]. destruct (flux_rise k d q w x e p s hw gk gd gq qk qd qq) as [dq [e1 [gs [nx qs]]]].
  { rewrite <- hs. reflexivity. }
  exists dq. split; [exact e1|]. cbv zeta.
  pose proof (proj1 (addsub_gives w _ _ _ _ r hw gs g1 qs q1) h) as qr.
  assert (ea : forall u v, added w s (VUnit t1) u v = u + v) by (intros; destruct s; reflexivity). rewrite ea in qr. rewrite qr.
  set (c := / (lost_mul w d q * lost_div dq k)).
  replace (- (e * p / x) * c + y1) with (y1 + - (e * p / x) * c) by ring.
  split; [f_equal; ring|]. replace (y1 - e * p / x) with (y1 + - (e * p / x)) by ring. rewrite off_iff.
  assert (ez : - (e * p / x) = 0 <-> e * p = 0).
  { split; intro k0; [|rewrite k0; field; auto]. replace (e * p) with (- (- (e * p / x)) * x) by (field; auto). rewrite k0. ring. }
  rewrite ez. reflexivity.
Qed.
Lemma flux_t1 k t2 d q r w x y2 e p : coherent w -> good k -> good (VUnit t2) -> good d -> good q ->
  qty w k = Some x -> qty w (VUnit t2) = Some y2 -> qty w d = Some e -> qty w q = Some p ->
  planar_flux [AVal k; ANone; AVal (VUnit t2); AVal d; AVal q] [] = Ok r ->
  exists dq, py_mul d q = Ok dq /\
    let c := / (lost_mul w d q * lost_div dq k) in
    qty w r = Some (y2 + e * p / x * c) /\ (qty w r = Some (y2 + e * p / x) <-> e * p = 0 \/ c = 1).
Proof.
  intros hw gk g1 gd gq qk q1 qd qq h. rewrite (pf_t1_run _ _ VNone) in h. cbn [run pf_t1 var nth_error] in h. unfold omul, odiv, oadd, oneg in h. cbn [bind] in h.
  apply bind_ok in h. destruct h as [ns [hns h]]. apply bind_ok in hns. destruct hns as [s [hs hns]].
  destruct (flux_rise k d q w x e p s hw gk gd gq qk qd qq) as [dq [e1 [gs [nx qs]]]].
  { rewrite <- hs. reflexivity. }
  exists dq. split; [exact e1|]. cbv zeta.
  pose proof (neg_gives w _ _ _ hw gs qs hns) as qns. pose proof (good_neg _ _ gs hns) as gns.
  pose proof (proj1 (addsub_gives w _ _ _ _ r hw gns g1 qns q1) h) as qr.
  assert (ea : forall u v, added w ns (VUnit t2) u v = u + v) by (intros; destruct ns; reflexivity). rewrite ea in qr. rewrite qr.
  set (c := / (lost_mul w d q * lost_div dq k)).
  replace (- (- (e * p / x) * c) + y2) with (y2 + e * p / x * c) by ring.
  split; [reflexivity|]. rewrite off_iff.
  assert (ez : e * p / x = 0 <-> e * p = 0).
  { split; intro k0; [|rewrite k0; field; auto]. replace (e * p) with ((e * p / x) * x) by (field; auto). rewrite k0. ring. }
  rewrite ez. reflexivity.
Qed.
Lemma flux_d k t1 t2 q r w x y1 y2 p : coherent w -> good k -> good (VUnit t1) -> good (VUnit t2) -> good q ->
  qty w k = Some x -> qty w (VUnit t1) = Some y1 -> qty w (VUnit t2) = Some y2 -> qty w q = Some p ->
  planar_flux [AVal k; AVal (VUnit t1); AVal (VUnit t2); ANone; AVal q] [] = Ok r ->
  exists nk dt s, py_neg k = Ok nk /\ py_sub (VUnit t2) (VUnit t1) = Ok dt /\ py_mul nk dt = Ok s /\
    let c := lost_mul w k dt * lost_div s q in
    qty w r = Some (- (x * (y2 - y1) / p) / c) /\ (qty w r = Some (- (x * (y2 - y1) / p)) <-> - (x * (y2 - y1) / p) = 0 \/ c = 1).
Proof.
  intros hw gk g1 g2 gq qk q1 q2 qq h. rewrite (pf_d_run _ _ _ _ VNone) in h. cbn [run pf_d var nth_error] in h. unfold omul, odiv, osub, oneg in h. cbn [bind] in h.
  apply bind_ok in h. destruct h as [s [hs h]]. apply bind_ok in hs. destruct hs as [nk [hnk hs]].
  apply bind_ok in hs. destruct hs as [dt [hdt hs]]. exists nk, dt, s. split; [exact hnk|]. split; [exact hdt|]. split; [exact hs|]. cbv zeta.
  pose proof (proj2 (addsub_gives w _ _ _ _ dt hw g2 g1 q2 q1) hdt) as qdt. cbn [added] in qdt.
  pose proof (good_addsub _ _ _ g2 g1 (or_intror hdt)) as gdt. pose proof (good_neg _ _ gk hnk) as gn. pose proof (good_mul _ _ _ gn gdt hs) as gs.
  pose proof (neg_gives w _ _ _ hw gk qk hnk) as qn.
  pose proof (mul_gives w _ _ _ _ _ hw gn gdt qn qdt hs) as qs. rewrite (neg_lost w k dt nk gk hnk) in qs. pose proof (div_ok_nonzero w _ _ _ _ hw gs gq qq h) as np.
  pose proof (div_gives w _ _ _ _ _ hw gs gq qs qq np h) as qr.
  pose proof (lost_mul_pos w k dt) as p2. pose proof (lost_div_pos s q) as p3.
  set (c := lost_mul w k dt * lost_div s q). assert (pc : 0 < c) by (unfold c; repeat apply Rmult_lt_0_compat; assumption).
  assert (er : qty w r = Some (- (x * (y2 - y1) / p) / c)) by (rewrite qr; f_equal; unfold c; field; repeat split; lra).
  split; [exact er|]. rewrite er. apply right_iff. exact pc.
Qed.

(** ** A wall 100 cm thick *)
Definition q_ph_t1 := QAdd (QNeg (QDiv (QMul (QVar 5) (QVar 0)) (QMul (QNeg (QVar 1)) (QVar 4)))) (QVar 3).
Definition q_ph_d := QDiv (QMul (QMul (QNeg (QVar 1)) (QVar 4)) (QSub (QVar 3) (QVar 2))) (QVar 0).
Definition q_pf_q := QMul (QNeg (QVar 0)) (QDiv (QSub (QVar 2) (QVar 1)) (QVar 3)).
Definition q_pf_t2 := QAdd (QDiv (QMul (QVar 4) (QVar 0)) (QNeg (QVar 1))) (QVar 2).
Definition q_pf_t1 := QAdd (QNeg (QDiv (QMul (QVar 4) (QVar 0)) (QNeg (QVar 1)))) (QVar 3).
Definition q_pf_d := QDiv (QMul (QNeg (QVar 1)) (QSub (QVar 3) (QVar 2))) (QVar 0).
Definition wall : list (pyval Q) := [nth 0 cm_args VNone; nth 1 cm_args VNone; nth 2 cm_args VNone; nth 4 cm_args VNone].
Definition hq : pyval Q := Eval vm_compute in unr VNone (qrun cm_args q_ph_q).
Definition fq : pyval Q := Eval vm_compute in unr VNone (qrun wall q_pf_q).
Lemma wall_case : exists k t1 t2 A d q f r1 r2 s1 s2 rd sd,
  multi "ThermalConductivity" 1 "W/m*K" = Ok k /\ simple Temperature 300 "K" = Ok (VUnit t1) /\ simple Temperature 310 "K" = Ok (VUnit t2) /\
  simple Area 1 "m^2" = Ok A /\ simple Length 100 "cm" = Ok d /\
  good k /\ good (VUnit t1) /\ good (VUnit t2) /\ good A /\ good d /\ good q /\ good f /\
  planar_heat [AVal k; AVal (VUnit t1); AVal (VUnit t2); AVal A; AVal d] [] = Ok q /\
  planar_heat [AVal k; ANone; AVal (VUnit t2); AVal A; AVal d; AVal q] [] = Ok r1 /\ value r1 = -690 /\
  planar_heat [AVal k; AVal (VUnit t1); ANone; AVal A; AVal d; AVal q] [] = Ok r2 /\ value r2 = 1300 /\
  planar_heat [AVal k; AVal (VUnit t1); AVal (VUnit t2); AVal A; ANone; AVal q] [] = Ok rd /\ value rd = 1 /\
  planar_flux [AVal k; AVal (VUnit t1); AVal (VUnit t2); AVal d] [] = Ok f /\
  planar_flux [AVal k; ANone; AVal (VUnit t2); AVal d; AVal f] [] = Ok s1 /\ value s1 = -690 /\
  planar_flux [AVal k; AVal (VUnit t1); ANone; AVal d; AVal f] [] = Ok s2 /\ value s2 = 1300 /\
  planar_flux [AVal k; AVal (VUnit t1); AVal (VUnit t2); ANone; AVal f] [] = Ok sd /\ value sd = 1.
Proof.
  set (k := nth 0 cm_args VNone). set (t1 := nth 1 cm_args VNone). set (t2 := nth 2 cm_args VNone). set (A := nth 3 cm_args VNone). set (d := nth 4 cm_args VNone).
  assert (e1 : exists u, t1 = VUnit u) by (eexists; reflexivity). destruct e1 as [u1 e1].
  assert (e2 : exists u, t2 = VUnit u) by (eexists; reflexivity). destruct e2 as [u2 e2].
  exists (vmap k), (umap u1), (umap u2), (vmap A), (vmap d), (vmap hq), (vmap fq),
    (vmap (unr VNone (qrun (hq :: cm_args) q_ph_t1))), (vmap (unr VNone (qrun (hq :: cm_args) q_ph_t2))),
    (vmap (unr VNone (qrun (fq :: wall) q_pf_t1))), (vmap (unr VNone (qrun (fq :: wall) q_pf_t2))),
    (vmap (unr VNone (qrun (hq :: cm_args) q_ph_d))), (vmap (unr VNone (qrun (fq :: wall) q_pf_d))).
  change (VUnit (umap u1)) with (vmap (VUnit u1)). change (VUnit (umap u2)) with (vmap (VUnit u2)). rewrite <- e1, <- e2.
  split; [apply (multi_q _ _ 1); [q2|vm_compute; reflexivity]|]. split; [apply (simple_q _ _ 300); [q2|vm_compute; reflexivity]|].
  split; [apply (simple_q _ _ 310); [q2|vm_compute; reflexivity]|]. split; [apply (simple_q _ _ 1); [q2|vm_compute; reflexivity]|]. split; [apply (simple_q _ _ 100); [q2|vm_compute; reflexivity]|].
  split; [split; adm|]. do 4 (split; [split; [adm1|apply built_simple; [reflexivity|exact I]]|]).
  split; [split; adm|]. split; [split; adm|].
  rewrite ph_q_run, (ph_t1_run _ _ (vmap t1)), (ph_t2_run _ _ _ (vmap t2)), (ph_d_run _ _ _ _ _ (vmap d)), pf_q_run, (pf_t1_run _ _ (vmap t1)), (pf_t2_run _ _ _ (vmap t2)), (pf_d_run _ _ _ _ (vmap d)).
  split; [exact (qrun_ok q_ph_q cm_args hq ltac:(vm_compute; reflexivity))|].
  split; [exact (qrun_ok q_ph_t1 (hq :: cm_args) _ ltac:(vm_compute; reflexivity))|]. split; [vm_compute; lra|].
  split; [exact (qrun_ok q_ph_t2 (hq :: cm_args) _ ltac:(vm_compute; reflexivity))|]. split; [vm_compute; lra|].
  split; [exact (qrun_ok q_ph_d (hq :: cm_args) _ ltac:(vm_compute; reflexivity))|]. split; [vm_compute; lra|].
  split; [exact (qrun_ok q_pf_q wall fq ltac:(vm_compute; reflexivity))|].
  split; [exact (qrun_ok q_pf_t1 (fq :: wall) _ ltac:(vm_compute; reflexivity))|]. split; [vm_compute; lra|].
  split; [exact (qrun_ok q_pf_t2 (fq :: wall) _ ltac:(vm_compute; reflexivity))|]. split; [vm_compute; lra|].
  split; [exact (qrun_ok q_pf_d (fq :: wall) _ ltac:(vm_compute; reflexivity))|]. vm_compute; lra.
Qed.
