(** * SemFacts: quantities through the operators, for values without prefixes

    [is v f] : the value [v] carries no prefixed unit and denotes [f w] in every
    coherent unit system [w]. *)
From Coq Require Import String Ascii List ZArith QArith Qcanon Bool Reals Qreals Lia Lra.
From Verif Require Import Py Num UnitsData UnitsStruct Units NumFacts Spec SpecFacts StructFacts SimplifyFacts OpFacts NamesFacts ClosureFacts
  FactorFacts LawFacts WitnessFacts PropFacts OpPropFacts FormulaSpec.
Import ListNotations.
Local Open Scope string_scope.
Local Open Scope list_scope.
Local Open Scope R_scope.

Definition is (v : pyval R) (f : usys -> R) : Prop := plain_val v /\ forall w, coherent w -> qty w v = Some (f w).

Lemma plain_good v : plain_val v -> good v.
Proof.
  destruct v as [x| | |u|m]; cbn; try tauto.
  - intros [h1 h2]. split; [apply unprefixed_admissible, h1|exact h2].
  - intros [h1 h2]. split; apply unp_adm; assumption.
Qed.
Lemma plain_mul a b r : plain_val a -> plain_val b -> py_mul a b = Ok r -> plain_val r.
Proof.
  intros ha hb h. pose proof (plain_good _ ha) as ga. pose proof (plain_good _ hb) as gb.
  destruct a as [x| | |u|m]; destruct b as [y| | |u'|m']; cbn [plain_val good] in *; try contradiction; cbn [py_mul] in h.
  - injection h as <-. exact I.
  - cbn [unit_rmul] in h. destruct hb as [hb1 hb2]. unfold vunit in h. rewrite rebuild in h by assumption. injection h as <-.
    split; [exact hb1|apply built_again; exact hb2].
  - cbn in h. injection h as <-. exact hb.
  - cbn [unit_mul] in h. destruct ha as [ha1 ha2]. unfold vunit in h. rewrite rebuild in h by assumption. injection h as <-.
    split; [exact ha1|apply built_again; exact ha2].
  - cbn [unit_mul] in h. destruct ha as [ha1 ha2]. destruct hb as [hb1 hb2].
    destruct (ucls_eqb (uc u) (uc u') && String.eqb (un u) (un u')).
    + unfold vunit in h. rewrite rebuild in h by assumption. injection h as <-. split; [exact ha1|apply built_again; exact ha2].
    + injection h as <-. split; cbn.
      * intros z [<-|[<-|[]]]; cbn; assumption.
      * intros z [].
  - cbn [unit_mul multi_mul] in h. destruct ga as [ha1 ha2]. destruct gb as [hb1 hb2].
    apply bind_ok in h. destruct h as [[[t b] f] [e h]]. injection h as <-.
    apply reduce_unprefixed_names in e; [|apply adm_app; auto using adm_one|auto].
    unfold shape_mul. destruct t as [|x [|y t]]; destruct b as [|z b]; try exact e; [exact I|]. destruct e as [e1 e2]. split; [apply e1; left; reflexivity|apply built_unit].
  - cbn in h. injection h as <-. exact ha.
  - cbn [multi_mul] in h. destruct ga as [ha1 ha2]. destruct gb as [hb1 hb2].
    apply bind_ok in h. destruct h as [[[t b] f] [e h]]. injection h as <-.
    apply reduce_unprefixed_names in e; [|apply adm_app; auto using adm_one|auto].
    unfold shape_mul. destruct t as [|x [|y t]]; destruct b as [|z b]; try exact e; [exact I|]. destruct e as [e1 e2]. split; [apply e1; left; reflexivity|apply built_unit].
  - cbn [multi_mul] in h. destruct ga as [ha1 ha2]. destruct gb as [hb1 hb2].
    apply bind_ok in h. destruct h as [[[t b] f] [e h]]. injection h as <-.
    apply reduce_unprefixed_names in e; [|apply adm_app; auto|apply adm_app; auto]. exact e.
Qed.
Lemma plain_shape_div v t b : unprefixed_half t -> unprefixed_half b -> plain_val (shape_div v t b).
Proof.
  intros h1 h2. unfold shape_div. destruct t as [|x [|y t]]; destruct b as [|z [|z' b]]; try (split; assumption).
  - split; [apply h2; left; reflexivity|apply built_unit].
  - split; [apply h1; left; reflexivity|apply built_unit].
Qed.
Lemma plain_div a b r : plain_val a -> plain_val b -> py_div a b = Ok r -> plain_val r.
Proof.
  intros ha hb h. pose proof (plain_good _ ha) as ga. pose proof (plain_good _ hb) as gb.
  destruct a as [x| | |u|m]; destruct b as [y| | |u'|m']; cbn [plain_val good] in *; try contradiction; cbn [py_div] in h.
  - destruct (pydiv x y); cbn in h; [|discriminate]. injection h as <-. exact I.
  - discriminate.
  - cbn [multi_rdiv] in h. apply bind_ok in h. destruct h as [q [_ h]]. injection h as <-. split; apply hb.
  - cbn [unit_div] in h. destruct ha as [ha1 ha2]. apply bind_ok in h. destruct h as [q [_ h]].
    unfold vunit in h. rewrite rebuild in h by assumption. injection h as <-. split; [exact ha1|apply built_again; exact ha2].
  - cbn [unit_div] in h. destruct ha as [ha1 ha2]. destruct hb as [hb1 hb2]. apply bind_ok in h. destruct h as [q [_ h]].
    destruct (String.eqb (un u) (un u')); [destruct (e_is _ 0)|].
    + injection h as <-. exact I.
    + unfold vunit in h. rewrite rebuild in h by assumption. injection h as <-. split; [exact ha1|apply built_again; exact ha2].
    + injection h as <-. split; cbn; intros z [<-|[]]; cbn; assumption.
  - cbn [unit_div multi_rdiv] in h. destruct ga as [ha1 ha2]. destruct gb as [hb1 hb2].
    apply bind_ok in h. destruct h as [[[t b] f] [e h]]. apply bind_ok in h. destruct h as [q [_ h]]. injection h as <-.
    apply reduce_unprefixed_names in e; [|apply adm_app; auto using adm_one|auto]. apply plain_shape_div; tauto.
  - cbn [multi_div] in h. apply bind_ok in h. destruct h as [q [_ h]]. injection h as <-. exact ha.
  - cbn [multi_div] in h. destruct ga as [ha1 ha2]. destruct gb as [hb1 hb2].
    apply bind_ok in h. destruct h as [[[t b] f] [e h]]. apply bind_ok in h. destruct h as [q [_ h]]. injection h as <-.
    apply reduce_unprefixed_names in e; [|auto|apply adm_app; auto using adm_one]. apply plain_shape_div; tauto.
  - cbn [multi_div] in h. destruct ga as [ha1 ha2]. destruct gb as [hb1 hb2].
    destruct (half_eqb _ _ && half_eqb _ _) in h.
    + destruct (pydiv (mv m) (mv m')); cbn in h; [|discriminate]. injection h as <-. exact I.
    + apply bind_ok in h. destruct h as [[[t b] f] [e h]]. apply bind_ok in h. destruct h as [q [_ h]]. injection h as <-.
      apply reduce_unprefixed_names in e; [|apply adm_app; auto|apply adm_app; auto]. apply plain_shape_div; tauto.
Qed.
Lemma plain_neg a r : plain_val a -> py_neg a = Ok r -> plain_val r.
Proof.
  intros ha h. destruct a as [x| | |u|m]; cbn in ha; try contradiction; cbn [py_neg] in h.
  - injection h as <-. exact I.
  - unfold unit_neg, vunit in h. destruct ha as [ha1 ha2]. rewrite rebuild in h by assumption. injection h as <-.
    split; [exact ha1|apply built_again; exact ha2].
  - injection h as <-. exact ha.
Qed.
Lemma plain_pow a k r : plain_val a -> py_pow a k = Ok r -> plain_val r.
Proof.
  intros ha h. destruct a as [x| | |u|m]; cbn [plain_val] in ha; try contradiction; cbn [py_pow] in h.
  - destruct (npow x (ev k)); cbn in h; [|discriminate]. injection h as <-. exact I.
  - unfold unit_pow in h. apply bind_ok in h. destruct h as [v [_ h]]. destruct ha as [ha1 ha2].
    unfold vunit in h. rewrite rebuild in h by assumption. injection h as <-. split; [exact ha1|apply built_again; exact ha2].
  - unfold multi_pow in h. apply bind_ok in h. destruct h as [[t b] [e h]]. apply bind_ok in h. destruct h as [v [_ h]].
    injection h as <-. destruct ha as [h1 h2].
    destruct (reduce_tail_names unprefixed unprefixed_core unprefixed_derived _ _ _ _ _ _ e) as [n1 n2];
      [apply (alln_scaled unprefixed); exact h1|apply (alln_scaled unprefixed); exact h2|]. split; assumption.
Qed.
Lemma plain_addsub a b r : plain_val a -> plain_val b -> (py_add a b = Ok r \/ py_sub a b = Ok r) -> plain_val r.
Proof.
  intros ha hb h.
  destruct a as [x| | |u|m]; destruct b as [y| | |u'|m']; cbn [plain_val] in ha, hb; try contradiction; cbn [py_add py_sub] in h;
    try (destruct h; discriminate).
  - destruct h as [h|h]; injection h as <-; exact I.
  - destruct ha as [ha1 ha2]. cbn [unit_addsub] in h. unfold vunit in h. destruct h as [h|h]; rewrite rebuild in h by assumption; injection h as <-;
      (split; [exact ha1|apply built_again; exact ha2]).
  - destruct ha as [ha1 ha2]. cbn [unit_addsub] in h. unfold vunit in h.
    destruct h as [h|h]; (destruct (ucls_sub _ _) in h; [|discriminate]; destruct (_ && _) in h; [|discriminate]);
      rewrite rebuild in h by assumption; injection h as <-; (split; [exact ha1|apply built_again; exact ha2]).
  - cbn [multi_add multi_sub] in h. destruct h as [h|h].
    + destruct (mcls_eqb _ _) in h; [|discriminate]. destruct (_ && _) in h; [|discriminate]. injection h as <-. exact ha.
    + destruct (_ && _) in h; [|discriminate]. injection h as <-. exact ha.
Qed.

(** ** Sign and zero *)
Lemma plain_sized v : plain_val v -> forall w, coherent w -> exists s, 0 < s /\ qty w v = Some (value v * s).
Proof.
  intros hv w hw. destruct v as [y| | |u|m]; cbn in hv; try contradiction; cbn [qty value].
  - exists 1. split; [lra|]. f_equal. ring.
  - eexists. split; [|reflexivity]. apply exp_pos.
  - eexists. split; [|reflexivity]. apply msize_pos.
Qed.
Lemma is_sized v f : is v f -> forall w, coherent w -> exists s, 0 < s /\ f w = value v * s.
Proof.
  intros [hv hf] w hw. destruct (plain_sized v hv w hw) as [s [hs e]]. exists s. split; [exact hs|]. rewrite (hf w hw) in e. congruence.
Qed.
Lemma is_nz v f w : is v f -> coherent w -> f w <> 0 -> value v <> 0.
Proof. intros h hw hn e. destruct (is_sized v f h w hw) as [s [_ es]]. apply hn. rewrite es, e. ring. Qed.
Lemma nz_is v f w : is v f -> coherent w -> value v <> 0 -> f w <> 0.
Proof. intros h hw hn e. destruct (is_sized v f h w hw) as [s [hs es]]. apply hn. rewrite es in e. apply Rmult_integral in e. lra. Qed.
Lemma is_pos v f w : is v f -> coherent w -> 0 < f w -> 0 < value v.
Proof.
  intros h hw hn. destruct (is_sized v f h w hw) as [s [hs es]]. rewrite es in hn. destruct (Rlt_le_dec 0 (value v)) as [hl|hl]; [exact hl|].
  exfalso. assert (value v * s <= 0 * s) by (apply Rmult_le_compat_r; lra). lra.
Qed.
Lemma pos_is v f w : is v f -> coherent w -> 0 < value v -> 0 < f w.
Proof. intros h hw hn. destruct (is_sized v f h w hw) as [s [hs es]]. rewrite es. apply Rmult_lt_0_compat; assumption. Qed.
(** Two values with the same units and the same quantity are equal. *)
Lemma is_of v : plain_val v -> exists f, is v f.
Proof.
  intro hv. destruct v as [y| | |u|m]; cbn in hv; try contradiction; eexists; (split; [exact hv|intros w _; reflexivity]).
Qed.
Lemma is_num x : is (VNum x) (fun _ => x).
Proof. split; [exact I|reflexivity]. Qed.
Lemma is_ext v f g : is v f -> (forall w, coherent w -> f w = g w) -> is v g.
Proof. intros [h1 h2] h. split; [exact h1|]. intros w hw. rewrite (h2 w hw), (h w hw). reflexivity. Qed.
Lemma is_unique v f g : is v f -> is v g -> forall w, coherent w -> f w = g w.
Proof. intros [_ h1] [_ h2] w hw. pose proof (h1 w hw) as e1. rewrite (h2 w hw) in e1. congruence. Qed.

(** ** The operators *)
Lemma is_mul a b f g : is a f -> is b g -> no_loss a b -> exists r, py_mul a b = Ok r /\ is r (fun w => f w * g w).
Proof.
  intros [pa qa] [pb qb] hn.
  assert (h : exists r, py_mul a b = Ok r /\ forall w, coherent w -> qty w r = Some (f w * g w)).
  { destruct a as [x| | |u|m]; destruct b as [y| | |u'|m']; cbn [plain_val] in pa, pb; try contradiction; cbn [no_loss] in hn.
    - eexists. split; [reflexivity|]. intros w hw. specialize (qa w hw). specialize (qb w hw). cbn in *. congruence.
    - destruct (scale_partial (VUnit u') x) as [r [_ [e [_ q]]]]; [exact (proj2 pb)|intros ? k; injection k as <-; exact hn|].
      exists r. split; [exact e|]. intros w hw. rewrite (q w _ (qb w hw)). specialize (qa w hw). cbn in qa. injection qa as <-. f_equal. ring.
    - destruct (scale_partial (VMulti m') x) as [r [_ [e [_ q]]]]; [exact I|discriminate|].
      exists r. split; [exact e|]. intros w hw. rewrite (q w _ (qb w hw)). specialize (qa w hw). cbn in qa. injection qa as <-. f_equal. ring.
    - destruct (scale_partial (VUnit u) y) as [r [e [_ [_ q]]]]; [exact (proj2 pa)|intros ? k; injection k as <-; exact hn|].
      exists r. split; [exact e|]. intros w hw. rewrite (q w _ (qa w hw)). specialize (qb w hw). cbn in qb. injection qb as <-. reflexivity.
    - destruct (mul_uu u u' (proj2 pa) hn) as [r [e q]]. exists r. split; [exact e|]. intros w hw. apply q; auto. apply (co_pos _ hw).
    - destruct (mul_mu m' u pb (proj1 pa)) as [r [_ [e q]]]. exists r. split; [exact e|]. intros w hw. rewrite (q w _ _ hw (qb w hw) (qa w hw)). f_equal. ring.
    - destruct (scale_partial (VMulti m) y) as [r [e [_ [_ q]]]]; [exact I|discriminate|].
      exists r. split; [exact e|]. intros w hw. rewrite (q w _ (qa w hw)). specialize (qb w hw). cbn in qb. injection qb as <-. reflexivity.
    - destruct (mul_mu m u' pa (proj1 pb)) as [r [e [_ q]]]. exists r. split; [exact e|]. intros w hw. apply q; auto.
    - destruct (mul_mm m m' (plain_good (VMulti m) pa) (plain_good (VMulti m') pb)) as [r [e [_ q]]]. exists (VMulti r). split; [exact e|].
      intros w hw. apply q; auto. }
  destruct h as [r [e q]]. exists r. split; [exact e|]. split; [exact (plain_mul a b r pa pb e)|exact q].
Qed.
Lemma is_div a b f g : is a f -> is b g -> value b <> 0 -> (forall x, a <> VNum x) \/ (forall u, b <> VUnit u) ->
  exists r, py_div a b = Ok r /\ is r (fun w => f w / g w).
Proof.
  intros [pa qa] [pb qb] hz hn.
  assert (h : exists r, py_div a b = Ok r /\ forall w, coherent w -> qty w r = Some (f w / g w)).
  { destruct a as [x| | |u|m]; destruct b as [y| | |u'|m']; cbn [plain_val] in pa, pb; try contradiction; cbn [value] in hz.
    - eexists. split; [cbn; rewrite pydiv_ok by exact hz; reflexivity|]. intros w hw. specialize (qa w hw). specialize (qb w hw). cbn in *. congruence.
    - destruct hn as [hn|hn]; [destruct (hn x eq_refl)|destruct (hn u' eq_refl)].
    - destruct (rdiv_num m' x hz) as [r [e q]]. exists r. split; [exact e|]. intros w hw. rewrite (q w _ (co_pos _ hw) (qb w hw)).
      specialize (qa w hw). cbn in qa. injection qa as <-. reflexivity.
    - destruct (scale_div (VUnit u) y (proj2 pa)) as [h _]. destruct (h hz) as [r [e [_ q]]]. exists r. split; [exact e|].
      intros w hw. rewrite (q w _ (qa w hw)). specialize (qb w hw). cbn in qb. injection qb as <-. reflexivity.
    - destruct (div_uu u u' (proj2 pa) hz) as [r [e q]]. exists r. split; [exact e|]. intros w hw. apply q; auto. apply (co_pos _ hw).
    - destruct (div_um m' u pb (proj1 pa) hz) as [r [e q]]. exists r. split; [exact e|]. intros w hw. apply q; auto.
    - destruct (scale_div (VMulti m) y I) as [h _]. destruct (h hz) as [r [e [_ q]]]. exists r. split; [exact e|].
      intros w hw. rewrite (q w _ (qa w hw)). specialize (qb w hw). cbn in qb. injection qb as <-. reflexivity.
    - destruct (div_mu m u' (plain_good (VMulti m) pa) (proj1 (plain_good (VUnit u') pb)) hz) as [r [e q]]. exists r. split; [exact e|]. intros w hw. apply q; auto.
    - destruct (div_mm m m' (plain_good (VMulti m) pa) (plain_good (VMulti m') pb) hz) as [r [e q]]. exists r. split; [exact e|]. intros w hw. apply q; auto. }
  destruct h as [r [e q]]. exists r. split; [exact e|]. split; [exact (plain_div a b r pa pb e)|exact q].
Qed.
Lemma is_neg a f : is a f -> exists r, py_neg a = Ok r /\ is r (fun w => - f w) /\ shape r = shape a /\ kind r = kind a.
Proof.
  intros [pa qa]. destruct a as [x| | |u|m]; cbn [plain_val] in pa; try contradiction.
  - eexists. split; [reflexivity|]. split; [|split; reflexivity]. split; [exact I|]. intros w hw. specialize (qa w hw). cbn in *. congruence.
  - destruct (neg_all (VUnit u) (proj2 pa)) as [r [e [s [k q]]]]. exists r. split; [exact e|]. split.
    + split; [exact (plain_neg (VUnit u) r pa e)|]. intros w hw. apply q, qa, hw.
    + split; [exact s|]. destruct r; try contradiction. reflexivity.
  - destruct (neg_all (VMulti m) I) as [r [e [s [k q]]]]. exists r. split; [exact e|]. split.
    + split; [exact (plain_neg (VMulti m) r pa e)|]. intros w hw. apply q, qa, hw.
    + split; [exact s|]. destruct r; try contradiction. reflexivity.
Qed.
Lemma is_pow a f k : is a f -> 0 < value a -> exists r, py_pow a k = Ok r /\ is r (fun w => Rpower (f w) (QcR (ev k))) /\ kind r = kind a.
Proof.
  intros [pa qa] hp. destruct a as [x| | |u|m]; cbn [plain_val value] in *; try contradiction.
  - eexists. split; [cbn; rewrite Rpowq_pos by exact hp; reflexivity|]. split; [|reflexivity]. split; [exact I|]. intros w hw. specialize (qa w hw). cbn in *. congruence.
  - destruct (pow_all (VUnit u) k (proj2 pa) hp) as [r [e q]]. exists r. split; [exact e|]. split.
    + split; [exact (plain_pow (VUnit u) k r pa e)|]. intros w hw. apply q; auto.
    + cbn [py_pow] in e. unfold unit_pow in e. apply bind_ok in e. destruct e as [v [_ e]]. unfold vunit in e. rewrite rebuild in e by exact (proj2 pa). injection e as <-. reflexivity.
  - destruct (pow_all (VMulti m) k I hp) as [r [e q]]. exists r. split; [exact e|]. split.
    + split; [exact (plain_pow (VMulti m) k r pa e)|]. intros w hw. apply q; auto.
    + cbn [py_pow] in e. unfold multi_pow in e. apply bind_ok in e. destruct e as [v [_ e]]. apply bind_ok in e. destruct e as [v' [_ e]]. injection e as <-. reflexivity.
Qed.
Lemma is_powz a f t z : is a f -> value a <> 0 \/ (0 <= z)%Z -> exists r, py_pow a (Ex t (qc z)) = Ok r /\ is r (fun w => powerRZ (f w) z) /\ kind r = kind a.
Proof.
  intros [pa qa] hp. destruct a as [x| | |u|m]; cbn [plain_val value] in *; try contradiction.
  - eexists. split; [cbn; rewrite Rpowq_int by exact hp; reflexivity|]. split; [|reflexivity]. split; [exact I|]. intros w hw. specialize (qa w hw). cbn in *. congruence.
  - destruct (pow_int_all (VUnit u) t z (proj2 pa) hp) as [r [e q]]. exists r. split; [exact e|]. split.
    + split; [exact (plain_pow (VUnit u) _ r pa e)|]. intros w hw. apply q; auto.
    + cbn [py_pow] in e. unfold unit_pow in e. apply bind_ok in e. destruct e as [v [_ e]]. unfold vunit in e. rewrite rebuild in e by exact (proj2 pa). injection e as <-. reflexivity.
  - destruct (pow_int_all (VMulti m) t z I hp) as [r [e q]]. exists r. split; [exact e|]. split.
    + split; [exact (plain_pow (VMulti m) _ r pa e)|]. intros w hw. apply q; auto.
    + cbn [py_pow] in e. unfold multi_pow in e. apply bind_ok in e. destruct e as [v [_ e]]. apply bind_ok in e. destruct e as [v' [_ e]]. injection e as <-. reflexivity.
Qed.

(** Sums, when they succeed. *)
Lemma is_add a b f g r : is a f -> is b g -> kind a = kind b -> py_add a b = Ok r -> is r (fun w => f w + g w) /\ kind r = kind a /\ shape r = shape a /\ shape a = shape b.
Proof.
  intros [pa qa] [pb qb] hk h. pose proof (plain_addsub a b r pa pb (or_introl h)) as pr.
  destruct a as [x| | |u|m]; destruct b as [y| | |u'|m']; cbn [plain_val kind] in *; try contradiction; try discriminate hk.
  - cbn in h. injection h as <-. split; [|repeat split]. split; [exact I|]. intros w hw. specialize (qa w hw). specialize (qb w hw). cbn in *. congruence.
  - destruct (addsub_sound (VUnit u) (VUnit u') (proj2 pa) (proj2 pb)) as [[e|[r' [e [s1 [s2 q]]]]] _]; [congruence|]. rewrite h in e. injection e as <-.
    split; [split; [exact pr|intros w hw; apply q; auto]|]. split; [|split; [exact s2|exact s1]].
    cbn [py_add unit_addsub] in h. unfold vunit in h. repeat match type of h with context [if ?c then _ else _] => destruct c end; try discriminate.
    rewrite rebuild in h by exact (proj2 pa). injection h as <-. reflexivity.
  - destruct (addsub_sound (VMulti m) (VMulti m') I I) as [[e|[r' [e [s1 [s2 q]]]]] _]; [congruence|]. rewrite h in e. injection e as <-.
    split; [split; [exact pr|intros w hw; apply q; auto]|]. split; [|split; [exact s2|exact s1]].
    cbn [py_add multi_add] in h. repeat match type of h with context [if ?c then _ else _] => destruct c end; try discriminate. injection h as <-. reflexivity.
Qed.
Lemma is_sub a b f g r : is a f -> is b g -> kind a = kind b -> py_sub a b = Ok r -> is r (fun w => f w - g w) /\ kind r = kind a /\ shape r = shape a /\ shape a = shape b.
Proof.
  intros [pa qa] [pb qb] hk h. pose proof (plain_addsub a b r pa pb (or_intror h)) as pr.
  destruct a as [x| | |u|m]; destruct b as [y| | |u'|m']; cbn [plain_val kind] in *; try contradiction; try discriminate hk.
  - cbn in h. injection h as <-. split; [|repeat split]. split; [exact I|]. intros w hw. specialize (qa w hw). specialize (qb w hw). cbn in *. congruence.
  - destruct (addsub_sound (VUnit u) (VUnit u') (proj2 pa) (proj2 pb)) as [_ [e|[r' [e [s1 [s2 q]]]]]]; [congruence|]. rewrite h in e. injection e as <-.
    split; [split; [exact pr|intros w hw; apply q; auto]|]. split; [|split; [exact s2|exact s1]].
    cbn [py_sub unit_addsub] in h. unfold vunit in h. repeat match type of h with context [if ?c then _ else _] => destruct c end; try discriminate.
    rewrite rebuild in h by exact (proj2 pa). injection h as <-. reflexivity.
  - destruct (addsub_sound (VMulti m) (VMulti m') I I) as [_ [e|[r' [e [s1 [s2 q]]]]]]; [congruence|]. rewrite h in e. injection e as <-.
    split; [split; [exact pr|intros w hw; apply q; auto]|]. split; [|split; [exact s2|exact s1]].
    cbn [py_sub multi_sub] in h. repeat match type of h with context [if ?c then _ else _] => destruct c end; try discriminate. injection h as <-. reflexivity.
Qed.
(** Same units and same quantity: same value. *)
Lemma shape_size a b w : plain_val a -> plain_val b -> kind a = kind b -> shape a = shape b -> coherent w -> qty w a = qty w b -> value a = value b.
Proof.
  intros pa pb hk hs hw h. destruct a as [x| | |u|m]; destruct b as [y| | |u'|m']; cbn [plain_val kind] in *; try contradiction; try discriminate hk; cbn [value].
  - cbn in h. congruence.
  - cbn in hs. injection hs as e1 e2. cbn [qty] in h. rewrite e1, e2 in h. injection h as h. apply Rmult_eq_reg_r in h; [exact h|].
    pose proof (exp_pos (QcR (ev (ue u')) * ln (w (un u')))). unfold Rpower. lra.
  - pose proof (shape_qty w m m' hs) as e. cbn [qty] in h. rewrite e in h. injection h as h. apply Rmult_eq_reg_r in h; [exact h|].
    pose proof (msize_pos w (mtop m') (mbot m')). lra.
Qed.
(** Kinds of results. *)
Lemma mul_kind_mm a b r : kind a = KMulti -> kind b = KMulti -> py_mul a b = Ok r -> kind r = KMulti.
Proof.
  destruct a; try discriminate. destruct b; try discriminate. intros _ _ h. cbn [py_mul multi_mul] in h. apply bind_ok in h. destruct h as [[[t b] f] [_ h]].
  injection h as <-. reflexivity.
Qed.
Lemma mul_kind_mn a b r : kind a = KMulti -> kind b = KNum -> py_mul a b = Ok r -> kind r = KMulti.
Proof. destruct a; try discriminate. destruct b; try discriminate. intros _ _ h. cbn in h. injection h as <-. reflexivity. Qed.
Lemma mul_kind_nm a b r : kind a = KNum -> kind b = KMulti -> py_mul a b = Ok r -> kind r = KMulti.
Proof. destruct a; try discriminate. destruct b; try discriminate. intros _ _ h. cbn in h. injection h as <-. reflexivity. Qed.
Lemma div_kind_mn a b r : kind a = KMulti -> kind b = KNum -> py_div a b = Ok r -> kind r = KMulti.
Proof. destruct a; try discriminate. destruct b; try discriminate. intros _ _ h. cbn in h. apply bind_ok in h. destruct h as [q [_ h]]. injection h as <-. reflexivity. Qed.
Lemma div_kind_uu (a b : unit_obj R) r : un a <> un b -> py_div (VUnit a) (VUnit b) = Ok r -> kind r = KMulti.
Proof.
  intros hn h. cbn [py_div unit_div] in h. apply bind_ok in h. destruct h as [q [_ h]]. rewrite (proj2 (String.eqb_neq _ _) hn) in h.
  injection h as <-. reflexivity.
Qed.
Lemma no_loss_l a b : kind a = KMulti -> no_loss a b.
Proof. destruct a; try discriminate. intros _. exact I. Qed.
Lemma no_loss_r a b : kind b = KMulti -> no_loss a b.
Proof. destruct b; try discriminate. intros _. destruct a; exact I. Qed.
