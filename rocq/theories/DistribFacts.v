(** * DistribFacts: products and quotients of sums *)
From Coq Require Import String Ascii List ZArith QArith Qcanon Bool Reals Lra.
From Verif Require Import Py Num UnitsData UnitsStruct Units Spec LawFacts OpFacts WitnessFacts OpPropFacts TagFacts DistribSpec.
Import ListNotations.
Local Open Scope string_scope.
Local Open Scope list_scope.
Local Open Scope R_scope.

Definition pm (minus : bool) (x y : R) : R := if minus then x - y else x + y.
Lemma pm_l k (minus : bool) x y : k * pm minus x y = pm minus (k * x) (k * y).
Proof. destruct minus; cbn; ring. Qed.
Lemma pm_r k (minus : bool) x y : pm minus x y * k = pm minus (x * k) (y * k).
Proof. destruct minus; cbn; ring. Qed.
Lemma sum_multi minus (b c : multi_obj R) s : plus_or_minus minus (VMulti b) (VMulti c) = Ok s ->
  Forall2 sx (mtop b) (mtop c) /\ Forall2 sx (mbot b) (mbot c) /\ s = VMulti (MO MMulti (pm minus (mv b) (mv c)) (mtop b) (mbot b)).
Proof.
  destruct minus; cbn; [|destruct (mcls_eqb (mc b) (mc c)); [|discriminate]];
  destruct (half_eqb (mtop b) (mtop c) && half_eqb (mbot b) (mbot c)) eqn:e; try discriminate; intro h; injection h as <-;
  apply andb_true_iff in e; destruct e as [e1 e2]; apply hs_iff in e1; apply hs_iff in e2; repeat split; assumption.
Qed.
Lemma sum_same minus (v v' : R) t b t' b' : Forall2 sx t t' -> Forall2 sx b b' ->
  plus_or_minus minus (VMulti (MO MMulti v t b)) (VMulti (MO MMulti v' t' b')) = Ok (VMulti (MO MMulti (pm minus v v') t b)).
Proof. intros h1 h2. apply hs_iff in h1. apply hs_iff in h2. destruct minus; cbn; rewrite h1, h2; reflexivity. Qed.
Lemma sum_plain minus (v v' : R) n e e' : ev e = ev e' ->
  plus_or_minus minus (VUnit (UO UUnit v n e)) (VUnit (UO UUnit v' n e')) = Ok (VUnit (UO UUnit (pm minus v v') n e)).
Proof. intro h. destruct minus; cbn; rewrite String.eqb_refl; unfold eeqb; rewrite h; unfold Qc_eq_bool; (destruct (Qc_eq_dec _ _); [reflexivity|congruence]). Qed.
Lemma sum_shape_div minus (v v' : R) t b t' b' : Forall2 sx t t' -> Forall2 sx b b' ->
  plus_or_minus minus (shape_div v t b) (shape_div v' t' b') = Ok (shape_div (pm minus v v') t b).
Proof.
  intros h1 h2. pose proof (sum_same minus v v' t b t' b' h1 h2) as g.
  destruct h1 as [|x y t1 t1q [n1 e1] [|x2 y2 t2 t2q h3 h1]]; destruct h2 as [|u w b1 b1q [n2 e2] [|u2 w2 b2 b2q h4 h2]]; cbn [shape_div]; try exact g.
  - destruct minus; reflexivity.
  - unfold plain. rewrite n2. apply sum_plain. cbn. congruence.
  - unfold plain. rewrite n1. apply sum_plain. exact e1.
Qed.
Lemma sum_shape_mul minus (v v' : R) t b t' b' : Forall2 sx t t' -> Forall2 sx b b' ->
  plus_or_minus minus (shape_mul v t b) (shape_mul v' t' b') = Ok (shape_mul (pm minus v v') t b).
Proof.
  intros h1 h2. pose proof (sum_same minus v v' t b t' b' h1 h2) as g.
  destruct h1 as [|x y t1 t1q [n1 e1] [|x2 y2 t2 t2q h3 h1]]; destruct h2 as [|u w b1 b1q [n2 e2] [|u2 w2 b2 b2q h4 h2]]; cbn [shape_mul]; try exact g.
  - destruct minus; reflexivity.
  - unfold plain. rewrite n1. apply sum_plain. exact e1.
Qed.

Ltac red_tac ha hb :=
  let k := fresh "k" in
  pose proof (reduce_sx (T := R) true true _ _ _ _ ha hb) as k.
Lemma dist_left minus (a b c : multi_obj R) s p : plus_or_minus minus (VMulti b) (VMulti c) = Ok s -> py_mul (VMulti a) (VMulti b) = Ok p ->
  exists q r, py_mul (VMulti a) (VMulti c) = Ok q /\ py_mul (VMulti a) s = Ok r /\ plus_or_minus minus p q = Ok r.
Proof.
  intros hs hp. apply sum_multi in hs. destruct hs as (h1 & h2 & ->). cbn [py_mul multi_mul mtop mbot mv] in *.
  pose proof (reduce_sx (T := R) true true _ _ _ _ (hs_app _ _ _ _ (hs_refl (mtop a)) h1) (hs_app _ _ _ _ (hs_refl (mbot a)) h2)) as k.
  destruct (reduce true true (mtop a ++ mtop b) (mbot a ++ mbot b)) as [[[t u] f]|]; cbn [bind] in hp; [|discriminate]. injection hp as <-.
  destruct (reduce true true (mtop a ++ mtop c) (mbot a ++ mbot c)) as [[[t' u'] f']|]; cbn in k; [|contradiction]. destruct k as [[k1 k2] k3]. cbn [fst snd] in *. subst f'.
  cbn [bind]. eexists. eexists. split; [reflexivity|]. split; [reflexivity|]. rewrite (sum_same minus _ _ _ _ _ _ k1 k2). cbn [nmul]. do 4 f_equal.
  change (pm minus (mv a * mv b * f) (mv a * mv c * f) = mv a * pm minus (mv b) (mv c) * f). rewrite pm_l, pm_r. reflexivity.
Qed.
Lemma dist_right minus (b c : multi_obj R) o s p : operand o -> plus_or_minus minus (VMulti b) (VMulti c) = Ok s -> py_mul (VMulti b) o = Ok p ->
  exists q r, py_mul (VMulti c) o = Ok q /\ py_mul s o = Ok r /\ plus_or_minus minus p q = Ok r.
Proof.
  intros ho hs hp. apply sum_multi in hs. destruct hs as (h1 & h2 & ->). cbn [py_mul] in *. destruct o as [x| | |u|a]; try contradiction; cbn [multi_mul mtop mbot mv] in *.
  - injection hp as <-. eexists. eexists. split; [reflexivity|]. split; [reflexivity|]. rewrite (sum_same minus _ _ _ _ _ _ h1 h2). do 4 f_equal. symmetry. apply pm_r.
  - pose proof (reduce_sx (T := R) true true _ _ _ _ (hs_app _ _ _ _ h1 (hs_refl [BU (un u) (ue u)])) h2) as k.
    destruct (reduce true true (mtop b ++ [BU (un u) (ue u)]) (mbot b)) as [[[t w] f]|]; cbn [bind] in hp; [|discriminate]. injection hp as <-.
    destruct (reduce true true (mtop c ++ [BU (un u) (ue u)]) (mbot c)) as [[[t' w'] f']|]; cbn in k; [|contradiction]. destruct k as [[k1 k2] k3]. cbn [fst snd] in *. subst f'.
    cbn [bind]. eexists. eexists. split; [reflexivity|]. split; [reflexivity|]. rewrite (sum_shape_mul minus _ _ _ _ _ _ k1 k2). do 2 f_equal. symmetry. apply pm_l.
  - pose proof (reduce_sx (T := R) true true _ _ _ _ (hs_app _ _ _ _ h1 (hs_refl (mtop a))) (hs_app _ _ _ _ h2 (hs_refl (mbot a)))) as k.
    destruct (reduce true true (mtop b ++ mtop a) (mbot b ++ mbot a)) as [[[t w] f]|]; cbn [bind] in hp; [|discriminate]. injection hp as <-.
    destruct (reduce true true (mtop c ++ mtop a) (mbot c ++ mbot a)) as [[[t' w'] f']|]; cbn in k; [|contradiction]. destruct k as [[k1 k2] k3]. cbn [fst snd] in *. subst f'.
    cbn [bind]. eexists. eexists. split; [reflexivity|]. split; [reflexivity|]. rewrite (sum_same minus _ _ _ _ _ _ k1 k2). do 4 f_equal.
    change (pm minus (mv b * mv a * f) (mv c * mv a * f) = pm minus (mv b) (mv c) * mv a * f). rewrite !pm_r. reflexivity.
Qed.
Lemma pydiv_pm (minus : bool) (x y z q : R) : pydiv x z = Ok q -> exists q', pydiv y z = Ok q' /\ pydiv (pm minus x y) z = Ok (pm minus q q').
Proof.
  unfold pydiv. destruct (neqb z (nq 0)); [discriminate|]. intro h. injection h as <-. eexists. split; [reflexivity|]. f_equal.
  change (pm minus x y / z = pm minus (x / z) (y / z)). unfold Rdiv. apply pm_r.
Qed.
Lemma dist_div minus (b c : multi_obj R) o s p : operand o -> plus_or_minus minus (VMulti b) (VMulti c) = Ok s -> py_div (VMulti b) o = Ok p ->
  exists q r, py_div (VMulti c) o = Ok q /\ py_div s o = Ok r /\ plus_or_minus minus p q = Ok r.
Proof.
  intros ho hs hp. apply sum_multi in hs. destruct hs as (h1 & h2 & ->). cbn [py_div] in *. destruct o as [x| | |u|a]; try contradiction; cbn [multi_div mtop mbot mv] in *.
  - destruct (pydiv (mv b) x) as [d|] eqn:ed; cbn [bind] in hp; [|discriminate]. injection hp as <-. destruct (pydiv_pm minus _ (mv c) _ _ ed) as [d' [e1 e2]]. rewrite e1, e2. cbn [bind].
    eexists. eexists. split; [reflexivity|]. split; [reflexivity|]. apply sum_same; assumption.
  - pose proof (reduce_sx (T := R) false true _ _ _ _ h1 (hs_app _ _ _ _ h2 (hs_refl [BU (un u) (ue u)]))) as k.
    destruct (reduce false true (mtop b) (mbot b ++ [BU (un u) (ue u)])) as [[[t w] f]|]; cbn [bind] in hp; [|discriminate].
    destruct (reduce false true (mtop c) (mbot c ++ [BU (un u) (ue u)])) as [[[t' w'] f']|]; cbn in k; [|contradiction]. destruct k as [[k1 k2] k3]. cbn [fst snd] in *. subst f'.
    cbn [bind]. destruct (pydiv (mv b) (uv u)) as [d|] eqn:ed; cbn [bind] in hp; [|discriminate]. injection hp as <-. destruct (pydiv_pm minus _ (mv c) _ _ ed) as [d' [e1 e2]]. rewrite e1, e2. cbn [bind].
    eexists. eexists. split; [reflexivity|]. split; [reflexivity|]. rewrite (sum_shape_div minus _ _ _ _ _ _ k1 k2). do 2 f_equal. symmetry. apply pm_r.
  - assert (ec : half_eqb (mtop c) (mtop a) && half_eqb (mbot c) (mbot a) = half_eqb (mtop b) (mtop a) && half_eqb (mbot b) (mbot a)).
    { f_equal; apply eq_true_iff_eq; rewrite <- !hs_iff; split; intro g; eapply hs_trans; try exact g; auto; apply hs_sym; assumption. }
    rewrite ec. destruct (half_eqb (mtop b) (mtop a) && half_eqb (mbot b) (mbot a)).
    + destruct (pydiv (mv b) (mv a)) as [d|] eqn:ed; cbn in hp; [|discriminate]. injection hp as <-. destruct (pydiv_pm minus _ (mv c) _ _ ed) as [d' [e1 e2]]. rewrite e1, e2. cbn.
      eexists. eexists. split; [reflexivity|]. split; [reflexivity|]. destruct minus; reflexivity.
    + pose proof (reduce_sx (T := R) true true _ _ _ _ (hs_app _ _ _ _ h1 (hs_refl (mbot a))) (hs_app _ _ _ _ h2 (hs_refl (mtop a)))) as k.
      destruct (reduce true true (mtop b ++ mbot a) (mbot b ++ mtop a)) as [[[t w] f]|]; cbn [bind] in hp; [|discriminate].
      destruct (reduce true true (mtop c ++ mbot a) (mbot c ++ mtop a)) as [[[t' w'] f']|]; cbn in k; [|contradiction]. destruct k as [[k1 k2] k3]. cbn [fst snd] in *. subst f'.
      cbn [bind]. destruct (pydiv (mv b) (mv a)) as [d|] eqn:ed; cbn [bind] in hp; [|discriminate]. injection hp as <-. destruct (pydiv_pm minus _ (mv c) _ _ ed) as [d' [e1 e2]]. rewrite e1, e2. cbn [bind].
      eexists. eexists. split; [reflexivity|]. split; [reflexivity|]. rewrite (sum_shape_div minus _ _ _ _ _ _ k1 k2). do 2 f_equal. symmetry. apply pm_r.
Qed.
Lemma ucls_sub_refl c : ucls_sub c c = true. Proof. destruct c; reflexivity. Qed.
Lemma eeqb_iff e e' : eeqb e e' = true <-> ev e = ev e'.
Proof. unfold eeqb, Qc_eq_bool. destruct (Qc_eq_dec (ev e) (ev e')); split; intro; congruence. Qed.
Lemma sum_unit minus (u v : unit_obj R) s : built u -> plus_or_minus minus (VUnit u) (VUnit v) = Ok s ->
  ucls_sub (uc v) (uc u) = true /\ un u = un v /\ ev (ue u) = ev (ue v) /\ s = VUnit (UO (uc u) (pm minus (uv u) (uv v)) (un u) (ue u)).
Proof.
  intros hu. destruct minus; cbn; destruct (ucls_sub (uc v) (uc u)) eqn:ec; try discriminate; destruct (String.eqb (un u) (un v) && eeqb (ue u) (ue v)) eqn:e; try discriminate;
  rewrite (rebuild u _ _ hu); cbn; intro h; injection h as <-; apply andb_true_iff in e; destruct e as [e1 e2]; apply String.eqb_eq in e1; apply eeqb_iff in e2; repeat split; assumption.
Qed.
Lemma sum_built minus (u : unit_obj R) c (x y : R) e e' : built u -> ucls_sub c (uc u) = true -> ev e = ev e' ->
  plus_or_minus minus (VUnit (UO (uc u) x (un u) e)) (VUnit (UO c y (un u) e')) = Ok (VUnit (UO (uc u) (pm minus x y) (un u) e)).
Proof. intros hu hs h. apply eeqb_iff in h. destruct minus; cbn; rewrite hs, String.eqb_refl, h; cbn; rewrite (rebuild u _ _ hu); reflexivity. Qed.
Lemma sx_one n e e' : ev e = ev e' -> Forall2 sx [BU n e] [BU n e'].
Proof. intro h. constructor; [split; [reflexivity|exact h]|constructor]. Qed.
Lemma eadd_sx a b a' b' : ev a = ev a' -> ev b = ev b' -> ev (eadd a b) = ev (eadd a' b').
Proof. intros h g. destruct a, b, a', b'. cbn in *. subst. reflexivity. Qed.
Lemma esub_sx a b a' b' : ev a = ev a' -> ev b = ev b' -> ev (esub a b) = ev (esub a' b').
Proof. intros h g. destruct a, b, a', b'. cbn in *. subst. reflexivity. Qed.
Lemma multi_unit_mul minus (a : multi_obj R) n (e e' : expo) c1 c2 c3 (x y : R) p : ev e = ev e' -> multi_mul a (VUnit (UO c1 x n e)) = Ok p ->
  exists q r, multi_mul a (VUnit (UO c2 y n e')) = Ok q /\ multi_mul a (VUnit (UO c3 (pm minus x y) n e)) = Ok r /\ plus_or_minus minus p q = Ok r.
Proof.
  intros he hp. cbn [multi_mul un ue uv] in *.
  pose proof (reduce_sx (T := R) true true _ _ _ _ (hs_app _ _ _ _ (hs_refl (mtop a)) (sx_one n e e' he)) (hs_refl (mbot a))) as k.
  destruct (reduce true true (mtop a ++ [BU n e]) (mbot a)) as [[[t w] f]|]; cbn [bind] in hp; [|discriminate]. injection hp as <-.
  destruct (reduce true true (mtop a ++ [BU n e']) (mbot a)) as [[[t' w'] f']|]; cbn in k; [|contradiction]. destruct k as [[k1 k2] k3]. cbn [fst snd] in *.
  cbn [bind]. eexists. eexists. split; [reflexivity|]. split; [reflexivity|]. rewrite (sum_shape_mul minus _ _ _ _ _ _ k1 k2). do 2 f_equal. symmetry. apply pm_r.
Qed.
Lemma class_eq_refl c : ucls_eqb c c = true. Proof. destruct c; reflexivity. Qed.
Lemma ucls_eq c d : ucls_eqb c d = true -> c = d. Proof. destruct c, d; intro h; try reflexivity; discriminate h. Qed.
Lemma no_clash (u v b : unit_obj R) : un u = un v -> ~ clash (VUnit u) (VUnit v) (VUnit b) ->
  ucls_eqb (uc v) (uc b) && String.eqb (un u) (un b) = ucls_eqb (uc u) (uc b) && String.eqb (un u) (un b) /\ (ucls_eqb (uc u) (uc b) && String.eqb (un u) (un b) = true -> uc u = uc v).
Proof.
  intros hn h. cbn in h. destruct (String.eqb (un u) (un b)) eqn:e; rewrite ?andb_false_r; [|split; [reflexivity|discriminate]]. rewrite !andb_true_r. apply String.eqb_eq in e.
  destruct (ucls_eqb (uc u) (uc v)) eqn:k; [apply ucls_eq in k; rewrite k; split; [reflexivity|reflexivity]|].
  assert (k' : uc u <> uc v) by (intro g; rewrite g, class_eq_refl in k; discriminate k).
  destruct (ucls_eqb (uc u) (uc b)) eqn:k1; [apply ucls_eq in k1; exfalso; apply h; auto|].
  destruct (ucls_eqb (uc v) (uc b)) eqn:k2; [apply ucls_eq in k2; exfalso; apply h; auto|]. split; [reflexivity|discriminate].
Qed.
Lemma unit_right_mul minus (u v : unit_obj R) o s p : operand o -> built u -> built v -> ~ clash (VUnit u) (VUnit v) o -> plus_or_minus minus (VUnit u) (VUnit v) = Ok s -> py_mul (VUnit u) o = Ok p ->
  exists q r, py_mul (VUnit v) o = Ok q /\ py_mul s o = Ok r /\ plus_or_minus minus p q = Ok r.
Proof.
  intros ho hu hv hk hs hp. apply (sum_unit minus u v s hu) in hs. destruct hs as (hc & hn & he & ->).
  destruct o as [x| | |b|m]; try contradiction; cbn [py_mul unit_mul uc un ue uv] in *.
  - rewrite (rebuild u _ _ hu) in hp. rewrite (rebuild u _ _ hu), (rebuild v _ _ hv). unfold vunit, rmap in hp. injection hp as <-. cbn. eexists. eexists. split; [reflexivity|]. split; [reflexivity|].
    rewrite <- hn. pose proof (sum_built minus u (uc v) (uv u * x) (uv v * x) (eint 1) (eint 1) hu hc eq_refl) as g. rewrite <- pm_r in g. exact g.
  - destruct (no_clash u v b hn hk) as [k1 k2]. rewrite <- hn, k1. destruct (ucls_eqb (uc u) (uc b) && String.eqb (un u) (un b)).
    + rewrite <- (k2 eq_refl). rewrite (rebuild u _ _ hu) in hp. rewrite !(rebuild u _ _ hu). unfold vunit, rmap in hp. injection hp as <-. cbn. eexists. eexists. split; [reflexivity|]. split; [reflexivity|].
      pose proof (sum_built minus u (uc u) (uv u * uv b) (uv v * uv b) (eadd (ue u) (ue b)) (eadd (ue v) (ue b)) hu (ucls_sub_refl _) (eadd_sx _ _ _ _ he eq_refl)) as g. rewrite <- pm_r in g. exact g.
    + injection hp as <-. eexists. eexists. split; [reflexivity|]. split; [reflexivity|].
      rewrite (sum_same minus _ _ _ _ _ _ (hs_refl _) (hs_refl _)). do 4 f_equal. symmetry. apply pm_r.
  - destruct u as [c1 x n e], v as [c2 y n2 e2]. cbn [uc un ue uv] in *. subst n2. exact (multi_unit_mul minus m n e e2 c1 c2 c1 x y p he hp).
Qed.
Lemma unit_right_div minus (u v : unit_obj R) o s p : operand o -> built u -> built v -> plus_or_minus minus (VUnit u) (VUnit v) = Ok s -> py_div (VUnit u) o = Ok p ->
  exists q r, py_div (VUnit v) o = Ok q /\ py_div s o = Ok r /\ plus_or_minus minus p q = Ok r.
Proof.
  intros ho hu hv hs hp. apply (sum_unit minus u v s hu) in hs. destruct hs as (hc & hn & he & ->).
  assert (rv : forall y e, mk_unit (uc v) y (un u) e = Ok (UO (uc v) y (un u) e)) by (intros; rewrite hn; apply rebuild, hv).
  destruct o as [x| | |b|m]; try contradiction; cbn [py_div unit_div uc un ue uv] in *.
  - destruct (pydiv (uv u) x) as [d|] eqn:ed; cbn [bind] in hp; [|discriminate]. destruct (pydiv_pm minus _ (uv v) _ _ ed) as [d' [e1 e2]]. rewrite e1, e2. cbn [bind].
    rewrite (rebuild u _ _ hu) in hp. rewrite (rebuild u _ _ hu), <- hn, rv. unfold vunit, rmap in hp. injection hp as <-. cbn. eexists. eexists. split; [reflexivity|]. split; [reflexivity|].
    apply sum_built; assumption.
  - destruct (pydiv (uv u) (uv b)) as [d|] eqn:ed; cbn [bind] in hp; [|discriminate]. destruct (pydiv_pm minus _ (uv v) _ _ ed) as [d' [e1 e2]]. rewrite e1, e2. cbn [bind].
    rewrite <- hn. pose proof (esub_sx _ _ _ _ he (eq_refl (ev (ue b)))) as hx. assert (e0 : e_is (esub (ue v) (ue b)) 0 = e_is (esub (ue u) (ue b)) 0) by (unfold e_is; rewrite hx; reflexivity).
    rewrite e0. destruct (String.eqb (un u) (un b)).
    + destruct (e_is (esub (ue u) (ue b)) 0).
      * injection hp as <-. eexists. eexists. split; [reflexivity|]. split; [reflexivity|]. destruct minus; reflexivity.
      * rewrite (rebuild u _ _ hu) in hp. rewrite (rebuild u _ _ hu), rv. unfold vunit, rmap in hp. injection hp as <-. cbn. eexists. eexists. split; [reflexivity|]. split; [reflexivity|]. apply sum_built; assumption.
    + injection hp as <-. eexists. eexists. split; [reflexivity|]. split; [reflexivity|].
      apply sum_same; [apply sx_one; exact he|apply hs_refl].
  - unfold multi_rdiv in *. cbn [un ue uv] in *. rewrite <- hn.
    pose proof (reduce_sx (T := R) true false _ _ _ _ (hs_app _ _ _ _ (hs_refl (mbot m)) (sx_one (un u) _ _ he)) (hs_refl (mtop m))) as k.
    destruct (reduce true false (mbot m ++ [BU (un u) (ue u)]) (mtop m)) as [[[t w] f]|]; cbn [bind] in hp; [|discriminate].
    destruct (reduce true false (mbot m ++ [BU (un u) (ue v)]) (mtop m)) as [[[t' w'] f']|]; cbn in k; [|contradiction]. destruct k as [[k1 k2] k3]. cbn [fst snd] in *.
    cbn [bind]. destruct (pydiv (uv u) (mv m)) as [d|] eqn:ed; cbn [bind] in hp; [|discriminate]. injection hp as <-. destruct (pydiv_pm minus _ (uv v) _ _ ed) as [d' [e1 e2]]. rewrite e1, e2. cbn [bind].
    eexists. eexists. split; [reflexivity|]. split; [reflexivity|]. apply sum_shape_div; assumption.
Qed.
Lemma eqb_comm_cls c d : ucls_eqb c d = ucls_eqb d c. Proof. destruct c, d; reflexivity. Qed.
Lemma unit_left_mul minus (u v : unit_obj R) o s p : operand o -> built u -> built v -> ~ clash (VUnit u) (VUnit v) o -> plus_or_minus minus (VUnit u) (VUnit v) = Ok s -> py_mul o (VUnit u) = Ok p ->
  exists q r, py_mul o (VUnit v) = Ok q /\ py_mul o s = Ok r /\ plus_or_minus minus p q = Ok r.
Proof.
  intros ho hu hv hk hs hp. destruct o as [x| | |b|m]; try contradiction.
  - pose proof (sum_unit minus u v s hu hs) as (_ & _ & _ & e). destruct (unit_right_mul minus u v (VNum x) s p I hu hv hk hs hp) as (q & r & g1 & g2 & g3). exists q, r. subst s. auto.
  - apply (sum_unit minus u v s hu) in hs. destruct hs as (hc & hn & he & ->). cbn [py_mul unit_mul uc un ue uv] in *.
    destruct (no_clash u v b hn hk) as [k1 k2]. rewrite <- hn, (eqb_comm_cls (uc b) (uc v)), (String.eqb_sym (un b) (un u)), k1. rewrite (eqb_comm_cls (uc b) (uc u)), (String.eqb_sym (un b) (un u)) in *.
    destruct (ucls_eqb (uc u) (uc b) && String.eqb (un u) (un b)) eqn:e.
    + apply andb_true_iff in e. destruct e as [g1 g2]. apply ucls_eq in g1. apply String.eqb_eq in g2. rewrite <- g1, <- g2 in *.
      rewrite (rebuild u _ _ hu) in hp. rewrite !(rebuild u _ _ hu). unfold vunit, rmap in hp. injection hp as <-. cbn. eexists. eexists. split; [reflexivity|]. split; [reflexivity|].
      pose proof (sum_built minus u (uc u) (uv b * uv u) (uv b * uv v) (eadd (ue b) (ue u)) (eadd (ue b) (ue v)) hu (ucls_sub_refl _) (eadd_sx _ _ _ _ eq_refl he)) as g. rewrite <- pm_l in g. exact g.
    + injection hp as <-. eexists. eexists. split; [reflexivity|]. split; [reflexivity|].
      rewrite (sum_same minus _ _ _ _ _ _ (hs_refl _) (hs_refl _)). do 4 f_equal. symmetry. apply pm_l.
  - apply (sum_unit minus u v s hu) in hs. destruct hs as (hc & hn & he & ->). cbn [py_mul] in *. destruct u as [c1 x n e], v as [c2 y n2 e2]. cbn [uc un ue uv] in *. subst n2. exact (multi_unit_mul minus m n e e2 c1 c2 c1 x y p he hp).
Qed.
Lemma clash_right minus a b o s p q : summands a b -> clash a b o -> plus_or_minus minus a b = Ok s -> py_mul a o = Ok p -> py_mul b o = Ok q -> plus_or_minus minus p q = Raise ETypeError.
Proof.
  destruct a as [| | |u|], b as [| | |v|], o as [| | |w|]; try contradiction. intros (hu & hv) (k1 & k2 & k3) hs. apply (sum_unit minus u v s hu) in hs. destruct hs as (hc & hn & he & _).
  cbn [py_mul unit_mul]. rewrite k2, <- hn, String.eqb_refl, !andb_true_r. destruct k3 as [k3|k3]; rewrite k3, class_eq_refl.
  - destruct (ucls_eqb (uc v) (uc u)) eqn:e; [apply ucls_eq in e; congruence|]. rewrite (rebuild u _ _ hu). unfold vunit, rmap. intros h g. injection h as <-. injection g as <-. destruct minus; reflexivity.
  - destruct (ucls_eqb (uc u) (uc v)) eqn:e; [apply ucls_eq in e; congruence|]. rewrite hn, (rebuild v _ _ hv). unfold vunit, rmap. intros h g. injection h as <-. injection g as <-. destruct minus; reflexivity.
Qed.
Lemma clash_left minus a b o s p q : summands a b -> clash a b o -> plus_or_minus minus a b = Ok s -> py_mul o a = Ok p -> py_mul o b = Ok q -> plus_or_minus minus p q = Raise ETypeError.
Proof.
  destruct a as [| | |u|], b as [| | |v|], o as [| | |w|]; try contradiction. intros (hu & hv) (k1 & k2 & k3) hs. apply (sum_unit minus u v s hu) in hs. destruct hs as (hc & hn & he & _).
  cbn [py_mul unit_mul]. rewrite k2, <- hn, String.eqb_refl, !andb_true_r. destruct k3 as [k3|k3]; rewrite k3, class_eq_refl.
  - destruct (ucls_eqb (uc u) (uc v)) eqn:e; [apply ucls_eq in e; congruence|]. rewrite (rebuild u _ _ hu). unfold vunit, rmap. intros h g. injection h as <-. injection g as <-. destruct minus; reflexivity.
  - destruct (ucls_eqb (uc v) (uc u)) eqn:e; [apply ucls_eq in e; congruence|]. rewrite hn, (rebuild v _ _ hv). unfold vunit, rmap. intros h g. injection h as <-. injection g as <-. destruct minus; reflexivity.
Qed.
Lemma multi_left_mul minus (b c : multi_obj R) o s p : operand o -> plus_or_minus minus (VMulti b) (VMulti c) = Ok s -> py_mul o (VMulti b) = Ok p ->
  exists q r, py_mul o (VMulti c) = Ok q /\ py_mul o s = Ok r /\ plus_or_minus minus p q = Ok r.
Proof.
  intros ho hs hp. destruct o as [x| | |u|a]; try contradiction; [| |exact (dist_left minus a b c s p hs hp)].
  - apply sum_multi in hs. destruct hs as (h1 & h2 & ->). cbn [py_mul multi_rmul mtop mbot mv] in *. injection hp as <-. eexists. eexists. split; [reflexivity|]. split; [reflexivity|].
    rewrite (sum_same minus _ _ _ _ _ _ h1 h2). do 4 f_equal. symmetry. apply pm_l.
  - pose proof (sum_multi _ _ _ _ hs) as (_ & _ & e). destruct (dist_right minus b c (VUnit u) s p I hs hp) as (q & r & g1 & g2 & g3). exists q, r. subst s. auto.
Qed.
Lemma left_distributes minus a b o s p : operand o -> summands a b -> ~ clash a b o -> plus_or_minus minus a b = Ok s -> py_mul o a = Ok p ->
  exists q r, py_mul o b = Ok q /\ py_mul o s = Ok r /\ plus_or_minus minus p q = Ok r.
Proof. destruct a, b; cbn [summands]; intros ho hs hk; try contradiction; [destruct hs as (h1 & h2); apply unit_left_mul; assumption|apply multi_left_mul; assumption]. Qed.
Lemma right_distributes minus a b o s p : operand o -> summands a b -> ~ clash a b o -> plus_or_minus minus a b = Ok s -> py_mul a o = Ok p ->
  exists q r, py_mul b o = Ok q /\ py_mul s o = Ok r /\ plus_or_minus minus p q = Ok r.
Proof. destruct a, b; cbn [summands]; intros ho hs hk; try contradiction; [destruct hs as (h1 & h2); apply unit_right_mul; assumption|apply dist_right; assumption]. Qed.
Lemma div_distributes minus a b o s p : operand o -> summands a b -> plus_or_minus minus a b = Ok s -> py_div a o = Ok p ->
  exists q r, py_div b o = Ok q /\ py_div s o = Ok r /\ plus_or_minus minus p q = Ok r.
Proof. destruct a, b; cbn [summands]; intros ho hs; try contradiction; [destruct hs as (h1 & h2); apply unit_right_div; assumption|apply dist_div; assumption]. Qed.

Definition f1 (n : string) : bu := BU n (eflt (qc 1)).
Definition force_b : multi_obj R := MO MMulti 3 [f1 "kg"; f1 "m"] [BU "s" (eflt (qc 2))].
Definition force_c : multi_obj R := MO MMulti 4 [f1 "kg"; f1 "m"] [BU "s" (eflt (qc 2))].
Definition speed_o : multi_obj R := MO MMulti 2 [f1 "km"] [f1 "hr"].
Definition feet (x : R) : unit_obj R := UO Length x "ft" (eint 1).
Lemma distrib_case : mk_multi MMulti 3 "kg*m/s^2" = Ok force_b /\ mk_multi MMulti 4 "kg*m/s^2" = Ok force_c /\ mk_multi MMulti 2 "km/hr" = Ok speed_o /\
  mk_unit Length 5 "ft" (eint 1) = Ok (feet 5) /\ mk_unit Length 6 "ft" (eint 1) = Ok (feet 6) /\
  summands (VMulti force_b) (VMulti force_c) /\ summands (VUnit (feet 5)) (VUnit (feet 6)) /\
  forall minus, (exists s, plus_or_minus minus (VMulti force_b) (VMulti force_c) = Ok s) /\ (exists s, plus_or_minus minus (VUnit (feet 5)) (VUnit (feet 6)) = Ok s) /\
  (exists p, py_mul (VMulti speed_o) (VMulti force_b) = Ok p) /\ (exists p, py_mul (VMulti force_b) (VMulti speed_o) = Ok p) /\ (exists p, py_div (VMulti force_b) (VMulti speed_o) = Ok p) /\
  (exists p, py_mul (VMulti speed_o) (VUnit (feet 5)) = Ok p) /\ (exists p, py_mul (VUnit (feet 5)) (VMulti speed_o) = Ok p).
Proof.
  do 5 (split; [reflexivity|]). split; [exact I|]. split.
  { split; [exists 5|exists 6]; exists "ft", (eint 1); reflexivity. }
  assert (a1 : adm_multi force_b) by (split; adm). assert (a2 : adm_multi speed_o) by (split; adm).
  intro minus. split; [destruct minus; eexists; reflexivity|]. split; [destruct minus; eexists; reflexivity|].
  split; [destruct (mul_mm speed_o force_b a2 a1) as [r [e _]]; eexists; exact e|]. split; [destruct (mul_mm force_b speed_o a1 a2) as [r [e _]]; eexists; exact e|].
  split; [destruct (div_mm force_b speed_o a1 a2) as [r [e _]]; [cbn; lra|eexists; exact e]|].
  destruct (mul_mu_exact speed_o (feet 5) a2) as [r [e1 [e2 _]]]; [adm1|]. split; eexists; eassumption.
Qed.
Lemma classes_refuted : exists u v o : unit_obj R, mk_unit UUnit 1 "m" (eint 1) = Ok u /\ mk_unit Length 2 "m" (eint 1) = Ok v /\ mk_unit Length 3 "m" (eint 1) = Ok o /\
  exists s p q, py_add (VUnit u) (VUnit v) = Ok s /\ py_mul (VUnit u) (VUnit o) = Ok p /\ py_mul (VUnit v) (VUnit o) = Ok q /\ py_add p q = Raise ETypeError.
Proof. do 3 eexists. do 3 (split; [reflexivity|]). do 3 eexists. do 3 (split; [reflexivity|]). reflexivity. Qed.
