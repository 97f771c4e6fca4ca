(** * SumErr: sums and differences in inexact arithmetic *)
From Coq Require Import String Ascii List ZArith QArith Qcanon Bool Reals Qreals Qabs Qround Lia Lra.
From Verif Require Import Py Num NumFacts UnitsData UnitsStruct Units Expr Rounding RoundSpec RoundFacts RoundErr RoundCases SumSpec.
Import ListNotations.
Local Open Scope string_scope.
Local Open Scope list_scope.

(** ** Two relations: [rel], kept by every operation, and a weaker one that is
    kept by everything but division by it *)
Section Two.
Context {A B C : Type} {NA : Num A} {NB : Num B} {NC : Num C}.
Variable lax : bool.
Variable rel : A -> B -> C -> Prop.
Variable wk : A -> B -> C -> Prop.
Variable okq : Q -> Prop.
Hypothesis okq_1 : okq 1.
Hypothesis okq_prefix : forall p q, dict_get prefix_factors p = Some q -> okq q.
Hypothesis h_q : forall q, okq q -> rel (nq q) (nq q) (nq q).
Hypothesis h_mul : forall x y z x' y' z', rel x y z -> rel x' y' z' -> rel (nmul x x') (nmul y y') (nmul z z').
Hypothesis h_div : forall x y z x' y' z', rel x y z -> rel x' y' z' -> rr lax rel (pydiv x x') (pydiv y y') (pydiv z z').
Hypothesis h_pow : forall q x y z, rel x y z -> rr lax rel (npow x q) (npow y q) (npow z q).
Hypothesis weaken : forall x y z, rel x y z -> wk x y z.
Hypothesis w_mul : forall x y z x' y' z', wk x y z -> wk x' y' z' -> wk (nmul x x') (nmul y y') (nmul z z').
Hypothesis w_div : forall x y z x' y' z', wk x y z -> rel x' y' z' -> rr lax wk (pydiv x x') (pydiv y y') (pydiv z z').

Ltac open_u u1 u2 u3 h :=
  destruct u1 as [?c1 ?v1 ?n1 ?e1]; destruct u2 as [?c2 ?v2 ?n2 ?e2]; destruct u3 as [?c3 ?v3 ?n3 ?e3];
  unfold relu, relm in h; cbn [relv uc uv un ue mc mv mtop mbot] in h;
  destruct h as (?d1 & ?d2 & ?d3 & ?d4 & ?d5 & ?d6 & h); subst.
Ltac reduced := apply (rr_bind (rel3 rel)); [apply (rr_reduce lax rel okq); assumption|]; intros [[?t1 ?b1] ?f1] [[?t2 ?b2] ?f2] [[?t3 ?b3] ?f3] (?e1 & ?e2 & ?hf);
  match goal with e1 : fst (_, _, _) = _, e2 : fst (_, _, _) = _, hf : rel _ _ _ |- _ => cbn in e1, e2, hf; injection e1 as -> ->; injection e2 as -> -> end.

Lemma wk_mul a b c a' b' c' : relv wk a b c -> relv wk a' b' c' -> rr lax (relv wk) (py_mul a a') (py_mul b b') (py_mul c c').
Proof.
  intros h h'.
  destruct a as [x| | |u1|m1], b as [y| | |u2|m2], c as [z| | |u3|m3]; cbn [relv] in h; try contradiction;
  destruct a' as [x'| | |u1'|m1'], b' as [y'| | |u2'|m2'], c' as [z'| | |u3'|m3']; cbn [relv] in h'; try contradiction;
    cbn [py_mul unit_mul unit_rmul multi_mul multi_rmul]; try apply rr_raise; try (apply rr_ok; exact I).
  - apply rr_ok. apply w_mul; assumption.
  - open_u u1' u2' u3' h'. cbn [uc uv un ue]. apply rr_mkv, w_mul; assumption.
  - open_u m1' m2' m3' h'. cbn [mc mv mtop mbot]. apply rr_ok, relm_mk, w_mul; assumption.
  - open_u u1 u2 u3 h. cbn [uc uv un ue]. apply rr_mkv, w_mul; assumption.
  - open_u u1 u2 u3 h. open_u u1' u2' u3' h'. cbn [uc uv un ue]. destruct (_ && _); [apply rr_mkv, w_mul; assumption|apply rr_ok, relm_mk, w_mul; assumption].
  - open_u u1 u2 u3 h. open_u m1' m2' m3' h'. cbn [uc uv un ue mc mv mtop mbot]. reduced. apply weaken in hf. apply rr_ok, rel_shape_mul; repeat apply w_mul; assumption.
  - open_u m1 m2 m3 h. cbn [mc mv mtop mbot]. apply rr_ok, relm_mk, w_mul; assumption.
  - open_u m1 m2 m3 h. open_u u1' u2' u3' h'. cbn [uc uv un ue mc mv mtop mbot]. reduced. apply weaken in hf. apply rr_ok, rel_shape_mul; repeat apply w_mul; assumption.
  - open_u m1 m2 m3 h. open_u m1' m2' m3' h'. cbn [mc mv mtop mbot]. reduced. apply weaken in hf. apply rr_ok, relm_mk, w_mul; [apply w_mul|]; assumption.
Qed.
Ltac divided := apply (rr_bind wk); [apply w_div; assumption|]; intros ?x ?y ?z ?hq.
Lemma wk_divide a b c a' b' c' : relv wk a b c -> relv rel a' b' c' -> rr lax (relv wk) (py_div a a') (py_div b b') (py_div c c').
Proof.
  intros h h'.
  destruct a as [x| | |u1|m1], b as [y| | |u2|m2], c as [z| | |u3|m3]; cbn [relv] in h; try contradiction;
  destruct a' as [x'| | |u1'|m1'], b' as [y'| | |u2'|m2'], c' as [z'| | |u3'|m3']; cbn [relv] in h'; try contradiction;
    cbn [py_div unit_div multi_div multi_rdiv]; try apply rr_raise; try (apply rr_ok; exact I).
  - eapply rr_rmap; [apply w_div; eassumption|]. intros ? ? ? p. exact p.
  - open_u m1' m2' m3' h'. cbn [mc mv mtop mbot]. divided. apply rr_ok, relm_mk; assumption.
  - open_u u1 u2 u3 h. cbn [uc uv un ue]. divided. apply rr_mkv; assumption.
  - open_u u1 u2 u3 h. open_u u1' u2' u3' h'. cbn [uc uv un ue]. divided.
    destruct (String.eqb _ _); [|apply rr_ok, relm_mk; assumption]. destruct (e_is _ 0); [apply rr_ok; assumption|apply rr_mkv; assumption].
  - open_u u1 u2 u3 h. open_u m1' m2' m3' h'. cbn [uc uv un ue mc mv mtop mbot]. reduced. divided. apply rr_ok, rel_shape_div; assumption.
  - open_u m1 m2 m3 h. cbn [mc mv mtop mbot]. divided. apply rr_ok, relm_mk; assumption.
  - open_u m1 m2 m3 h. open_u u1' u2' u3' h'. cbn [uc uv un ue mc mv mtop mbot]. reduced. divided. apply weaken in hf. apply rr_ok, rel_shape_div, w_mul; assumption.
  - open_u m1 m2 m3 h. open_u m1' m2' m3' h'. cbn [mc mv mtop mbot]. destruct (_ && _).
    + eapply rr_rmap; [apply w_div; eassumption|]. intros ? ? ? p. exact p.
    + reduced. divided. apply weaken in hf. apply rr_ok, rel_shape_div, w_mul; assumption.
Qed.
Lemma wk_power a b c k : (forall x y z, wk x y z -> rr lax wk (npow x (ev k)) (npow y (ev k)) (npow z (ev k))) ->
  relv wk a b c -> rr lax (relv wk) (py_pow a k) (py_pow b k) (py_pow c k).
Proof.
  intros w_pow h.
  destruct a as [x| | |u1|m1], b as [y| | |u2|m2], c as [z| | |u3|m3]; cbn [relv] in h; try contradiction; cbn [py_pow]; try apply rr_raise.
  - eapply rr_rmap; [apply w_pow; eassumption|]. intros ? ? ? p. exact p.
  - open_u u1 u2 u3 h. unfold unit_pow. cbn [uc uv un ue]. apply (rr_bind wk); [apply w_pow, h|]. intros. apply rr_mkv. assumption.
  - open_u m1 m2 m3 h. unfold multi_pow. cbn [mc mv mtop mbot]. apply rr_same. intro r.
    apply (rr_bind wk); [apply w_pow, h|]. intros. apply rr_ok, relm_mk. assumption.
Qed.
Lemma wk_sub : (forall x y z x' y' z', wk x y z -> wk x' y' z' -> wk (nsub x x') (nsub y y') (nsub z z')) ->
  forall a b c a' b' c', relv wk a b c -> relv wk a' b' c' -> rr lax (relv wk) (py_sub a a') (py_sub b b') (py_sub c c').
Proof.
  intros w_sub a b c a' b' c' h h'.
  destruct a as [x| | |u1|m1], b as [y| | |u2|m2], c as [z| | |u3|m3]; cbn [relv] in h; try contradiction;
  destruct a' as [x'| | |u1'|m1'], b' as [y'| | |u2'|m2'], c' as [z'| | |u3'|m3']; cbn [relv] in h'; try contradiction;
    cbn [py_sub unit_addsub multi_sub]; try apply rr_raise.
  - apply rr_ok, w_sub; assumption.
  - open_u u1 u2 u3 h. cbn [uc uv un ue]. apply rr_mkv, w_sub; assumption.
  - open_u u1 u2 u3 h. open_u u1' u2' u3' h'. cbn [uc uv un ue]. destruct (ucls_sub _ _); [|apply rr_raise].
    destruct (_ && _); [|apply rr_raise]. apply rr_mkv, w_sub; assumption.
  - open_u m1 m2 m3 h. open_u m1' m2' m3' h'. cbn [mc mv mtop mbot].
    destruct (_ && _); [|apply rr_raise]. apply rr_ok, relm_mk, w_sub; assumption.
Qed.
End Two.

(** Weakening the relation of a run. *)
Lemma relv_weaken {A B C} (P Q : A -> B -> C -> Prop) : (forall x y z, P x y z -> Q x y z) ->
  forall a b c, relv P a b c -> relv Q a b c.
Proof.
  intros h a b c k. destruct a, b, c; cbn [relv] in *; try contradiction; try exact I; try (apply h, k);
    unfold relu, relm in *; intuition.
Qed.
Lemma rr_weaken {X Y Z} lax (P Q : X -> Y -> Z -> Prop) a b c : (forall x y z, P x y z -> Q x y z) -> rr lax P a b c -> rr lax Q a b c.
Proof. intros h [x y z p|e c'|a' b' e hl]; [apply rr_ok, h, p|apply rr_raise|apply rr_lax, hl]. Qed.

(** ** Sizes and counts in one run *)
Definition Mnum : Num (R * nat) := {|
  nadd := fun p q => (@nadd R Snum (fst p) (fst q), @nadd nat Cnum (snd p) (snd q));
  nsub := fun p q => (@nsub R Snum (fst p) (fst q), @nsub nat Cnum (snd p) (snd q));
  nmul := fun p q => (@nmul R Snum (fst p) (fst q), @nmul nat Cnum (snd p) (snd q));
  ndiv := fun p q => (@ndiv R Snum (fst p) (fst q), @ndiv nat Cnum (snd p) (snd q));
  nopp := fun p => p;
  nq := fun q => (@nq R Snum q, @nq nat Cnum q);
  neqb := fun p q => Reqb (fst p) (fst q);
  nltb := fun p q => Rltb (fst p) (fst q);
  npow := fun p q => match Rpowq (fst p) q with Ok x => Ok (x, S (repeats q * snd p)) | Raise e => Raise e end |}.
Definition mleaf (v : pyval R) : pyval (R * nat) :=
  match v with
  | VNum x => VNum (Rabs x, O)
  | VNone => VNone
  | VObj => VObj
  | VUnit u => VUnit (UO (uc u) (Rabs (uv u), O) (un u) (ue u))
  | VMulti m => VMulti (MO (mc m) (Rabs (mv m), O) (mtop m) (mbot m))
  end.
Definition both (x : R) (p : R * nat) (n : nat) : Prop := p = (x, n).
Lemma b_q q : both (@nq R Snum q) (@nq _ Mnum q) (@nq nat Cnum q).
Proof. reflexivity. Qed.
Lemma b_mul x y z x' y' z' : both x y z -> both x' y' z' -> both (@nmul R Snum x x') (@nmul _ Mnum y y') (@nmul nat Cnum z z').
Proof. intros -> ->. reflexivity. Qed.
Lemma b_div x y z x' y' z' : both x y z -> both x' y' z' -> rr false both (@pydiv R Snum x x') (@pydiv _ Mnum y y') (@pydiv nat Cnum z z').
Proof. intros -> ->. unfold pydiv. cbn. destruct (Reqb x' (Q2R 0)); [apply rr_raise|apply rr_ok; reflexivity]. Qed.
Lemma b_pow q x y z : both x y z -> rr false both (@npow R Snum x q) (@npow _ Mnum y q) (@npow nat Cnum z q).
Proof. intros ->. cbn [npow Snum Mnum Cnum fst snd]. destruct (Rpowq x q); [apply rr_ok; reflexivity|apply rr_raise]. Qed.
Lemma run_both e : rr false (relv both) (@geval R Snum unsigned e) (@geval _ Mnum mleaf e) (@geval nat Cnum fresh e).
Proof.
  induction e as [v|e IHe f IHf|e IHe f IHf|e IHe f IHf|e IHe f IHf|e IHe k|e IHe]; cbn [geval].
  - apply rr_ok. destruct v as [x| | |w|m]; cbn; unfold relu, relm, both; cbn; repeat split.
  - eapply rr_bind; [apply IHe|]. intros x y z hx. eapply rr_bind; [apply IHf|]. intros x' y' z' hx'.
    apply (@rr_mul _ _ _ Snum Mnum Cnum false both (fun _ => True)); auto using b_q, b_mul, b_div, b_pow.
  - eapply rr_bind; [apply IHe|]. intros x y z hx. eapply rr_bind; [apply IHf|]. intros x' y' z' hx'.
    apply (@rr_divide _ _ _ Snum Mnum Cnum false both (fun _ => True)); auto using b_q, b_mul, b_div, b_pow.
  - eapply rr_bind; [apply IHe|]. intros x y z hx. eapply rr_bind; [apply IHf|]. intros x' y' z' hx'.
    apply (@rr_add _ _ _ Snum Mnum Cnum false both); auto. intros ? ? ? ? ? ? -> ->. reflexivity.
  - eapply rr_bind; [apply IHe|]. intros x y z hx. eapply rr_bind; [apply IHf|]. intros x' y' z' hx'.
    apply (@wk_sub _ _ _ Snum Mnum Cnum false both); auto. intros ? ? ? ? ? ? -> ->. reflexivity.
  - eapply rr_bind; [apply IHe|]. intros x y z hx. apply (@rr_power _ _ _ Snum Mnum Cnum false both); auto using b_pow.
  - eapply rr_bind; [apply IHe|]. intros x y z hx. apply (@rr_neg _ _ _ Snum Mnum Cnum false both); auto.
Qed.

Local Open Scope R_scope.
Section Err.
Variable u : R.
Hypothesis hu : 0 <= u < 1.
Variable a : arith.
Hypothesis ha : accurate u a.
Definition g (n : nat) : R := / (1 - u) ^ n.
Lemma g_1 n : 1 <= g n.
Proof. apply base_inv, hu. Qed.
Lemma g_add n m : g (n + m) = g n * g m.
Proof. unfold g. rewrite pow_add, Rinv_mult. reflexivity. Qed.
Lemma g_mono n m : (n <= m)%nat -> g n <= g m.
Proof. intro h. replace m with (n + (m - n))%nat by lia. rewrite g_add. pose proof (g_1 n). pose proof (g_1 (m - n)). nra. Qed.
Lemma g_one : 1 + u <= g 1.
Proof. unfold g. cbn [pow]. rewrite Rmult_1_r. apply (Rmult_le_reg_r (1 - u)); [lra|]. rewrite Rinv_l by lra. nra. Qed.

(** [x] exact, [y] computed, [p] size and count. *)
Definition tight (x y : R) (p : R * nat) : Prop := fst p = Rabs x /\ within u (snd p) x y.
Definition ptight (x y : R) (p : R * nat) : Prop := 0 < x /\ fst p = x /\ within u (snd p) x y.
Definition loose (x y : R) (p : R * nat) : Prop := Rabs x <= fst p /\ off u (snd p) (fst p) x y.
Lemma ptight_tight x y p : ptight x y p -> tight x y p.
Proof. intros (h & e & k). split; [rewrite e, Rabs_pos_eq; lra|exact k]. Qed.
Lemma tight_loose x y p : tight x y p -> loose x y p.
Proof.
  intros (e & f & (f1 & f2) & ->). split; [lra|]. unfold off. rewrite e.
  replace (x * f - x) with ((f - 1) * x) by ring. rewrite Rabs_mult. apply Rmult_le_compat_r; [apply Rabs_pos|].
  pose proof (base_pos u hu (snd p)) as b. pose proof (base_le1 u hu (snd p)) as b1.
  assert (s : 1 - (1 - u) ^ snd p <= / (1 - u) ^ snd p - 1).
  { assert (i : / (1 - u) ^ snd p * (1 - u) ^ snd p = 1) by (apply Rinv_l; lra). apply (Rmult_le_reg_r ((1 - u) ^ snd p)); [exact b|]. nra. }
  apply Rabs_le. lra.
Qed.
Lemma t_q q : (0 < q)%Q -> tight (@nq R Rnum q) (@nq R (Fnum a) q) (@nq _ Mnum q).
Proof.
  intro h. split; [|apply (c_lit u hu a ha)]. cbn. apply Qlt_Rlt in h. rewrite q2r_0 in h. rewrite Rabs_pos_eq; lra.
Qed.
Lemma t_mul x y z x' y' z' : tight x y z -> tight x' y' z' -> tight (@nmul R Rnum x x') (@nmul R (Fnum a) y y') (@nmul _ Mnum z z').
Proof.
  intros (e & k) (e' & k'). split; [cbn; rewrite Rabs_mult; congruence|]. apply (c_mul u hu a ha); assumption.
Qed.
Lemma Reqb_abs x : Reqb (Rabs x) 0 = Reqb x 0.
Proof.
  destruct (Reqb x 0) eqn:e; [apply Reqb_true in e; apply Reqb_true; subst; apply Rabs_R0|].
  apply Reqb_false in e. apply Reqb_false, Rabs_no_R0, e.
Qed.
Lemma t_div x y z x' y' z' : tight x y z -> tight x' y' z' ->
  rr false tight (@pydiv R Rnum x x') (@pydiv R (Fnum a) y y') (@pydiv _ Mnum z z').
Proof.
  intros (e & k) (e' & k'). pose proof (c_div u hu a ha _ _ _ _ _ _ k k') as d. unfold pydiv in *.
  cbn [neqb nq ndiv Rnum Fnum Cnum Mnum Snum fst snd] in *. rewrite e', q2r_0, Reqb_abs in *. rewrite (lit_0 u a ha) in *.
  destruct (Reqb x' 0) eqn:q, (Reqb y' 0) eqn:q'; try (apply rr_raise); apply rr_tight in d; try contradiction.
  destruct d as (n & e0 & d). injection e0 as <-. apply rr_ok. split; [|exact d]. cbn [fst]. rewrite e. unfold Rdiv. rewrite Rabs_mult, Rabs_inv. reflexivity.
Qed.
Lemma abs_powerRZ x z : Rabs (powerRZ x z) = powerRZ (Rabs x) z.
Proof.
  destruct z as [|p|p]; cbn [powerRZ]; [apply Rabs_R1|symmetry; apply RPow_abs|].
  rewrite Rabs_inv. f_equal. symmetry. apply RPow_abs.
Qed.
Lemma abs_pow x q v : Rpowq x q = Ok v -> Rpowq (Rabs x) q = Ok (Rabs v).
Proof.
  unfold Rpowq. rewrite Reqb_abs. destruct (is_int q).
  - destruct (_ && _); [discriminate|]. intro h. injection h as <-. rewrite abs_powerRZ. reflexivity.
  - destruct (Rltb 0 x) eqn:l.
    + apply Rltb_true in l. rewrite (Rabs_pos_eq x) by lra. rewrite (proj2 (Rltb_true 0 x) l). intro h. injection h as <-.
      rewrite Rabs_pos_eq; [reflexivity|left; apply exp_pos].
    + destruct (Reqb x 0) eqn:e; [|discriminate]. apply Reqb_true in e. subst. rewrite Rabs_R0, l.
      destruct (Qcltb q (qc 0)); [discriminate|]. intro h. injection h as <-. rewrite Rabs_R0. reflexivity.
Qed.
Lemma t_pow q x y z : tight x y z -> rr false tight (@npow R Rnum x q) (@npow R (Fnum a) y q) (@npow _ Mnum z q).
Proof.
  intros (e & k). pose proof (c_pow u hu a ha q _ _ _ k) as d. apply rr_tight in d. cbn [npow Rnum Fnum Mnum Cnum] in *.
  destruct (Rpowq x q) as [v|er] eqn:p, (a_pow a y q) as [w|er']; try contradiction.
  - destruct d as (n & e0 & d). injection e0 as <-. rewrite e, (abs_pow _ _ _ p). apply rr_ok. split; [reflexivity|exact d].
  - subst. apply rr_raise.
Qed.
(** The same, positive. *)
Lemma pt_q q : (0 < q)%Q -> ptight (@nq R Rnum q) (@nq R (Fnum a) q) (@nq _ Mnum q).
Proof. intro h. destruct (p_lit u hu a ha q h) as (p & k). split; [exact p|]. split; [reflexivity|exact k]. Qed.
Lemma pt_mul x y z x' y' z' : ptight x y z -> ptight x' y' z' -> ptight (@nmul R Rnum x x') (@nmul R (Fnum a) y y') (@nmul _ Mnum z z').
Proof.
  intros (p & e & k) (p' & e' & k'). split; [cbn; apply Rmult_lt_0_compat; assumption|].
  split; [cbn; congruence|]. apply (c_mul u hu a ha); assumption.
Qed.
Lemma pt_div x y z x' y' z' : ptight x y z -> ptight x' y' z' ->
  rr false ptight (@pydiv R Rnum x x') (@pydiv R (Fnum a) y y') (@pydiv _ Mnum z z').
Proof.
  intros h h'. pose proof (t_div _ _ _ _ _ _ (ptight_tight _ _ _ h) (ptight_tight _ _ _ h')) as d.
  destruct h as (p & e & k), h' as (p' & e' & k'). unfold pydiv in *. cbn [neqb nq ndiv Rnum Fnum Cnum Mnum Snum fst snd] in *.
  rewrite e', q2r_0 in *. rewrite (proj2 (Reqb_false x' 0)) in * by lra. rewrite (lit_0 u a ha) in *.
  destruct (Reqb y' 0); apply rr_tight in d; [contradiction|]. destruct d as (n & e0 & d). injection e0 as <-. apply rr_ok.
  destruct d as (d1 & d2). split; [apply Rdiv_lt_0_compat; assumption|]. split; [cbn [fst]; congruence|exact d2].
Qed.
Lemma pt_pow q x y z : ptight x y z -> rr false ptight (@npow R Rnum x q) (@npow R (Fnum a) y q) (@npow _ Mnum z q).
Proof.
  intro h. pose proof (t_pow q _ _ _ (ptight_tight _ _ _ h)) as d. destruct h as (p & e & k). cbn [npow Rnum Mnum] in *.
  rewrite e in *. rewrite Rpowq_pos in * by exact p. apply rr_tight in d.
  destruct (@npow R (Fnum a) y q); try contradiction. destruct d as (n & e0 & d1 & d2). injection e0 as <-. apply rr_ok.
  split; [apply exp_pos|]. split; [reflexivity|exact d2].
Qed.
Lemma pt_add x y z x' y' z' : ptight x y z -> ptight x' y' z' -> ptight (@nadd R Rnum x x') (@nadd R (Fnum a) y y') (@nadd _ Mnum z z').
Proof.
  intros (p & e & k) (p' & e' & k'). destruct (p_add u hu a ha _ _ _ _ _ _ (conj p k) (conj p' k')) as (h1 & h2).
  split; [exact h1|]. split; [cbn; congruence|exact h2].
Qed.

(** The weak relation. *)
Lemma loose_y x y p : loose x y p -> Rabs y <= g (snd p) * fst p.
Proof.
  intros (h & k). unfold off in k. fold (g (snd p)) in k. replace y with ((y - x) + x) by ring. pose proof (Rabs_triang (y - x) x). lra.
Qed.
Lemma loose_0 x y p : loose x y p -> 0 <= fst p.
Proof. intros (h & _). pose proof (Rabs_pos x). lra. Qed.
(** One more rounding. *)
Lemma off_round n z x y w : Rabs x <= z -> off u n z x y -> near1 u y w -> off u (S n) z x w.
Proof.
  intros hz h r. pose proof (loose_y x y (z, n) (conj hz h)) as hy. cbn [fst snd] in hy. unfold off, near1 in *. fold (g n) in h. fold (g (S n)).
  replace (w - x) with ((w - y) + (y - x)) by ring. pose proof (Rabs_triang (w - y) (y - x)).
  assert (e : g (S n) = g 1 * g n) by (rewrite <- g_add; reflexivity). rewrite e. pose proof g_one. pose proof (g_1 n). pose proof (Rabs_pos x). pose proof (Rabs_pos y).
  assert (u * Rabs y <= u * (g n * z)) by (apply Rmult_le_compat_l; lra).
  assert ((1 + u) * (g n * z) <= g 1 * (g n * z)) by (apply Rmult_le_compat_r; [apply Rmult_le_pos; lra|lra]).
  nra.
Qed.
Lemma off_mono n m z x y : (n <= m)%nat -> 0 <= z -> off u n z x y -> off u m z x y.
Proof. unfold off. intros h hz k. pose proof (g_mono n m h) as e. unfold g in e. nra. Qed.
Lemma off_add n z x y z' x' y' : off u n z x y -> off u n z' x' y' -> off u n (z + z') (x + x') (y + y').
Proof.
  unfold off. intros h h'. replace (y + y' - (x + x')) with ((y - x) + (y' - x')) by ring. pose proof (Rabs_triang (y - x) (y' - x')). lra.
Qed.
Lemma off_opp n z x y : off u n z x y -> off u n z (- x) (- y).
Proof. unfold off. replace (- y - - x) with (- (y - x)) by ring. rewrite Rabs_Ropp. tauto. Qed.
Lemma off_mul n m z x y z' x' y' : Rabs x <= z -> Rabs x' <= z' -> off u n z x y -> off u m z' x' y' -> off u (n + m) (z * z') (x * x') (y * y').
Proof.
  intros hz hz' h h'. pose proof (loose_y x' y' (z', m) (conj hz' h')) as hy. cbn [fst snd] in hy. unfold off in *. fold (g n) (g m) (g (n + m)) in *. rewrite g_add.
  replace (y * y' - x * x') with ((y - x) * y' + x * (y' - x')) by ring.
  pose proof (Rabs_triang ((y - x) * y') (x * (y' - x'))) as t. rewrite !Rabs_mult in t.
  pose proof (Rabs_pos x). pose proof (Rabs_pos x'). pose proof (Rabs_pos y'). pose proof (Rabs_pos (y - x)). pose proof (Rabs_pos (y' - x')).
  pose proof (g_1 n). pose proof (g_1 m).
  assert (Rabs (y - x) * Rabs y' <= ((g n - 1) * z) * (g m * z')) by (apply Rmult_le_compat; assumption).
  assert (Rabs x * Rabs (y' - x') <= z * ((g m - 1) * z')) by (apply Rmult_le_compat; assumption).
  nra.
Qed.
Lemma l_mul x y z x' y' z' : loose x y z -> loose x' y' z' -> loose (@nmul R Rnum x x') (@nmul R (Fnum a) y y') (@nmul _ Mnum z z').
Proof.
  intros (h & k) (h' & k'). assert (b : Rabs (x * x') <= fst z * fst z').
  { rewrite Rabs_mult. apply Rmult_le_compat; try assumption; apply Rabs_pos. }
  split; [exact b|]. cbn [nmul Rnum Fnum Mnum Snum Cnum fst snd]. apply (off_round _ _ _ (y * y')); [exact b|apply off_mul; assumption|].
  destruct ha as (_ & _ & m & _). apply m.
Qed.
Lemma l_div x y z x' y' z' : loose x y z -> tight x' y' z' ->
  rr false loose (@pydiv R Rnum x x') (@pydiv R (Fnum a) y y') (@pydiv _ Mnum z z').
Proof.
  intros (h & k) t'. pose proof (tight_loose _ _ _ t') as _. destruct t' as (e' & k'). pose proof (within_eq u hu _ _ _ k') as z0.
  unfold pydiv. cbn [neqb nq Rnum Fnum Cnum Mnum Snum fst snd]. rewrite e', q2r_0, Reqb_abs, (lit_0 u a ha).
  destruct (Reqb x' 0) eqn:q.
  - apply Reqb_true in q. rewrite (proj2 (Reqb_true y' 0)) by tauto. apply rr_raise.
  - apply Reqb_false in q. rewrite (proj2 (Reqb_false y' 0)) by tauto. apply rr_ok.
    assert (i : tight (/ x') (/ y') (/ Rabs x', snd z')).
    { split; [cbn; rewrite Rabs_inv; reflexivity|]. apply within_inv; assumption. }
    apply tight_loose in i. destruct i as (i1 & i2). cbn [fst snd] in *.
    assert (b : Rabs (x * / x') <= fst z * / Rabs x').
    { rewrite Rabs_mult. apply Rmult_le_compat; try assumption; apply Rabs_pos. }
    split; cbn [ndiv Rnum Fnum Mnum Snum Cnum fst snd]; rewrite e'; [exact b|]. unfold Rdiv.
    apply (off_round _ _ _ (y / y')); [exact b|apply off_mul; assumption|]. destruct ha as (_ & _ & _ & d & _). apply d. tauto.
Qed.
Lemma l_add x y z x' y' z' : loose x y z -> loose x' y' z' -> loose (@nadd R Rnum x x') (@nadd R (Fnum a) y y') (@nadd _ Mnum z z').
Proof.
  intros h h'. pose proof (loose_0 _ _ _ h) as p. pose proof (loose_0 _ _ _ h') as p'. destruct h as (h & k), h' as (h' & k').
  assert (b : Rabs (x + x') <= fst z + fst z') by (pose proof (Rabs_triang x x'); lra).
  split; [exact b|]. cbn [nadd Rnum Fnum Mnum Snum Cnum fst snd]. apply (off_round _ _ _ (y + y')); [exact b| |destruct ha as (s & _); apply s].
  apply off_add; [apply (off_mono (snd z))|apply (off_mono (snd z'))]; try assumption; lia.
Qed.
Lemma l_sub x y z x' y' z' : loose x y z -> loose x' y' z' -> loose (@nsub R Rnum x x') (@nsub R (Fnum a) y y') (@nsub _ Mnum z z').
Proof.
  intros h h'. pose proof (loose_0 _ _ _ h) as p. pose proof (loose_0 _ _ _ h') as p'. destruct h as (h & k), h' as (h' & k').
  assert (b : Rabs (x - x') <= fst z + fst z') by (unfold Rminus; pose proof (Rabs_triang x (- x')); rewrite Rabs_Ropp in *; lra).
  split; [exact b|]. cbn [nsub Rnum Fnum Mnum Snum Cnum fst snd]. apply (off_round _ _ _ (y - y')); [exact b| |destruct ha as (_ & s & _); apply s].
  unfold Rminus. apply off_add; [apply (off_mono (snd z))|apply off_opp, (off_mono (snd z'))]; try assumption; lia.
Qed.
Lemma l_opp x y z : loose x y z -> loose (@nopp R Rnum x) (@nopp R (Fnum a) y) (@nopp _ Mnum z).
Proof. intros (h & k). split; [cbn; rewrite Rabs_Ropp; exact h|]. apply off_opp, k. Qed.
Lemma off_pow n z x y k : Rabs x <= z -> off u n z x y -> off u (k * n) (z ^ k) (x ^ k) (y ^ k).
Proof.
  intros hz h. induction k as [|k IH]; cbn [pow Nat.mul].
  - unfold off. cbn [pow]. replace (1 - 1) with 0 by ring. rewrite Rabs_R0. lra.
  - apply off_mul; try assumption. rewrite <- RPow_abs. apply pow_incr. split; [apply Rabs_pos|exact hz].
Qed.
Lemma natural_pow q x : natural q -> Rpowq x q = Ok (x ^ repeats q).
Proof.
  intros (i & n). unfold Rpowq. rewrite i, n. rewrite Bool.andb_false_r. f_equal.
  unfold is_int in i. apply Pos.eqb_eq in i. unfold repeats.
  assert (p : (0 <= this q)%Q).
  { unfold Qcltb in n. apply negb_false_iff, Qle_bool_iff in n. exact n. }
  assert (e : (Qceiling (Qabs (this q)) = Qnum (this q))%Z).
  { rewrite (Qceiling_comp _ _ (Qabs_pos _ p)). destruct (this q) as [m d]. cbn in i. subst d. apply (Qceiling_Z m). }
  rewrite e. assert (z : (0 <= Qnum (this q))%Z) by (unfold Qle in p; cbn in p; lia).
  rewrite <- (Z2Nat.id _ z) at 1. rewrite <- pow_powerRZ. reflexivity.
Qed.
Lemma l_pow q x y z : natural q -> loose x y z -> rr false loose (@npow R Rnum x q) (@npow R (Fnum a) y q) (@npow _ Mnum z q).
Proof.
  intros hq h. pose proof (loose_0 _ _ _ h) as p. destruct h as (h & k). cbn [npow Rnum Fnum Mnum]. rewrite !(natural_pow q) by exact hq.
  destruct ha as (_ & _ & _ & _ & _ & _ & w). specialize (w y q). rewrite (natural_pow q y hq) in w. destruct w as (v & -> & w).
  apply rr_ok. assert (b : Rabs (x ^ repeats q) <= fst z ^ repeats q).
  { rewrite <- RPow_abs. apply pow_incr. split; [apply Rabs_pos|exact h]. }
  split; [exact b|]. cbn [fst snd]. apply (off_round _ _ _ (y ^ repeats q)); [exact b|apply off_pow; assumption|exact w].
Qed.

(** ** The runs *)
Lemma leaf_tight v : relv tight v v (mleaf v).
Proof.
  destruct v as [x| | |w|m]; cbn; try exact I; unfold relu, relm, tight; cbn; repeat (split; [reflexivity|]); try (apply within_0); auto using within_0.
Qed.
Lemma leaf_ptight v : positive v -> relv ptight v v (mleaf v).
Proof.
  intro h. destruct v as [x| | |w|m]; cbn in *; try exact I; unfold relu, relm, ptight; cbn; repeat (split; [reflexivity|]);
    (split; [exact h|]); (split; [apply Rabs_pos_eq; lra|apply within_0]).
Qed.
Lemma run_tight e : no_sums e -> rr false (relv tight) (eval e) (feval a e) (@geval _ Mnum mleaf e).
Proof.
  unfold feval. induction e as [v|e IHe f IHf|e IHe f IHf|e IHe f IHf|e IHe f IHf|e IHe k|e IHe]; cbn [no_sums eval geval]; intro h; try contradiction.
  - apply rr_ok, leaf_tight.
  - destruct h as (h & h'). eapply rr_bind; [apply IHe, h|]. intros x y z hx. eapply rr_bind; [apply IHf, h'|]. intros x' y' z' hx'.
    apply (@rr_mul _ _ _ Rnum (Fnum a) Mnum false tight (fun q => (0 < q)%Q)); auto using t_q, t_mul, t_div, t_pow; [reflexivity|exact prefix_pos].
  - destruct h as (h & h'). eapply rr_bind; [apply IHe, h|]. intros x y z hx. eapply rr_bind; [apply IHf, h'|]. intros x' y' z' hx'.
    apply (@rr_divide _ _ _ Rnum (Fnum a) Mnum false tight (fun q => (0 < q)%Q)); auto using t_q, t_mul, t_div, t_pow; [reflexivity|exact prefix_pos].
  - eapply rr_bind; [apply IHe, h|]. intros x y z hx. apply (@rr_power _ _ _ Rnum (Fnum a) Mnum false tight); auto using t_pow.
  - eapply rr_bind; [apply IHe, h|]. intros x y z hx. apply (@rr_neg _ _ _ Rnum (Fnum a) Mnum false tight); auto.
    intros x0 y0 z0 (e0 & k). split; [cbn; rewrite Rabs_Ropp; exact e0|apply within_opp, k].
Qed.
Lemma run_ptight e : only_positive e -> rr false (relv ptight) (eval e) (feval a e) (@geval _ Mnum mleaf e).
Proof.
  unfold feval. induction e as [v|e IHe f IHf|e IHe f IHf|e IHe f IHf|e IHe f IHf|e IHe k|e IHe]; cbn [only_positive eval geval]; intro h; try contradiction.
  - apply rr_ok, leaf_ptight, h.
  - destruct h as (h & h'). eapply rr_bind; [apply IHe, h|]. intros x y z hx. eapply rr_bind; [apply IHf, h'|]. intros x' y' z' hx'.
    apply (@rr_mul _ _ _ Rnum (Fnum a) Mnum false ptight (fun q => (0 < q)%Q)); auto using pt_q, pt_mul, pt_div, pt_pow; [reflexivity|exact prefix_pos].
  - destruct h as (h & h'). eapply rr_bind; [apply IHe, h|]. intros x y z hx. eapply rr_bind; [apply IHf, h'|]. intros x' y' z' hx'.
    apply (@rr_divide _ _ _ Rnum (Fnum a) Mnum false ptight (fun q => (0 < q)%Q)); auto using pt_q, pt_mul, pt_div, pt_pow; [reflexivity|exact prefix_pos].
  - destruct h as (h & h'). eapply rr_bind; [apply IHe, h|]. intros x y z hx. eapply rr_bind; [apply IHf, h'|]. intros x' y' z' hx'.
    apply (@rr_add _ _ _ Rnum (Fnum a) Mnum false ptight); auto using pt_add.
  - eapply rr_bind; [apply IHe, h|]. intros x y z hx. apply (@rr_power _ _ _ Rnum (Fnum a) Mnum false ptight); auto using pt_pow.
Qed.
Lemma run_firm e : firm e -> rr false (relv tight) (eval e) (feval a e) (@geval _ Mnum mleaf e).
Proof.
  intros [h|h]; [apply run_tight, h|]. eapply rr_weaken; [|apply run_ptight, h]. apply relv_weaken, ptight_tight.
Qed.
Lemma run_loose e : tame e -> rr false (relv loose) (eval e) (feval a e) (@geval _ Mnum mleaf e).
Proof.
  unfold feval. induction e as [v|e IHe f IHf|e IHe f IHf|e IHe f IHf|e IHe f IHf|e IHe k|e IHe]; cbn [tame eval geval]; intro h.
  - apply rr_ok. eapply relv_weaken; [apply tight_loose|apply leaf_tight].
  - destruct h as (h & h'). eapply rr_bind; [apply IHe, h|]. intros x y z hx. eapply rr_bind; [apply IHf, h'|]. intros x' y' z' hx'.
    apply (@wk_mul _ _ _ Rnum (Fnum a) Mnum false tight loose (fun q => (0 < q)%Q)); auto using t_q, t_mul, t_div, t_pow, tight_loose, l_mul; [reflexivity|exact prefix_pos].
  - destruct h as (h & h'). eapply rr_bind; [apply IHe, h|]. intros x y z hx. eapply rr_bind; [apply run_firm, h'|]. intros x' y' z' hx'.
    apply (@wk_divide _ _ _ Rnum (Fnum a) Mnum false tight loose (fun q => (0 < q)%Q)); auto using t_q, t_mul, t_div, t_pow, tight_loose, l_mul, l_div; [reflexivity|exact prefix_pos].
  - destruct h as (h & h'). eapply rr_bind; [apply IHe, h|]. intros x y z hx. eapply rr_bind; [apply IHf, h'|]. intros x' y' z' hx'.
    apply (@rr_add _ _ _ Rnum (Fnum a) Mnum false loose); auto using l_add.
  - destruct h as (h & h'). eapply rr_bind; [apply IHe, h|]. intros x y z hx. eapply rr_bind; [apply IHf, h'|]. intros x' y' z' hx'.
    apply (@wk_sub _ _ _ Rnum (Fnum a) Mnum false loose); auto using l_sub.
  - destruct h as [h|(h & n)].
    + eapply rr_bind; [apply run_firm, h|]. intros x y z hx. eapply rr_weaken; [apply relv_weaken, tight_loose|].
      apply (@rr_power _ _ _ Rnum (Fnum a) Mnum false tight); auto using t_pow.
    + eapply rr_bind; [apply IHe, h|]. intros x y z hx. apply (@wk_power _ _ _ Rnum (Fnum a) Mnum false loose); [|exact hx].
      intros. apply l_pow; assumption.
  - eapply rr_bind; [apply IHe, h|]. intros x y z hx. apply (@rr_neg _ _ _ Rnum (Fnum a) Mnum false loose); auto using l_opp.
Qed.
Lemma rounded_any e : tame e -> same_outcome (off u (roundings e) (bulk e)) (eval e) (feval a e).
Proof.
  intro h. pose proof (rr_tight _ _ _ _ (run_loose e h)) as k. pose proof (run_both e) as b.
  unfold bulk, roundings. destruct (eval e) as [x|er], (feval a e) as [y|er']; try contradiction; [|exact k].
  destruct k as (m & em & k). rewrite em in b.
  inversion b as [s p n hb es ep en| |]; subst; [|discriminate]. cbn [count number same_outcome].
  destruct x as [x| | |w1|m1], y as [y| | |w2|m2], m as [z| | |w3|m3]; cbn [relv] in k; try contradiction;
    destruct s as [s| | |w4|m4], n as [n| | |w5|m5]; cbn [relv] in hb; try contradiction; cbn [same_but]; try exact I.
  - unfold both in hb. subst z. exact (proj2 k).
  - unfold relu, both in *. destruct hb as (_ & _ & _ & _ & _ & _ & e0), k as (k1 & k2 & k3 & k4 & k5 & k6 & _ & k). rewrite e0 in k. auto.
  - unfold relm, both in *. destruct hb as (_ & _ & _ & _ & _ & _ & e0), k as (k1 & k2 & k3 & k4 & k5 & k6 & _ & k). rewrite e0 in k. auto.
Qed.
End Err.
