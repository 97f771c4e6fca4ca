(** * AlikeFacts: the Python type of exponents does not matter *)
From Coq Require Import String Ascii List ZArith QArith Qcanon Bool.
From Verif Require Import Py Num UnitsData UnitsStruct Units TagFacts AlikeSpec.
Import ListNotations.
Local Open Scope string_scope.
Local Open Scope list_scope.

Notation rel := (alike_result alike).
Section Any.
Context {T : Type} `{N : Num T}.
Definition ux (u w : unit_obj T) : Prop := uc u = uc w /\ uv u = uv w /\ un u = un w /\ ev (ue u) = ev (ue w).
Lemma mk_unit_sx c (v : T) n e e' : ev e = ev e' -> rrel ux (mk_unit c v n e) (mk_unit c v n e').
Proof.
  intro h. assert (g : ux (UO c v n e) (UO c v n e')) by (repeat split; exact h).
  assert (k : rrel ux (split_caret c v n e) (split_caret c v n e')).
  { unfold split_caret. destruct (has_char "^" n); [|exact g]. apply rrel_eq. repeat split. }
  destruct c; cbn [mk_unit]; try exact g; try exact k; match goal with |- context[mem_str ?x ?y] => destruct (mem_str x y) end; try exact g; reflexivity.
Qed.
Lemma vunit_sx (x y : res (unit_obj T)) : rrel ux x y -> rel (vunit x) (vunit y).
Proof. destruct x, y; cbn; auto. Qed.
Lemma vu c (v : T) n e e' : ev e = ev e' -> rel (vunit (mk_unit c v n e)) (vunit (mk_unit c v n e')).
Proof. intro h. apply vunit_sx, mk_unit_sx, h. Qed.
Lemma sx1 n e e' : ev e = ev e' -> Forall2 sx [BU n e] [BU n e'].
Proof. intro h. constructor; [split; [reflexivity|exact h]|constructor]. Qed.
Lemma shape_div_sx (v : T) t b t' b' : Forall2 sx t t' -> Forall2 sx b b' -> alike (shape_div v t b) (shape_div v t' b').
Proof.
  intros h1 h2. assert (g : alike (VMulti (MO MMulti v t b)) (VMulti (MO MMulti v t' b'))) by (refine (conj eq_refl (conj eq_refl (conj h1 h2)))).
  destruct h1 as [|x y t1 t1q [n1 e1] [|x2 y2 t2 t2q h3 h1]]; destruct h2 as [|u w b1 b1q [n2 e2] [|u2 w2 b2 b2q h4 h2]]; cbn [shape_div]; try exact g.
  - reflexivity.
  - unfold plain. repeat split; cbn; [exact n2|congruence].
  - unfold plain. repeat split; cbn; [exact n1|exact e1].
Qed.
Lemma shape_mul_sx (v : T) t b t' b' : Forall2 sx t t' -> Forall2 sx b b' -> alike (shape_mul v t b) (shape_mul v t' b').
Proof.
  intros h1 h2. assert (g : alike (VMulti (MO MMulti v t b)) (VMulti (MO MMulti v t' b'))) by (refine (conj eq_refl (conj eq_refl (conj h1 h2)))).
  destruct h1 as [|x y t1 t1q [n1 e1] [|x2 y2 t2 t2q h3 h1]]; destruct h2 as [|u w b1 b1q [n2 e2] [|u2 w2 b2 b2q h4 h2]]; cbn [shape_mul]; try exact g.
  - reflexivity.
  - unfold plain. repeat split; cbn; [exact n1|exact e1].
Qed.
Lemma reduce_then ct cb t b t' b' (f g : half -> half -> T -> res (pyval T)) : Forall2 sx t t' -> Forall2 sx b b' ->
  (forall x y x' y' k, Forall2 sx x x' -> Forall2 sx y y' -> rel (f x y k) (g x' y' k)) ->
  rel (let* r := reduce ct cb t b in let '(x, y, k) := r in f x y k) (let* r := reduce ct cb t' b' in let '(x, y, k) := r in g x y k).
Proof.
  intros h1 h2 h. apply (rrel_bind pr3); [apply reduce_sx; assumption|]. intros [[x y] k] [[x' y'] k'] [[k1 k2] k3]. cbn in *. subst k'. apply h; assumption.
Qed.
Lemma bind_same {A} (x : res A) (f g : A -> res (pyval T)) : (forall v, rel (f v) (g v)) -> rel (bind x f) (bind x g).
Proof. intro h. apply (rrel_bind eq); [apply rrel_eq; reflexivity|]. intros v w ->. apply h. Qed.
Lemma multi_same c (v : T) t b t' b' : Forall2 sx t t' -> Forall2 sx b b' -> rel (Ok (VMulti (MO c v t b))) (Ok (VMulti (MO c v t' b'))).
Proof. intros h1 h2. refine (conj eq_refl (conj eq_refl (conj h1 h2))). Qed.
Lemma half_eqb_sx2 l m l' m' : Forall2 sx l l' -> Forall2 sx m m' -> half_eqb l m = half_eqb l' m'.
Proof.
  intros h g. apply eq_true_iff_eq. rewrite <- !hs_iff. split; intro k.
  - eapply hs_trans; [apply hs_sym, h|]. eapply hs_trans; [exact k|exact g].
  - eapply hs_trans; [exact h|]. eapply hs_trans; [exact k|apply hs_sym, g].
Qed.
Ltac halves := repeat first [apply hs_app | apply hs_refl | apply sx1 | assumption].

Lemma multi_mul_sx (m m' : multi_obj T) (b b' : pyval T) : alike (VMulti m) (VMulti m') -> alike b b' -> rel (multi_mul m b) (multi_mul m' b').
Proof.
  destruct m as [c v t l], m' as [c' v' t' l']. intros (h1 & h2 & h3 & h4) h. cbn in h1, h2, h3, h4. subst c' v'. unfold alike_half in *.
  destruct b as [x| | |u|o], b' as [x'| | |u'|o']; cbn in h; try contradiction; cbn [multi_mul mtop mbot mv mc].
  - subst x'. apply multi_same; assumption.
  - exact I.
  - exact I.
  - destruct h as (g1 & g2 & g3 & g4). rewrite <- g2, <- g3. apply reduce_then; [halves|halves|]. intros. apply shape_mul_sx; assumption.
  - destruct h as (g1 & g2 & g3 & g4). rewrite <- g2. unfold alike_half in *. apply reduce_then; [halves|halves|]. intros. apply multi_same; assumption.
Qed.
Lemma multi_rmul_sx (m m' : multi_obj T) (b b' : pyval T) : alike (VMulti m) (VMulti m') -> alike b b' -> rel (multi_rmul m b) (multi_rmul m' b').
Proof.
  destruct m as [c v t l], m' as [c' v' t' l']. intros (h1 & h2 & h3 & h4) h. cbn in h1, h2, h3, h4. subst c' v'. unfold alike_half in *.
  destruct b as [x| | |u|o], b' as [x'| | |u'|o']; cbn in h; try contradiction; cbn [multi_rmul mtop mbot mv mc]; try reflexivity.
  - subst x'. apply multi_same; assumption.
  - destruct h as (g1 & g2 & g3 & g4). rewrite <- g2, <- g3. apply reduce_then; [halves|halves|]. intros. apply shape_mul_sx; assumption.
Qed.
Lemma multi_div_sx (m m' : multi_obj T) (b b' : pyval T) : alike (VMulti m) (VMulti m') -> alike b b' -> rel (multi_div m b) (multi_div m' b').
Proof.
  destruct m as [c v t l], m' as [c' v' t' l']. intros (h1 & h2 & h3 & h4) h. cbn in h1, h2, h3, h4. subst c' v'. unfold alike_half in *.
  destruct b as [x| | |u|o], b' as [x'| | |u'|o']; cbn in h; try contradiction; cbn [multi_div mtop mbot mv mc].
  - subst x'. apply bind_same. intro. apply multi_same; assumption.
  - exact I.
  - exact I.
  - destruct h as (g1 & g2 & g3 & g4). rewrite <- g2, <- g3. apply reduce_then; [halves|halves|]. intros. apply bind_same. intro. apply shape_div_sx; assumption.
  - destruct h as (g1 & g2 & g3 & g4). rewrite <- g2. unfold alike_half in *. rewrite (half_eqb_sx2 _ _ _ _ h3 g3), (half_eqb_sx2 _ _ _ _ h4 g4).
    destruct (half_eqb t' (mtop o') && half_eqb l' (mbot o')); [apply (rrel_bind eq (@alike T) (pydiv v (mv o)) (pydiv v (mv o)) (fun x => Ok (VNum x)) (fun x => Ok (VNum x))); [apply rrel_eq; reflexivity|intros x y ->; reflexivity]|].
    apply reduce_then; [halves|halves|]. intros. apply bind_same. intro. apply shape_div_sx; assumption.
Qed.
Lemma multi_rdiv_sx (m m' : multi_obj T) (b b' : pyval T) : alike (VMulti m) (VMulti m') -> alike b b' -> rel (multi_rdiv m b) (multi_rdiv m' b').
Proof.
  destruct m as [c v t l], m' as [c' v' t' l']. intros (h1 & h2 & h3 & h4) h. cbn in h1, h2, h3, h4. subst c' v'. unfold alike_half in *.
  destruct b as [x| | |u|o], b' as [x'| | |u'|o']; cbn in h; try contradiction; cbn [multi_rdiv mtop mbot mv mc]; try reflexivity.
  - subst x'. apply bind_same. intro. apply multi_same; assumption.
  - destruct h as (g1 & g2 & g3 & g4). rewrite <- g2, <- g3. apply reduce_then; [halves|halves|]. intros. apply bind_same. intro. apply shape_div_sx; assumption.
Qed.
Lemma eeqb_sx e f e' f' : ev e = ev e' -> ev f = ev f' -> eeqb e f = eeqb e' f'.
Proof. intros h g. unfold eeqb. rewrite h, g. reflexivity. Qed.
Lemma unit_mul_sx (u u' : unit_obj T) (b b' : pyval T) : alike (VUnit u) (VUnit u') -> alike b b' -> rel (unit_mul u b) (unit_mul u' b').
Proof.
  destruct u as [c v n e], u' as [c' v' n' e']. intros (h1 & h2 & h3 & h4) h. cbn in h1, h2, h3, h4. subst c' v' n'.
  destruct b as [x| | |w|o], b' as [x'| | |w'|o']; cbn in h; try contradiction; cbn [unit_mul uc uv un ue]; try reflexivity.
  - subst x'. apply vu. reflexivity.
  - destruct h as (g1 & g2 & g3 & g4). rewrite <- g1, <- g2, <- g3. destruct (ucls_eqb c (uc w) && String.eqb n (un w)).
    + apply vu. cbn. rewrite h4, g4. reflexivity.
    + apply multi_same; apply hs_refl.
  - apply multi_mul_sx; [exact h|refine (conj eq_refl (conj eq_refl (conj eq_refl h4)))].
Qed.
Lemma unit_div_sx (u u' : unit_obj T) (b b' : pyval T) : alike (VUnit u) (VUnit u') -> alike b b' -> rel (unit_div u b) (unit_div u' b').
Proof.
  destruct u as [c v n e], u' as [c' v' n' e']. intros (h1 & h2 & h3 & h4) h. cbn in h1, h2, h3, h4. subst c' v' n'.
  destruct b as [x| | |w|o], b' as [x'| | |w'|o']; cbn in h; try contradiction; cbn [unit_div uc uv un ue]; try reflexivity.
  - subst x'. apply bind_same. intro. apply vu. exact h4.
  - destruct h as (g1 & g2 & g3 & g4). rewrite <- g2, <- g3. apply bind_same. intro q.
    assert (k : ev (esub e (ue w)) = ev (esub e' (ue w'))) by (cbn; rewrite h4, g4; reflexivity).
    assert (k0 : e_is (esub e (ue w)) 0 = e_is (esub e' (ue w')) 0) by (unfold e_is; rewrite k; reflexivity). rewrite k0.
    destruct (String.eqb n (un w)).
    + destruct (e_is (esub e' (ue w')) 0); [reflexivity|apply vu; exact k].
    + apply multi_same; apply sx1; assumption.
  - apply multi_rdiv_sx; [exact h|refine (conj eq_refl (conj eq_refl (conj eq_refl h4)))].
Qed.
Lemma unit_addsub_sx op (u u' : unit_obj T) (b b' : pyval T) : alike (VUnit u) (VUnit u') -> alike b b' -> rel (unit_addsub op u b) (unit_addsub op u' b').
Proof.
  destruct u as [c v n e], u' as [c' v' n' e']. intros (h1 & h2 & h3 & h4) h. cbn in h1, h2, h3, h4. subst c' v' n'.
  destruct b as [x| | |w|o], b' as [x'| | |w'|o']; cbn in h; try contradiction; cbn [unit_addsub uc uv un ue]; try reflexivity.
  - subst x'. apply vu. reflexivity.
  - destruct h as (g1 & g2 & g3 & g4). rewrite <- g1, <- g2, <- g3, (eeqb_sx _ _ _ _ h4 g4). destruct (ucls_sub (uc w) c); [|reflexivity].
    destruct (String.eqb n (un w) && eeqb e' (ue w')); [apply vu; exact h4|reflexivity].
Qed.
Lemma multi_addsub_sx (m m' : multi_obj T) (b b' : pyval T) : alike (VMulti m) (VMulti m') -> alike b b' -> rel (multi_add m b) (multi_add m' b') /\ rel (multi_sub m b) (multi_sub m' b').
Proof.
  destruct m as [c v t l], m' as [c' v' t' l']. intros (h1 & h2 & h3 & h4) h. cbn in h1, h2, h3, h4. subst c' v'. unfold alike_half in *.
  destruct b as [x| | |u|o], b' as [x'| | |u'|o']; cbn in h; try contradiction; cbn [multi_add multi_sub mtop mbot mv mc]; try (split; reflexivity).
  destruct h as (g1 & g2 & g3 & g4). rewrite <- g1, <- g2. unfold alike_half in *. rewrite (half_eqb_sx2 _ _ _ _ h3 g3), (half_eqb_sx2 _ _ _ _ h4 g4).
  destruct (mcls_eqb c (mc o)), (half_eqb t' (mtop o') && half_eqb l' (mbot o')); split; try reflexivity; apply multi_same; assumption.
Qed.
Lemma mul_alike (a a' b b' : pyval T) : alike a a' -> alike b b' -> rel (py_mul a b) (py_mul a' b').
Proof.
  intros h g. destruct a as [x| | |u|m], a' as [x'| | |u'|m']; try contradiction h; cbn [py_mul]; try (apply unit_mul_sx; assumption); try (apply multi_mul_sx; assumption);
  destruct b as [y| | |w|o], b' as [y'| | |w'|o']; try contradiction g; try reflexivity.
  - cbn in *. congruence.
  - cbn [unit_rmul]. destruct g as (g1 & g2 & g3 & g4). cbn in h. rewrite <- g1, <- g2, <- g3, h. apply vu. reflexivity.
  - apply multi_rmul_sx; assumption.
Qed.
Lemma div_alike (a a' b b' : pyval T) : alike a a' -> alike b b' -> rel (py_div a b) (py_div a' b').
Proof.
  intros h g. destruct a as [x| | |u|m], a' as [x'| | |u'|m']; try contradiction h; cbn [py_div]; try (apply unit_div_sx; assumption); try (apply multi_div_sx; assumption);
  destruct b as [y| | |w|o], b' as [y'| | |w'|o']; try contradiction g; try reflexivity.
  - cbn in h, g. subst. destruct (pydiv x' y'); cbn; reflexivity.
  - apply multi_rdiv_sx; assumption.
Qed.
Lemma add_alike (a a' b b' : pyval T) : alike a a' -> alike b b' -> rel (py_add a b) (py_add a' b').
Proof.
  intros h g. destruct a as [x| | |u|m], a' as [x'| | |u'|m']; try contradiction h; cbn [py_add]; try (apply unit_addsub_sx; assumption); try (apply multi_addsub_sx; assumption);
  destruct b as [y| | |w|o], b' as [y'| | |w'|o']; try contradiction g; try reflexivity.
  cbn in *. congruence.
Qed.
Lemma sub_alike (a a' b b' : pyval T) : alike a a' -> alike b b' -> rel (py_sub a b) (py_sub a' b').
Proof.
  intros h g. destruct a as [x| | |u|m], a' as [x'| | |u'|m']; try contradiction h; cbn [py_sub]; try (apply unit_addsub_sx; assumption); try (apply multi_addsub_sx; assumption);
  destruct b as [y| | |w|o], b' as [y'| | |w'|o']; try contradiction g; try reflexivity.
  cbn in *. congruence.
Qed.
Lemma neg_alike (a a' : pyval T) : alike a a' -> rel (py_neg a) (py_neg a').
Proof.
  intros h. destruct a as [x| | |u|m], a' as [x'| | |u'|m']; try contradiction h; cbn [py_neg]; try reflexivity.
  - cbn in *. congruence.
  - destruct h as (g1 & g2 & g3 & g4). unfold unit_neg. rewrite <- g1, <- g2, <- g3. apply vu. exact g4.
  - destruct h as (g1 & g2 & g3 & g4). unfold multi_neg. rewrite <- g1, <- g2. apply multi_same; assumption.
Qed.
Lemma scale_sx k k' l m : ev k = ev k' -> Forall2 sx l m -> Forall2 sx (scale_half k l) (scale_half k' m).
Proof. intros h g. apply hs_map; [|exact g]. intros x y [h1 h2]. split; cbn; [exact h1|rewrite h, h2; reflexivity]. Qed.
Lemma pow_alike (a a' : pyval T) k k' : alike a a' -> ev k = ev k' -> rel (py_pow a k) (py_pow a' k').
Proof.
  intros h e. destruct a as [x| | |u|m], a' as [x'| | |u'|m']; try contradiction h; cbn [py_pow]; try reflexivity.
  - cbn in h. subst x'. rewrite e. destruct (npow x (ev k')); cbn; reflexivity.
  - destruct h as (g1 & g2 & g3 & g4). unfold unit_pow. rewrite <- g1, <- g2, <- g3, e. apply bind_same. intro. apply vu. cbn. rewrite g4, e. reflexivity.
  - destruct h as (g1 & g2 & g3 & g4). unfold multi_pow. rewrite <- g2, e. apply (rrel_bind pr2); [apply tail_sx; apply scale_sx; assumption|].
    intros x y [k1 k2]. apply bind_same. intro. apply multi_same; assumption.
Qed.

(** ** Conversions *)
Variable tb : tables T.
Lemma core_sx (u w : unit_obj T) target ret e e' : ux u w -> ev e = ev e' -> rrel ux (unit_convert_core tb u target ret e) (unit_convert_core tb w target ret e').
Proof.
  intros (h1 & h2 & h3 & h4) h. unfold unit_convert_core, to_val, from_val. rewrite <- h1, <- h2, <- h3, <- h. destruct (String.eqb (un u) target); [repeat split; assumption|].
  destruct (standard (uc u)) as [std|]; [|reflexivity].
  destruct (String.eqb target std); [|destruct (String.eqb (un u) std)];
  repeat match goal with |- rrel _ (bind ?x _) (bind ?x _) => apply (rrel_bind eq); [apply rrel_eq; reflexivity|intros ? ? ->] end; apply mk_unit_sx; exact h.
Qed.
Lemma uconvert_sx (u w : unit_obj T) target : ux u w -> rrel ux (unit_convert_to tb u target) (unit_convert_to tb w target).
Proof.
  intros h. pose proof h as (_ & _ & h3 & _). unfold unit_convert_to. rewrite <- h3.
  destruct (mem_str (un u) UNIT_COMPOSITES); [|destruct (has_char "^" target); [|apply core_sx; [exact h|reflexivity]]];
  destruct (split_on "^" target) as [|r [|e [|z zs]]]; try reflexivity; (apply (rrel_bind eq); [apply rrel_eq; reflexivity|intros ? ? ->; apply core_sx; [exact h|reflexivity]]).
Qed.
Lemma base_sx l m : Forall2 sx l m -> rrel (Forall2 ux) (base_to_unit (T := T) l) (base_to_unit m).
Proof.
  intro h. unfold base_to_unit. apply (rrel_mapM sx); [exact h|]. intros x y [h1 h2]. rewrite <- h1. apply (rrel_bind eq); [apply rrel_eq; reflexivity|]. intros ? ? ->. apply mk_unit_sx, h2.
Qed.
Lemma factor_sx (u w : unit_obj T) : ux u w -> rrel ux (convert_and_get_factor tb u) (convert_and_get_factor tb w).
Proof.
  intros h. pose proof h as (h1 & h2 & h3 & h4). unfold convert_and_get_factor. rewrite <- h1, <- h2, <- h3, <- h4.
  destruct (mem_str (un u) ["K"; "C"]); [repeat split; assumption|]. destruct (mem_str (un u) ["R"; "F"]); [repeat split; assumption|].
  destruct (standard (uc u)); [|reflexivity]. assert (k : e_is (ue w) 1 = e_is (ue u) 1) by (unfold e_is; rewrite h4; reflexivity). rewrite k.
  destruct (e_is (ue u) 1); [apply uconvert_sx; exact h|]. destruct (has_char "^" s); [reflexivity|]. apply core_sx; [exact h|reflexivity].
Qed.
Definition fx (p q : list (unit_obj T) * T) : Prop := Forall2 ux (fst p) (fst q) /\ snd p = snd q.
Lemma loop_f_sx inv l m (f : T) : Forall2 ux l m -> rrel fx (factor_loop tb inv l f) (factor_loop tb inv m f).
Proof.
  intro h. revert f. induction h as [|u w l m hu h IH]; intro f; cbn [factor_loop]; [split; [constructor|reflexivity]|].
  apply (rrel_bind ux); [apply factor_sx; exact hu|]. intros u' w' k. pose proof k as (_ & k2 & _ & _). rewrite <- k2.
  apply (rrel_bind eq); [apply rrel_eq; reflexivity|]. intros ? g ->. apply (rrel_bind fx); [apply IH|]. intros x y [e1 e2]. split; cbn; [constructor; assumption|exact e2].
Qed.
Lemma as_bu_sx l m : Forall2 ux l m -> Forall2 sx (as_bu l) (as_bu m).
Proof. intro h. induction h as [|u w l m (h1 & h2 & h3 & h4) h IH]; cbn; constructor; [split; assumption|exact IH]. Qed.
Definition cx (p q : list (unit_obj T) * list (unit_obj T) * T) : Prop := Forall2 ux (fst (fst p)) (fst (fst q)) /\ Forall2 ux (snd (fst p)) (snd (fst q)) /\ snd p = snd q.
Lemma prepare_sx t b t' b' : Forall2 sx t t' -> Forall2 sx b b' -> rrel cx (conv_prepare t b) (conv_prepare t' b').
Proof.
  intros h1 h2. unfold conv_prepare. apply (rrel_bind pr3); [apply prefixes_sx; assumption|]. intros [[x y] f] [[x' y'] f'] [[k1 k2] k3]. cbn in k1, k2, k3. subst f'.
  apply (rrel_bind pr2); [apply deconstruct_sx; assumption|]. intros d d' [d1 d2]. apply (rrel_bind (Forall2 ux)); [apply base_sx; assumption|]. intros l l' hl.
  apply (rrel_bind (Forall2 ux)); [apply base_sx; assumption|]. intros r r' hr. refine (conj hl (conj hr eq_refl)).
Qed.
Lemma conv_factor_sx t b t' b' (f : T) : Forall2 ux t t' -> Forall2 ux b b' -> rrel cx (conv_factor tb t b f) (conv_factor tb t' b' f).
Proof.
  intros h1 h2. unfold conv_factor. apply (rrel_bind fx); [apply loop_f_sx; assumption|]. intros x x' [k1 k2]. rewrite <- k2.
  apply (rrel_bind fx); [apply loop_f_sx; assumption|]. intros y y' [k3 k4]. rewrite <- k4.
  apply (rrel_bind pr2); [apply deconstruct_sx; apply as_bu_sx; assumption|]. intros d d' [d1 d2]. apply (rrel_bind (Forall2 ux)); [apply base_sx; assumption|]. intros l l' hl.
  apply (rrel_bind (Forall2 ux)); [apply base_sx; assumption|]. intros r r' hr. refine (conj hl (conj hr eq_refl)).
Qed.
Lemma total_sx c l m l' m' : Forall2 ux l l' -> Forall2 ux m m' -> class_total c l m = class_total c l' m'.
Proof.
  intros h g. unfold class_total. cbv zeta.
  match goal with |- Qcminus (?f l) (?f m) = _ => assert (k : forall x y, Forall2 ux x y -> f x = f y) end.
  { intros x y hx. induction hx as [|u w x y (h1 & h2 & h3 & h4) hx IH]; [reflexivity|]. cbn [fold_right]. cbn [fold_right] in IH. rewrite IH, h3, h4. reflexivity. }
  rewrite (k _ _ h), (k _ _ g). reflexivity.
Qed.
Lemma classes_sx l m : Forall2 ux l m -> classes_known l = classes_known m.
Proof. unfold classes_known. intro h. induction h as [|u w l m (h1 & h2 & h3 & h4) h IH]; cbn [mapM]; [reflexivity|]. rewrite h3, IH. reflexivity. Qed.
Lemma convert_alike (m m' : multi_obj T) target : alike (VMulti m) (VMulti m') -> multi_convert_to tb m target = multi_convert_to tb m' target.
Proof.
  destruct m as [c v t l], m' as [c' v' t' l']. intros (h1 & h2 & h3 & h4). cbn in h1, h2, h3, h4. subst c' v'. unfold multi_convert_to. cbn [mtop mbot mv mc].
  destruct (parse_units target) as [p|]; cbn [bind]; [|reflexivity]. destruct (conv_prepare (fst p) (snd p)) as [[[rt rb] rf]|]; cbn [bind]; [|reflexivity].
  pose proof (prepare_sx _ _ _ _ h3 h4) as k. destruct (conv_prepare t l) as [[[lt lb] lf]|]; destruct (conv_prepare t' l') as [[[lt' lb'] lf']|]; cbn [rrel] in k; try contradiction; [|cbn [bind]; congruence].
  destruct k as (k1 & k2 & k3). cbn [fst snd] in k1, k2, k3. subst lf'. cbn [bind].
  pose proof (conv_factor_sx _ _ _ _ lf k1 k2) as k. destruct (conv_factor tb lt lb lf) as [[[at_ ab] af]|]; destruct (conv_factor tb lt' lb' lf) as [[[at' ab'] af']|]; cbn [rrel] in k; try contradiction; [|cbn [bind]; congruence].
  destruct k as (q1 & q2 & q3). cbn [fst snd] in q1, q2, q3. subst af'. cbn [bind].
  destruct (conv_factor tb rt rb rf) as [[[bt bb] bf]|]; cbn [bind]; [|reflexivity].
  assert (e : classes_known (bt ++ bb ++ at_ ++ ab) = classes_known (bt ++ bb ++ at' ++ ab')).
  { apply classes_sx. assert (rf0 : forall z : list (unit_obj T), Forall2 ux z z) by (induction z; constructor; [repeat split|assumption]). repeat apply Forall2_app; try assumption; apply rf0. }
  rewrite e. destruct (classes_known (bt ++ bb ++ at' ++ ab')); cbn [bind]; [|reflexivity].
  assert (s : same_dims at_ ab bt bb = same_dims at' ab' bt bb).
  { unfold same_dims. generalize all_ucls. intro cs. induction cs as [|z zs IH]; cbn [forallb]; [reflexivity|]. rewrite IH, (total_sx z _ _ _ _ q1 q2). reflexivity. }
  rewrite s. reflexivity.
Qed.
Lemma uconvert_alike (u w : unit_obj T) target : alike (VUnit u) (VUnit w) -> alike_result (fun x y => alike (VUnit x) (VUnit y)) (unit_convert_to tb u target) (unit_convert_to tb w target).
Proof. intro h. exact (uconvert_sx u w target h). Qed.
End Any.

From Coq Require Import Reals.
From Verif Require Import Expr.
Local Open Scope R_scope.
Definition area_f : multi_obj R := MO MMulti 3 [BU "kg" (eflt (qc 1)); BU "m" (eflt (qc 2))] [BU "s" (eflt (qc 1))].
Definition area_i : multi_obj R := MO MMulti 3 [BU "kg" (eint 1); BU "m" (eint 2)] [BU "s" (eint 1)].
Lemma alike_case : mk_multi MMulti 3 "kg*m^2/s" = Ok area_f /\ alike (VMulti area_f) (VMulti area_i) /\ area_f <> area_i /\
  alike (VUnit (UO Length 2 "m" (eint 2))) (VUnit (UO Length 2 "m" (eflt (qc 2)))).
Proof.
  split; [reflexivity|]. split; [refine (conj eq_refl (conj eq_refl (conj _ _))); repeat constructor|]. split; [discriminate|]. repeat split.
Qed.
Lemma alike_eq_refuted : exists a b : pyval R, alike a b /\ py_eq a a = true /\ py_eq a b = false.
Proof.
  exists (VMulti area_f), (VMulti area_i). split; [apply alike_case|].
  assert (e : neqb (3 : R) 3 = true) by (cbn; unfold Reqb; destruct (Req_EM_T 3 3); congruence).
  unfold py_eq, multi_eq, area_f, area_i, mc, mv, mtop, mbot, mcls_eqb. rewrite e. split; vm_compute; reflexivity.
Qed.
Lemma alike_unit_eq (u w x y : unit_obj R) : alike (VUnit u) (VUnit w) -> alike (VUnit x) (VUnit y) -> py_eq (VUnit u) (VUnit x) = py_eq (VUnit w) (VUnit y).
Proof.
  intros (h1 & h2 & h3 & h4) (g1 & g2 & g3 & g4). cbn [py_eq]. unfold unit_eq, eeqb. rewrite h1, h2, h3, h4, g1, g2, g3, g4. reflexivity.
Qed.
Lemma expr_alike e e' : alike_expr e e' -> alike_result alike (eval e) (eval e').
Proof.
  intro h. induction h as [v w h|a a' b b' h1 IH1 h2 IH2|a a' b b' h1 IH1 h2 IH2|a a' b b' h1 IH1 h2 IH2|a a' b b' h1 IH1 h2 IH2|a a' k k' h1 IH1 hk|a a' h1 IH1]; cbn [eval]; [exact h|..];
  (apply (rrel_bind alike); [exact IH1|]; intros x x' hx); try (apply (rrel_bind alike); [exact IH2|]; intros y y' hy).
  - apply mul_alike; assumption.
  - apply div_alike; assumption.
  - apply add_alike; assumption.
  - apply sub_alike; assumption.
  - apply pow_alike; assumption.
  - apply neg_alike; assumption.
Qed.
