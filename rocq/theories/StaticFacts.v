(** * StaticFacts: the unit of a result does not depend on the numbers *)
From Coq Require Import String Ascii List ZArith QArith Qcanon Bool Reals.
From Verif Require Import Py Num UnitsData UnitsStruct Units Spec OpFacts WitnessFacts StaticSpec.
Import ListNotations.
Local Open Scope string_scope.
Local Open Scope list_scope.

(** ** Two number types *)
Section Two.
Context {T T' : Type} `{N : Num T} `{N' : Num T'}.
Definition both {A B} (P : A -> B -> Prop) (x : res A) (y : res B) : Prop := match x, y with Ok a, Ok b => P a b | _, _ => True end.
Lemma both_bind {A B C D} (P : A -> B -> Prop) (Q : C -> D -> Prop) x y f g : both P x y -> (forall a b, P a b -> both Q (f a) (g b)) -> both Q (bind x f) (bind y g).
Proof. destruct x as [a|]; cbn; [|auto]. intros h k. destruct y as [b|]; cbn; [apply k, h|]. destruct (f a); exact I. Qed.
Lemma both_any {A B} (x : res A) (y : res B) : both (fun _ _ => True) x y.
Proof. destruct x, y; exact I. Qed.
Definition su := @same_unit T T'.
Notation st := (@same_if_both T T').
Lemma reduce_two ct cb t b : both (fun p q => fst p = fst q) (reduce (T := T) ct cb t b) (reduce (T := T') ct cb t b).
Proof.
  unfold reduce, deconstruct_unit_prefixes. destruct (mapM split_prefix t) as [tp|]; [|exact I]. cbn [bind]. destruct (mapM split_prefix b) as [bp|]; [|exact I]. cbn [bind].
  destruct (prefix_loop (T := T) false tp (nq 1)) as [f|]; [|exact I]. cbn [bind]. destruct (prefix_loop (T := T) true bp f) as [g|]; [|exact I]. cbn [bind].
  destruct (reduce_tail ct cb (map snd tp) (map snd bp)) as [r|] eqn:e; cbn [bind]; [|exact I].
  destruct (prefix_loop (T := T') false tp (nq 1)) as [f'|]; [|exact I]. cbn [bind]. destruct (prefix_loop (T := T') true bp f') as [g'|]; [|exact I]. cbn [bind].
  rewrite e. reflexivity.
Qed.
Lemma mk_unit_two c (v : T) (v' : T') n e : both (fun u w => uc u = uc w /\ un u = un w /\ ue u = ue w) (mk_unit c v n e) (mk_unit c v' n e).
Proof.
  destruct c; cbn [mk_unit]; try (repeat split); try (match goal with |- context[mem_str ?x ?y] => destruct (mem_str x y) end; cbn; repeat split);
  unfold split_caret; (destruct (has_char "^" n); [|repeat split]); destruct (split_on "^" n) as [|a [|b [|z zs]]]; try exact I; destruct (py_float b); cbn; repeat split.
Qed.
Lemma vunit_two c (v : T) (v' : T') n e : st (vunit (mk_unit c v n e)) (vunit (mk_unit c v' n e)).
Proof. pose proof (mk_unit_two c v v' n e) as h. destruct (mk_unit c v n e), (mk_unit c v' n e); exact h. Qed.
Lemma shape_div_two (v : T) (v' : T') t b : same_unit (shape_div v t b) (shape_div v' t b).
Proof. destruct t as [|x [|y t]], b as [|z [|w b]]; repeat split. Qed.
Lemma shape_mul_two (v : T) (v' : T') t b : same_unit (shape_mul v t b) (shape_mul v' t b).
Proof. destruct t as [|x [|y t]], b as [|z [|w b]]; repeat split. Qed.
Lemma reduce_then2 ct cb t b (f : half -> half -> T -> res (pyval T)) (g : half -> half -> T' -> res (pyval T')) : (forall x y k k', st (f x y k) (g x y k')) ->
  st (let* r := reduce ct cb t b in let '(x, y, k) := r in f x y k) (let* r := reduce ct cb t b in let '(x, y, k) := r in g x y k).
Proof. intro h. apply (both_bind _ (@same_unit T T') _ _ _ _ (reduce_two ct cb t b)). intros [[x y] k] [[x' y'] k'] e. cbn in e. injection e as <- <-. apply h. Qed.
Lemma any_then {A B} (x : res A) (y : res B) (f : A -> res (pyval T)) (g : B -> res (pyval T')) : (forall u v, st (f u) (g v)) -> st (bind x f) (bind y g).
Proof. intro h. apply (both_bind _ (@same_unit T T') _ _ _ _ (both_any x y)). intros a b _. apply h. Qed.
Ltac mm := first [exact I | refine (conj eq_refl (conj eq_refl eq_refl)) | apply shape_div_two | apply shape_mul_two | apply vunit_two].
Ltac unpack :=
  repeat match goal with
  | m : multi_obj _ |- _ => destruct m
  | u : unit_obj _ |- _ => destruct u
  end; cbn [mc mv mtop mbot uc uv un ue] in *.
Lemma multi_mul_two (m : multi_obj T) (m' : multi_obj T') b b' : same_unit (VMulti m) (VMulti m') -> same_unit b b' -> st (multi_mul m b) (multi_mul m' b').
Proof.
  destruct m as [c1 v1 t1 l1], m' as [c2 v2 t2 l2]. intros (h1 & h2 & h3). cbn in h1, h2, h3. subst. intro g. destruct b as [x| | |u|o], b' as [x'| | |u'|o']; cbn in g; try contradiction; cbn [multi_mul mtop mbot mv mc]; try mm.
  - destruct g as (g1 & g2 & g3). rewrite g2, g3. apply reduce_then2. intros. apply shape_mul_two.
  - destruct g as (g1 & g2 & g3). rewrite g2, g3. apply reduce_then2. intros. mm.
Qed.
Lemma multi_rmul_two (m : multi_obj T) (m' : multi_obj T') b b' : same_unit (VMulti m) (VMulti m') -> same_unit b b' -> st (multi_rmul m b) (multi_rmul m' b').
Proof.
  destruct m as [c1 v1 t1 l1], m' as [c2 v2 t2 l2]. intros (h1 & h2 & h3). cbn in h1, h2, h3. subst. intro g. destruct b as [x| | |u|o], b' as [x'| | |u'|o']; cbn in g; try contradiction; cbn [multi_rmul mtop mbot mv mc]; try mm.
  destruct g as (g1 & g2 & g3). rewrite g2, g3. apply reduce_then2. intros. apply shape_mul_two.
Qed.
Lemma rnum_two (x : res T) (y : res T') : st (rmap VNum x) (rmap VNum y).
Proof. destruct x, y; exact I. Qed.
Lemma multi_div_two (m : multi_obj T) (m' : multi_obj T') b b' : same_unit (VMulti m) (VMulti m') -> same_unit b b' -> st (multi_div m b) (multi_div m' b').
Proof.
  destruct m as [c1 v1 t1 l1], m' as [c2 v2 t2 l2]. intros (h1 & h2 & h3). cbn in h1, h2, h3. subst. intro g. destruct b as [x| | |u|o], b' as [x'| | |u'|o']; cbn in g; try contradiction; cbn [multi_div mtop mbot mv mc]; try mm.
  - apply any_then. intros. mm.
  - destruct g as (g1 & g2 & g3). rewrite g2, g3. apply reduce_then2. intros. apply any_then. intros. apply shape_div_two.
  - destruct g as (g1 & g2 & g3). rewrite g2, g3. match goal with |- context[if ?c then _ else _] => destruct c end; [apply rnum_two|]. apply reduce_then2. intros. apply any_then. intros. apply shape_div_two.
Qed.
Lemma multi_rdiv_two (m : multi_obj T) (m' : multi_obj T') b b' : same_unit (VMulti m) (VMulti m') -> same_unit b b' -> st (multi_rdiv m b) (multi_rdiv m' b').
Proof.
  destruct m as [c1 v1 t1 l1], m' as [c2 v2 t2 l2]. intros (h1 & h2 & h3). cbn in h1, h2, h3. subst. intro g. destruct b as [x| | |u|o], b' as [x'| | |u'|o']; cbn in g; try contradiction; cbn [multi_rdiv mtop mbot mv mc]; try mm.
  - apply any_then. intros. mm.
  - destruct g as (g1 & g2 & g3). rewrite g2, g3. apply reduce_then2. intros. apply any_then. intros. apply shape_div_two.
Qed.
Lemma mul_two (a b : pyval T) (a' b' : pyval T') : same_unit a a' -> same_unit b b' -> st (py_mul a b) (py_mul a' b').
Proof.
  intros h g. destruct a as [x| | |u|m], a' as [x'| | |u'|m']; try contradiction h; cbn [py_mul].
  1-3: destruct b as [y| | |w|o], b' as [y'| | |w'|o']; try contradiction g; try exact I;
    solve [apply multi_rmul_two; assumption | cbn [unit_rmul]; destruct g as (g1 & g2 & g3); rewrite g1, g2; mm].
  - destruct h as (h1 & h2 & h3). destruct b as [y| | |w|o], b' as [y'| | |w'|o']; try contradiction g; cbn [unit_mul]; try exact I.
    + rewrite h1, h2. mm.
    + destruct g as (g1 & g2 & g3). rewrite h1, h2, h3, g1, g2, g3. match goal with |- context[if ?c then _ else _] => destruct c end; mm.
    + apply multi_mul_two; [exact g|exact (conj h1 (conj h2 h3))].
  - apply multi_mul_two; assumption.
Qed.
Lemma div_two (a b : pyval T) (a' b' : pyval T') : same_unit a a' -> same_unit b b' -> st (py_div a b) (py_div a' b').
Proof.
  intros h g. destruct a as [x| | |u|m], a' as [x'| | |u'|m']; try contradiction h; cbn [py_div].
  1-3: destruct b as [y| | |w|o], b' as [y'| | |w'|o']; try contradiction g; try exact I; solve [apply rnum_two | apply multi_rdiv_two; assumption].
  - destruct h as (h1 & h2 & h3). destruct b as [y| | |w|o], b' as [y'| | |w'|o']; try contradiction g; cbn [unit_div]; try exact I.
    + rewrite h1, h2, h3. apply any_then. intros. mm.
    + destruct g as (g1 & g2 & g3). rewrite h1, h2, h3, g2, g3. apply any_then. intros. destruct (String.eqb (un u') (un w')); [|mm]. destruct (e_is (esub (ue u') (ue w')) 0); mm.
    + apply multi_rdiv_two; [exact g|exact (conj h1 (conj h2 h3))].
  - apply multi_div_two; assumption.
Qed.
Lemma sum_two (a b : pyval T) (a' b' : pyval T') : same_unit a a' -> same_unit b b' -> st (py_add a b) (py_add a' b') /\ st (py_sub a b) (py_sub a' b').
Proof.
  intros h g. destruct a as [x| | |u|m], a' as [x'| | |u'|m']; try contradiction h; cbn [py_add py_sub].
  1-3: destruct b as [y| | |w|o], b' as [y'| | |w'|o']; try contradiction g; split; exact I.
  - destruct h as (h1 & h2 & h3). destruct b as [y| | |w|o], b' as [y'| | |w'|o']; try contradiction g; cbn [unit_addsub]; try (split; exact I).
    + rewrite h1, h2. split; mm.
    + destruct g as (g1 & g2 & g3). rewrite h1, h2, h3, g1, g2, g3. destruct (ucls_sub (uc w') (uc u')); [|split; exact I].
      destruct (String.eqb (un u') (un w') && eeqb (ue u') (ue w')); split; mm.
  - destruct h as (h1 & h2 & h3). destruct b as [y| | |w|o], b' as [y'| | |w'|o']; try contradiction g; cbn [multi_add multi_sub]; try (split; exact I).
    destruct g as (g1 & g2 & g3). rewrite h1, h2, h3, g1, g2, g3. destruct (mcls_eqb (mc m') (mc o')), (half_eqb (mtop m') (mtop o') && half_eqb (mbot m') (mbot o')); split; mm.
Qed.
Lemma pow_two (a : pyval T) (a' : pyval T') k : same_unit a a' -> st (py_pow a k) (py_pow a' k).
Proof.
  intro h. destruct a as [x| | |u|m], a' as [x'| | |u'|m']; try contradiction h; cbn [py_pow]; try exact I.
  - apply rnum_two.
  - destruct h as (h1 & h2 & h3). unfold unit_pow. rewrite h1, h2, h3. apply any_then. intros. mm.
  - destruct h as (h1 & h2 & h3). unfold multi_pow. rewrite h2, h3. destruct (reduce_tail true true (scale_half k (mtop m')) (scale_half k (mbot m'))); cbn [bind]; [|exact I]. apply any_then. intros. mm.
Qed.
Lemma neg_two (a : pyval T) (a' : pyval T') : same_unit a a' -> st (py_neg a) (py_neg a').
Proof.
  intro h. destruct a as [x| | |u|m], a' as [x'| | |u'|m']; try contradiction h; cbn [py_neg]; try exact I.
  - destruct h as (h1 & h2 & h3). unfold unit_neg. rewrite h1, h2, h3. mm.
  - exact h.
Qed.
Lemma run_two (e : term T) (e' : term T') : same_units e e' -> st (run e) (run e').
Proof.
  intro h. induction h as [v w h|o a b a' b' h1 IH1 h2 IH2|a a' k h1 IH1|a a' h1 IH1]; cbn [run]; [exact h|..];
  (apply (both_bind (@same_unit T T') (@same_unit T T')); [exact IH1|]; intros x x' hx); try (apply (both_bind (@same_unit T T') (@same_unit T T')); [exact IH2|]; intros y y' hy).
  - destruct o; cbn [binop_run]; [apply mul_two|apply div_two|apply sum_two|apply sum_two]; assumption.
  - apply pow_two; assumption.
  - apply neg_two; assumption.
Qed.
Lemma convert_two (tb : tables T) (tb' : tables T') (m : multi_obj T) (m' : multi_obj T') s r r' : mc m = mc m' -> multi_convert_to tb m s = Ok r -> multi_convert_to tb' m' s = Ok r' -> same_unit (VMulti r) (VMulti r').
Proof.
  assert (k : forall (U : Type) (NU : Num U) (t : tables U) (x y : multi_obj U), multi_convert_to t x s = Ok y -> exists v, mk_multi (mc x) v s = Ok y).
  { intros U NU t x y. unfold multi_convert_to. repeat match goal with
      | |- bind ?e _ = _ -> _ => destruct e; cbn [bind]; [|discriminate]
      | |- (let '(_, _) := ?p in _) = _ -> _ => destruct p
      | |- (if ?c then _ else _) = _ -> _ => destruct c; [|discriminate] end. intro h. eexists. exact h. }
  intros hc h g. apply k in h. apply k in g. destruct h as [v h], g as [w g]. rewrite hc in h. revert h g. unfold mk_multi. destruct (String.eqb s "").
  - intros h g. injection h as <-. injection g as <-. repeat split.
  - destruct (parse_units s); cbn [bind]; [|discriminate]. intros h g. injection h as <-. injection g as <-. repeat split.
Qed.
Definition uu (u : unit_obj T) (w : unit_obj T') : Prop := uc u = uc w /\ un u = un w /\ ue u = ue w.
Lemma core_two (tb : tables T) (tb' : tables T') (u : unit_obj T) (w : unit_obj T') target ret e : uu u w -> both uu (unit_convert_core tb u target ret e) (unit_convert_core tb' w target ret e).
Proof.
  intros (h1 & h2 & h3). unfold unit_convert_core. rewrite h1, h2. destruct (String.eqb (un w) target); [repeat split; assumption|]. destruct (standard (uc w)); [|exact I].
  destruct (String.eqb target s); [|destruct (String.eqb (un w) s)];
  repeat match goal with |- both _ (bind ?x _) (bind ?y _) => apply (both_bind _ _ _ _ _ _ (both_any x y)); intros ? ? _ end; apply mk_unit_two.
Qed.
Lemma uconvert_two (tb : tables T) (tb' : tables T') (u : unit_obj T) (w : unit_obj T') target r r' : same_unit (VUnit u) (VUnit w) ->
  unit_convert_to tb u target = Ok r -> unit_convert_to tb' w target = Ok r' -> same_unit (VUnit r) (VUnit r').
Proof.
  intros h e e'. assert (k : both uu (unit_convert_to tb u target) (unit_convert_to tb' w target)).
  { pose proof h as (_ & h2 & _). unfold unit_convert_to. rewrite h2.
    destruct (mem_str (un w) UNIT_COMPOSITES); [|destruct (has_char "^" target); [|apply core_two; exact h]];
    destruct (split_on "^" target) as [|a [|b [|z zs]]]; try exact I; (destruct (py_float b); cbn [bind]; [|exact I]; apply core_two; exact h). }
  rewrite e, e' in k. exact k.
Qed.
End Two.

(** ** One number type: the exceptions agree as well *)
Section One.
Context {T : Type} `{N : Num T}.
Notation so := (@same_outcome T T).
Notation sz := (@same_but_zero T T).
Lemma vunit_one c (v v' : T) n e : so (vunit (mk_unit c v n e)) (vunit (mk_unit c v' n e)).
Proof.
  destruct c; cbn [mk_unit]; try (repeat split); try (match goal with |- context[mem_str ?x ?y] => destruct (mem_str x y) end; cbn; repeat split);
  unfold split_caret; (destruct (has_char "^" n); [|repeat split]); destruct (split_on "^" n) as [|a [|b [|z zs]]]; try reflexivity; destruct (py_float b); cbn; repeat split.
Qed.
Lemma bind_one {A} (x : res A) (f g : A -> res (pyval T)) : (forall v, so (f v) (g v)) -> so (bind x f) (bind x g).
Proof. intro h. destruct x; cbn; [apply h|reflexivity]. Qed.
Ltac mm := first [exact I | reflexivity | refine (conj eq_refl (conj eq_refl eq_refl)) | apply (@shape_div_two T T) | apply (@shape_mul_two T T) | apply vunit_one].
Lemma multi_mul_one (m m' : multi_obj T) b b' : same_unit (VMulti m) (VMulti m') -> same_unit b b' -> so (multi_mul m b) (multi_mul m' b').
Proof.
  destruct m as [c1 v1 t1 l1], m' as [c2 v2 t2 l2]. intros (h1 & h2 & h3). cbn in h1, h2, h3. subst. intro g. destruct b as [x| | |u|o], b' as [x'| | |u'|o']; cbn in g; try contradiction; cbn [multi_mul mtop mbot mv mc]; try mm.
  - destruct g as (g1 & g2 & g3). rewrite g2, g3. apply bind_one. intros [[t l] k]. apply (@shape_mul_two T T).
  - destruct g as (g1 & g2 & g3). rewrite g2, g3. apply bind_one. intros [[t l] k]. mm.
Qed.
Lemma multi_rmul_one (m m' : multi_obj T) b b' : same_unit (VMulti m) (VMulti m') -> same_unit b b' -> so (multi_rmul m b) (multi_rmul m' b').
Proof.
  destruct m as [c1 v1 t1 l1], m' as [c2 v2 t2 l2]. intros (h1 & h2 & h3). cbn in h1, h2, h3. subst. intro g. destruct b as [x| | |u|o], b' as [x'| | |u'|o']; cbn in g; try contradiction; cbn [multi_rmul mtop mbot mv mc]; try mm.
  destruct g as (g1 & g2 & g3). rewrite g2, g3. apply bind_one. intros [[t l] k]. apply (@shape_mul_two T T).
Qed.
Lemma mul_one (a a' b b' : pyval T) : same_unit a a' -> same_unit b b' -> so (py_mul a b) (py_mul a' b').
Proof.
  intros h g. destruct a as [x| | |u|m], a' as [x'| | |u'|m']; try contradiction h; cbn [py_mul].
  1-3: destruct b as [y| | |w|o], b' as [y'| | |w'|o']; try contradiction g; try exact I; try reflexivity;
    solve [apply multi_rmul_one; assumption | cbn [unit_rmul]; destruct g as (g1 & g2 & g3); rewrite g1, g2; mm].
  - destruct h as (h1 & h2 & h3). destruct b as [y| | |w|o], b' as [y'| | |w'|o']; try contradiction g; cbn [unit_mul]; try reflexivity.
    + rewrite h1, h2. mm.
    + destruct g as (g1 & g2 & g3). rewrite h1, h2, h3, g1, g2, g3. match goal with |- context[if ?c then _ else _] => destruct c end; mm.
    + apply multi_mul_one; [exact g|exact (conj h1 (conj h2 h3))].
  - apply multi_mul_one; assumption.
Qed.
Lemma sum_one (a a' b b' : pyval T) : same_unit a a' -> same_unit b b' -> so (py_add a b) (py_add a' b') /\ so (py_sub a b) (py_sub a' b').
Proof.
  intros h g. destruct a as [x| | |u|m], a' as [x'| | |u'|m']; try contradiction h; cbn [py_add py_sub].
  1-3: destruct b as [y| | |w|o], b' as [y'| | |w'|o']; try contradiction g; split; mm.
  - destruct h as (h1 & h2 & h3). destruct b as [y| | |w|o], b' as [y'| | |w'|o']; try contradiction g; cbn [unit_addsub]; try (split; reflexivity).
    + rewrite h1, h2. split; mm.
    + destruct g as (g1 & g2 & g3). rewrite h1, h2, h3, g1, g2, g3. destruct (ucls_sub (uc w') (uc u')); [|split; reflexivity].
      destruct (String.eqb (un u') (un w') && eeqb (ue u') (ue w')); split; mm.
  - destruct h as (h1 & h2 & h3). destruct b as [y| | |w|o], b' as [y'| | |w'|o']; try contradiction g; cbn [multi_add multi_sub]; try (split; reflexivity).
    destruct g as (g1 & g2 & g3). rewrite h1, h2, h3, g1, g2, g3. destruct (mcls_eqb (mc m') (mc o')), (half_eqb (mtop m') (mtop o') && half_eqb (mbot m') (mbot o')); split; mm.
Qed.
Lemma neg_one (a a' : pyval T) : same_unit a a' -> so (py_neg a) (py_neg a').
Proof.
  intro h. destruct a as [x| | |u|m], a' as [x'| | |u'|m']; try contradiction h; cbn [py_neg]; try mm.
  - destruct h as (h1 & h2 & h3). unfold unit_neg. rewrite h1, h2, h3. mm.
  - exact h.
Qed.
Lemma div_then (x y x' y' : T) (f g : T -> res (pyval T)) : (forall u v, so (f u) (g v)) -> sz (bind (pydiv x y) f) (bind (pydiv x' y') g).
Proof. intro h. unfold pydiv. destruct (neqb y (nq 0)); [right; left; reflexivity|]. destruct (neqb y' (nq 0)); [right; right; reflexivity|]. left. cbn [bind]. apply h. Qed.
Lemma bind_zero {A} (x : res A) (f g : A -> res (pyval T)) : (forall v, sz (f v) (g v)) -> sz (bind x f) (bind x g).
Proof. intro h. destruct x; cbn [bind]; [apply h|left; reflexivity]. Qed.
Lemma rnum_zero (x y x' y' : T) : sz (rmap VNum (pydiv x y)) (rmap VNum (pydiv x' y')).
Proof. apply (div_then x y x' y' (fun q => Ok (VNum q)) (fun q => Ok (VNum q))). intros. exact I. Qed.
Lemma multi_rdiv_one (m m' : multi_obj T) b b' : same_unit (VMulti m) (VMulti m') -> same_unit b b' -> sz (multi_rdiv m b) (multi_rdiv m' b').
Proof.
  destruct m as [c1 v1 t1 l1], m' as [c2 v2 t2 l2]. intros (h1 & h2 & h3). cbn in h1, h2, h3. subst. intro g. destruct b as [x| | |u|o], b' as [x'| | |u'|o']; cbn in g; try contradiction; cbn [multi_rdiv mtop mbot mv mc]; try (left; mm).
  - apply div_then. intros. mm.
  - destruct g as (g1 & g2 & g3). rewrite g2, g3. apply bind_zero. intros [[t l] k]. apply div_then. intros. mm.
Qed.
Lemma div_one (a a' b b' : pyval T) : same_unit a a' -> same_unit b b' -> sz (py_div a b) (py_div a' b').
Proof.
  intros h g. destruct a as [x| | |u|m], a' as [x'| | |u'|m']; try contradiction h; cbn [py_div].
  1-3: destruct b as [y| | |w|o], b' as [y'| | |w'|o']; try contradiction g; first [apply rnum_zero | apply multi_rdiv_one; assumption | left; reflexivity].
  - destruct h as (h1 & h2 & h3). destruct b as [y| | |w|o], b' as [y'| | |w'|o']; try contradiction g; cbn [unit_div]; try (left; reflexivity).
    + rewrite h1, h2, h3. apply div_then. intros. mm.
    + destruct g as (g1 & g2 & g3). rewrite h1, h2, h3, g2, g3. apply div_then. intros. destruct (String.eqb (un u') (un w')); [|mm]. destruct (e_is (esub (ue u') (ue w')) 0); mm.
    + apply multi_rdiv_one; [exact g|exact (conj h1 (conj h2 h3))].
  - destruct m as [c1 v1 t1 l1], m' as [c2 v2 t2 l2]. destruct h as (h1 & h2 & h3). cbn in h1, h2, h3. subst. destruct b as [x| | |u|o], b' as [x'| | |u'|o']; cbn in g; try contradiction; cbn [multi_div mtop mbot mv mc]; try (left; mm).
    + apply div_then. intros. mm.
    + destruct g as (g1 & g2 & g3). rewrite g2, g3. apply bind_zero. intros [[t l] k]. apply div_then. intros. mm.
    + destruct g as (g1 & g2 & g3). rewrite g2, g3. match goal with |- context[if ?c then _ else _] => destruct c end; [apply rnum_zero|]. apply bind_zero. intros [[t l] k]. apply div_then. intros. mm.
Qed.
Lemma convert_one (tb : tables T) (m m' : multi_obj T) s : same_unit (VMulti m) (VMulti m') -> so (rmap VMulti (multi_convert_to tb m s)) (rmap VMulti (multi_convert_to tb m' s)).
Proof.
  destruct m as [c1 v1 t1 l1], m' as [c2 v2 t2 l2]. intros (h1 & h2 & h3). cbn in h1, h2, h3. subst. unfold multi_convert_to. cbn [mtop mbot mv mc].
  repeat match goal with
      | |- so (rmap _ (bind ?e _)) (rmap _ (bind ?e _)) => destruct e; cbn [bind]; [|reflexivity]
      | |- so (rmap _ (let '(_, _) := ?p in _)) _ => destruct p
      | |- so (rmap _ (if ?c then _ else _)) _ => destruct c; [|reflexivity] end.
  unfold mk_multi. destruct (String.eqb s ""); [repeat split|]. destruct (parse_units s); cbn; [repeat split|reflexivity].
Qed.
End One.

Local Open Scope R_scope.
Definition fl (n : string) : bu := BU n (eflt (qc 1)).
Definition force_r : multi_obj R := MO MMulti 3 [fl "kN"] [fl "cm"].
Definition force_q : multi_obj Q := MO MMulti 70%Q [fl "kN"] [fl "cm"].
Definition speed_r : multi_obj R := MO MMulti 2 [fl "km"] [fl "hr"].
Definition speed_q : multi_obj Q := MO MMulti (-1)%Q [fl "km"] [fl "hr"].
Lemma static_case : mk_multi MMulti 3 "kN/cm" = Ok force_r /\ mk_multi MMulti 70%Q "kN/cm" = Ok force_q /\
  same_units (TBin OMul (TLeaf (VMulti force_r)) (TLeaf (VMulti speed_r))) (TBin OMul (TLeaf (VMulti force_q)) (TLeaf (VMulti speed_q))) /\
  (exists r, run (TBin OMul (TLeaf (VMulti force_r)) (TLeaf (VMulti speed_r))) = Ok r) /\ (exists r, run (TBin OMul (TLeaf (VMulti force_q)) (TLeaf (VMulti speed_q))) = Ok r).
Proof.
  split; [reflexivity|]. split; [reflexivity|]. split; [repeat constructor|]. split.
  - assert (a1 : adm_multi force_r) by (split; adm). assert (a2 : adm_multi speed_r) by (split; adm). destruct (mul_mm force_r speed_r a1 a2) as [r [e _]]. eexists. exact e.
  - assert (k : forall x : res (pyval Q), match x with Ok _ => true | Raise _ => false end = true -> exists r, x = Ok r) by (intros [r|]; [eexists; reflexivity|discriminate]).
    apply k. vm_compute. reflexivity.
Qed.
Lemma zero_refuted : exists a b b' : pyval R, same_unit b b' /\ (exists r, py_div a b = Ok r) /\ py_div a b' = Raise EZeroDivisionError.
Proof.
  exists (VNum 1), (VNum 1), (VNum 0). split; [exact I|]. cbn [py_div rmap]. unfold pydiv. cbn [neqb nq Rnum]. unfold Reqb. rewrite RMicromega.Q2R_0.
  destruct (Req_EM_T 1 0) as [h|h]; [exfalso; apply R1_neq_R0; exact h|]. destruct (Req_EM_T 0 0) as [g|g]; [|congruence]. split; [eexists; reflexivity|reflexivity].
Qed.
