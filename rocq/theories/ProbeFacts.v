(** * ProbeFacts: the units and the prefix factors of a formula can be computed

    The operators multiply the numbers in front of the units by a factor that does
    not depend on those numbers (ParamFacts).  So a formula can be run once on
    rationals with every number set to 1: that gives the units of the result and
    the factor at every step, prefixed units included. *)
From Coq Require Import String Ascii List ZArith QArith Qcanon Bool Reals Qreals Lia Lra.
From Verif Require Import Py Num UnitsData UnitsStruct Units NumFacts Spec SpecFacts StructFacts
  OpFacts NamesFacts ClosureFacts FactorFacts LawFacts WitnessFacts OpPropFacts Solve Formulas FormulaSpec SemFacts SymFacts SweepFacts SimFacts ParamFacts.
Import ListNotations.
Local Open Scope string_scope.
Local Open Scope list_scope.
Local Open Scope R_scope.

Notation qval := (pyval Q).
Definition qone (v : qval) : qval :=
  match v with
  | VNum _ => VNum 1%Q
  | VUnit u => VUnit (UO (uc u) 1%Q (un u) (ue u))
  | VMulti m => VMulti (MO (mc m) 1%Q (mtop m) (mbot m))
  | v => v
  end.
Definition qvalue (v : qval) : Q := match v with VNum x => x | VUnit u => uv u | VMulti m => mv m | _ => 1%Q end.
Definition qcarries (v : qval) : bool := match v with VNone | VObj => false | _ => true end.
(** The factors, in the shape of the formula. *)
Inductive qt := QL | QN (q : Q) (a b : qt).
Definition carried (v : qval) (t : Q -> qt) : res (qval * qt) := if qcarries v then Ok (qone v, t (qvalue v)) else Raise Unmodelled.
Fixpoint probe (vs : list qval) (f : fx) : res (qval * qt) :=
  match f with
  | FVar i => let* v := var vs i in Ok (v, QL)
  | FNum r => Ok (VNum 1%Q, QL)
  | FMul f g => let* a := probe vs f in let* b := probe vs g in let* r := py_mul (fst a) (fst b) in carried r (fun q => QN q (snd a) (snd b))
  | FDiv f g => let* a := probe vs f in let* b := probe vs g in let* r := py_div (fst a) (fst b) in carried r (fun q => QN q (snd a) (snd b))
  | FAdd f g => let* a := probe vs f in let* b := probe vs g in let* r := py_add (fst a) (fst b) in carried r (fun _ => QN 1 (snd a) (snd b))
  | FSub f g => let* a := probe vs f in let* b := probe vs g in let* r := py_sub (fst a) (fst b) in carried r (fun _ => QN 1 (snd a) (snd b))
  | FNeg f => let* a := probe vs f in let* r := py_neg (fst a) in carried r (fun _ => QN 1 (snd a) QL)
  | FPow f k => let* a := probe vs f in let* r := py_pow (fst a) k in carried r (fun _ => QN 1 (snd a) QL)
  | FLog f | FFun _ f => let* a := probe vs f in match fst a with VNum _ => Ok (VNum 1%Q, QN 1 (snd a) QL) | _ => Raise ETypeError end
  | FLet f g => let* a := probe vs f in let* b := probe (fst a :: vs) g in Ok (fst b, QN 1 (snd a) (snd b))
  end.
Definition tl (t : qt) : qt := match t with QN _ a _ => a | QL => QL end.
Definition tr (t : qt) : qt := match t with QN _ _ b => b | QL => QL end.
Definition tq (t : qt) : Q := match t with QN q _ _ => q | QL => 1%Q end.
Definition scale (t : qt) (x : R) : R := if Qeq_bool (tq t) 1 then x else x * Q2R (tq t).
Fixpoint pnum (vs : list R) (t : qt) (f : fx) : R :=
  match f with
  | FVar i => nth i vs 0
  | FNum r => r
  | FMul f g => scale t (pnum vs (tl t) f * pnum vs (tr t) g)
  | FDiv f g => scale t (pnum vs (tl t) f / pnum vs (tr t) g)
  | FAdd f g => pnum vs (tl t) f + pnum vs (tr t) g
  | FSub f g => pnum vs (tl t) f - pnum vs (tr t) g
  | FNeg f => - pnum vs (tl t) f
  | FPow f k => powr (pnum vs (tl t) f) k
  | FLog f => ln (pnum vs (tl t) f)
  | FFun h f => h (pnum vs (tl t) f)
  | FLet f g => pnum (pnum vs (tl t) f :: vs) (tr t) g
  end.
Fixpoint pdef (vs : list R) (t : qt) (f : fx) : Prop :=
  match f with
  | FVar _ | FNum _ => True
  | FMul f g | FAdd f g | FSub f g => pdef vs (tl t) f /\ pdef vs (tr t) g
  | FDiv f g => pdef vs (tl t) f /\ pdef vs (tr t) g /\ pnum vs (tr t) g <> 0
  | FNeg f | FFun _ f => pdef vs (tl t) f
  | FPow f k => pdef vs (tl t) f /\ exists y, Rpowq (pnum vs (tl t) f) (ev k) = Ok y
  | FLog f => pdef vs (tl t) f /\ 0 < pnum vs (tl t) f
  | FLet f g => pdef vs (tl t) f /\ pdef (pnum vs (tl t) f :: vs) (tr t) g
  end.

(** ** One operator *)
Definition obj (v : qval) (x : R) : val := setv (vmap v) x.
Definition unitary (v : qval) : Prop := qcarries v = true /\ qone v = v.
Lemma obj_num x : obj (VNum 1%Q) x = VNum x.
Proof. reflexivity. Qed.
Lemma obj_value v x : qcarries v = true -> value (obj v x) = x.
Proof. destruct v; cbn; intro h; try discriminate; reflexivity. Qed.
Lemma vmap_carries v : qcarries v = true -> carries (vmap v).
Proof. destruct v; cbn; intro h; try discriminate; exact I. Qed.
Lemma obj_qone v x : obj (qone v) x = obj v x.
Proof. destruct v; reflexivity. Qed.
Lemma unitary_obj v : unitary v -> vmap v = obj v 1.
Proof.
  intros [hc h]. unfold obj. destruct v as [q| | |[c v n e]|[c v t b]]; try discriminate hc; cbn in h; injection h as <-; cbn [vmap setv umap mmap uc uv un ue mc mv mtop mbot];
    try (unfold umap); try (unfold mmap); cbn [uc uv un ue mc mv mtop mbot]; rewrite q2r1; reflexivity.
Qed.
Lemma qone_unitary v : qcarries v = true -> unitary (qone v).
Proof. destruct v; cbn; intro h; try discriminate; split; reflexivity. Qed.
Lemma vmap_qvalue v : qcarries v = true -> vmap v = obj v (Q2R (qvalue v)).
Proof. destruct v as [q| | |[]|[]]; cbn; intro h; try discriminate; reflexivity. Qed.
(** Two objects that are the same unit with some number. *)
Lemma obj_same c v x y : setv c x = obj v y -> qcarries v = true -> x = y /\ forall z, setv c z = obj v z.
Proof.
  unfold obj. destruct v as [q| | |[]|[]]; try discriminate; destruct c as [| | |[]|[]]; cbn; intros h _; try discriminate; injection h as <-; subst; split; try reflexivity; intros; reflexivity.
Qed.
Lemma scaled q x : (if Qeq_bool q 1 then x else x * Q2R q) = x * Q2R q.
Proof. destruct (Qeq_bool q 1) eqn:e; [|reflexivity]. apply Qeq_bool_iff in e. rewrite (Qeq_eqR _ _ e), q2r1. ring. Qed.
Lemma probe_mul a b r t x y : unitary a -> unitary b -> py_mul a b = Ok r -> qcarries r = true -> tq t = qvalue r ->
  py_mul (obj a x) (obj b y) = Ok (obj (qone r) (scale t (x * y))).
Proof.
  intros ha hb h hr ht. rewrite obj_qone. unfold scale. rewrite ht, scaled. pose proof (sim_mul a b) as s. rewrite h in s. cbn [sim] in s.
  unfold obj at 1 2. destruct (mul_acts (vmap a) (vmap b)) as [[e hx]|[c [k [hk [hc hx]]]]].
  - exfalso. specialize (hx 1 1 I). change (setv (vmap a) 1) with (obj a 1) in hx. change (setv (vmap b) 1) with (obj b 1) in hx.
    rewrite <- !unitary_obj in hx by assumption. congruence.
  - pose proof (hx 1 1 I) as h1. change (setv (vmap a) 1) with (obj a 1) in h1. change (setv (vmap b) 1) with (obj b 1) in h1.
    rewrite <- !unitary_obj in h1 by assumption. rewrite s in h1. injection h1 as h1. rewrite (vmap_qvalue r hr) in h1. symmetry in h1.
    destruct (obj_same _ _ _ _ h1 hr) as [ek es]. rewrite hx by exact I. rewrite es. f_equal. f_equal. rewrite <- ek. ring.
Qed.
Lemma probe_div a b r t x y : unitary a -> unitary b -> py_div a b = Ok r -> qcarries r = true -> tq t = qvalue r -> y <> 0 ->
  py_div (obj a x) (obj b y) = Ok (obj (qone r) (scale t (x / y))).
Proof.
  intros ha hb h hr ht hy. rewrite obj_qone. unfold scale. rewrite ht, scaled. pose proof (sim_divide a b) as s. rewrite h in s. cbn [sim] in s.
  assert (n1 : nonzero 1) by (unfold nonzero; lra).
  unfold obj at 1 2. destruct (div_acts (vmap a) (vmap b)) as [[e hx]|[c [k [hk [hc hx]]]]].
  - exfalso. specialize (hx 1 1 n1). change (setv (vmap a) 1) with (obj a 1) in hx. change (setv (vmap b) 1) with (obj b 1) in hx.
    rewrite <- !unitary_obj in hx by assumption. congruence.
  - pose proof (hx 1 1 n1) as h1. change (setv (vmap a) 1) with (obj a 1) in h1. change (setv (vmap b) 1) with (obj b 1) in h1.
    rewrite <- !unitary_obj in h1 by assumption. rewrite s in h1. injection h1 as h1. rewrite (vmap_qvalue r hr) in h1. symmetry in h1.
    destruct (obj_same _ _ _ _ h1 hr) as [ek es]. rewrite hx by exact hy. rewrite es. f_equal. f_equal. rewrite <- ek. unfold Rdiv. rewrite Rinv_1. ring.
Qed.
Lemma probe_sub a b r x y : unitary a -> unitary b -> py_sub a b = Ok r -> qcarries r = true -> py_sub (obj a x) (obj b y) = Ok (obj (qone r) (x - y)).
Proof.
  intros ha hb h hr. rewrite obj_qone. pose proof (sim_sub a b) as s. rewrite h in s. cbn [sim] in s.
  unfold obj at 1 2. destruct (sub_acts (vmap a) (vmap b)) as [[e hx]|[c [hc hx]]].
  - exfalso. specialize (hx 1 1). change (setv (vmap a) 1) with (obj a 1) in hx. change (setv (vmap b) 1) with (obj b 1) in hx.
    rewrite <- !unitary_obj in hx by assumption. congruence.
  - pose proof (hx 1 1) as h1. change (setv (vmap a) 1) with (obj a 1) in h1. change (setv (vmap b) 1) with (obj b 1) in h1.
    rewrite <- !unitary_obj in h1 by assumption. rewrite s in h1. injection h1 as h1. rewrite (vmap_qvalue r hr) in h1. symmetry in h1.
    destruct (obj_same _ _ _ _ h1 hr) as [_ es]. rewrite hx. rewrite es. reflexivity.
Qed.
Lemma add_acts a b : (exists e, forall x y, py_add (setv a x) (setv b y) = Raise e) \/ (exists c, carries c /\ forall x y, py_add (setv a x) (setv b y) = Ok (setv c (x + y))).
Proof.
  destruct a as [a0| | |u|m]; destruct b as [b0| | |v|n]; cbn [setv py_add unit_addsub multi_add uc uv un ue mc mv mtop mbot nadd Rnum]; try raises.
  - right. exists (VNum 0); split; [exact I|]; reflexivity.
  - destruct (mk_acts (uc u) (un u) (eint 1)) as [[er h]|[w h]]; [left; exists er; intros; apply h|]. right. exists (VUnit w); split; [exact I|]; intros. apply h.
  - destruct (ucls_sub _ _); [|raises]. destruct (_ && _); [|raises].
    destruct (mk_acts (uc u) (un u) (ue u)) as [[er h]|[w h]]; [left; exists er; intros; apply h|]. right. exists (VUnit w); split; [exact I|]; intros. apply h.
  - destruct (mcls_eqb _ _); [|raises]. destruct (_ && _); [|raises]. right. eexists (VMulti (MO _ 0 (mtop m) (mbot m))); split; [exact I|]; reflexivity.
Qed.
Lemma probe_add a b r x y : unitary a -> unitary b -> py_add a b = Ok r -> qcarries r = true -> py_add (obj a x) (obj b y) = Ok (obj (qone r) (x + y)).
Proof.
  intros ha hb h hr. rewrite obj_qone. pose proof (sim_add a b) as s. rewrite h in s. cbn [sim] in s.
  unfold obj at 1 2. destruct (add_acts (vmap a) (vmap b)) as [[e hx]|[c [hc hx]]].
  - exfalso. specialize (hx 1 1). change (setv (vmap a) 1) with (obj a 1) in hx. change (setv (vmap b) 1) with (obj b 1) in hx.
    rewrite <- !unitary_obj in hx by assumption. congruence.
  - pose proof (hx 1 1) as h1. change (setv (vmap a) 1) with (obj a 1) in h1. change (setv (vmap b) 1) with (obj b 1) in h1.
    rewrite <- !unitary_obj in h1 by assumption. rewrite s in h1. injection h1 as h1. rewrite (vmap_qvalue r hr) in h1. symmetry in h1.
    destruct (obj_same _ _ _ _ h1 hr) as [_ es]. rewrite hx. rewrite es. reflexivity.
Qed.
Lemma probe_neg a r x : unitary a -> py_neg a = Ok r -> qcarries r = true -> py_neg (obj a x) = Ok (obj (qone r) (- x)).
Proof.
  intros ha h hr. rewrite obj_qone. pose proof (sim_neg a) as s. rewrite h in s. cbn [sim] in s.
  unfold obj at 1. destruct (neg_acts (vmap a)) as [[e hx]|[c [hc hx]]].
  - exfalso. specialize (hx 1). change (setv (vmap a) 1) with (obj a 1) in hx. rewrite <- unitary_obj in hx by assumption. congruence.
  - pose proof (hx 1) as h1. change (setv (vmap a) 1) with (obj a 1) in h1.
    rewrite <- unitary_obj in h1 by assumption. rewrite s in h1. injection h1 as h1. rewrite (vmap_qvalue r hr) in h1. symmetry in h1.
    destruct (obj_same _ _ _ _ h1 hr) as [_ es]. rewrite hx. rewrite es. reflexivity.
Qed.
Lemma Rpowq_1 q : Rpowq 1 q = Ok 1.
Proof. rewrite Rpowq_pos by lra. rewrite Rpower_one. reflexivity. Qed.
Lemma pow_acts a k : (exists e, forall x y, Rpowq x (ev k) = Ok y -> py_pow (setv a x) k = Raise e) \/ (exists c, forall x y, Rpowq x (ev k) = Ok y -> py_pow (setv a x) k = Ok (setv c y)).
Proof.
  destruct a as [a0| | |u|m]; unfold unit_pow, multi_pow; cbn [setv py_pow uc uv un ue mc mv mtop mbot npow Rnum]; try raises.
  - right. exists (VNum 0). intros x y h. rewrite h. reflexivity.
  - unfold unit_pow. cbn [uc uv un ue npow Rnum]. destruct (mk_acts (uc u) (un u) (emul (ue u) k)) as [[er h]|[w h]].
    + left. exists er. intros x y e. rewrite e. apply h.
    + right. exists (VUnit w). intros x y e. rewrite e. apply h.
  - unfold multi_pow. cbn [mc mv mtop mbot npow Rnum]. destruct (reduce_tail _ _ _ _) as [[t b]|er]; cbn [bind fst snd].
    + right. exists (VMulti (MO MMulti 0 t b)). intros x y e. rewrite e. reflexivity.
    + left. exists er. reflexivity.
Qed.
Lemma probe_pow a k r x y : unitary a -> py_pow a k = Ok r -> qcarries r = true -> Rpowq x (ev k) = Ok y -> py_pow (obj a x) k = Ok (obj (qone r) y).
Proof.
  intros ha h hr hy. rewrite obj_qone. pose proof (sim_power a k) as s. rewrite h in s. cbn [sim] in s.
  unfold obj at 1. destruct (pow_acts (vmap a) k) as [[e hx]|[c hx]].
  - exfalso. specialize (hx 1 1 (Rpowq_1 _)). change (setv (vmap a) 1) with (obj a 1) in hx. rewrite <- unitary_obj in hx by assumption. congruence.
  - pose proof (hx 1 1 (Rpowq_1 _)) as h1. change (setv (vmap a) 1) with (obj a 1) in h1.
    rewrite <- unitary_obj in h1 by assumption. rewrite s in h1. injection h1 as h1. rewrite (vmap_qvalue r hr) in h1. symmetry in h1.
    destruct (obj_same _ _ _ _ h1 hr) as [_ es]. rewrite (hx _ _ hy). rewrite es. reflexivity.
Qed.

(** ** Formulas *)
Fixpoint objs (vs : list qval) (xs : list R) : list val :=
  match vs, xs with v :: vs, x :: xs => obj v x :: objs vs xs | _, _ => nil end.
Lemma objs_nth vs : forall xs i v, length vs = length xs -> nth_error vs i = Some v -> nth_error (objs vs xs) i = Some (obj v (nth i xs 0)).
Proof.
  induction vs as [|u vs IH]; intros [|x xs] i v hl h; try discriminate hl; [destruct i; discriminate|].
  destruct i as [|i]; cbn in *; [injection h as <-; reflexivity|]. apply IH; [injection hl as hl; exact hl|exact h].
Qed.
Lemma carried_ok v t r : carried v t = Ok r -> qcarries v = true /\ r = (qone v, t (qvalue v)).
Proof. unfold carried. destruct (qcarries v); [|discriminate]. intro h. injection h as <-. auto. Qed.
Theorem probe_sound f : forall vs xs o t, length vs = length xs -> Forall unitary vs -> probe vs f = Ok (o, t) -> pdef xs t f ->
  run (objs vs xs) f = Ok (obj o (pnum xs t f)) /\ unitary o.
Proof.
  induction f as [i|r|f IHf g IHg|f IHf g IHg|f IHf g IHg|f IHf g IHg|f IHf|f IHf k|f IHf|h f IHf|f IHf g IHg]; intros vs xs o t hl hu hp hd; cbn [run probe pnum pdef] in *.
  - unfold var in *. destruct (nth_error vs i) as [v|] eqn:e; cbn in hp; [|discriminate]. injection hp as <- <-.
    rewrite (objs_nth _ _ _ _ hl e). split; [reflexivity|]. rewrite Forall_forall in hu. apply hu. eapply nth_error_In; exact e.
  - injection hp as <- <-. split; [reflexivity|split; reflexivity].
  - apply bind_ok in hp. destruct hp as [[a ta] [e1 hp]]. apply bind_ok in hp. destruct hp as [[b tb] [e2 hp]]. apply bind_ok in hp. destruct hp as [r [e3 hp]].
    apply carried_ok in hp. destruct hp as [hr hp]. injection hp as -> ->. cbn [fst snd tl tr] in *. destruct hd as [d1 d2].
    destruct (IHf _ _ _ _ hl hu e1 d1) as [r1 u1]. destruct (IHg _ _ _ _ hl hu e2 d2) as [r2 u2]. rewrite r1, r2. unfold omul. cbn [bind].
    split; [|apply qone_unitary; exact hr]. apply probe_mul; auto.
  - apply bind_ok in hp. destruct hp as [[a ta] [e1 hp]]. apply bind_ok in hp. destruct hp as [[b tb] [e2 hp]]. apply bind_ok in hp. destruct hp as [r [e3 hp]].
    apply carried_ok in hp. destruct hp as [hr hp]. injection hp as -> ->. cbn [fst snd tl tr] in *. destruct hd as [d1 [d2 d3]].
    destruct (IHf _ _ _ _ hl hu e1 d1) as [r1 u1]. destruct (IHg _ _ _ _ hl hu e2 d2) as [r2 u2]. rewrite r1, r2. unfold odiv. cbn [bind].
    split; [|apply qone_unitary; exact hr]. apply probe_div; auto.
  - apply bind_ok in hp. destruct hp as [[a ta] [e1 hp]]. apply bind_ok in hp. destruct hp as [[b tb] [e2 hp]]. apply bind_ok in hp. destruct hp as [r [e3 hp]].
    apply carried_ok in hp. destruct hp as [hr hp]. injection hp as -> ->. cbn [fst snd tl tr] in *. destruct hd as [d1 d2].
    destruct (IHf _ _ _ _ hl hu e1 d1) as [r1 u1]. destruct (IHg _ _ _ _ hl hu e2 d2) as [r2 u2]. rewrite r1, r2. unfold oadd. cbn [bind].
    split; [|apply qone_unitary; exact hr]. apply probe_add; auto.
  - apply bind_ok in hp. destruct hp as [[a ta] [e1 hp]]. apply bind_ok in hp. destruct hp as [[b tb] [e2 hp]]. apply bind_ok in hp. destruct hp as [r [e3 hp]].
    apply carried_ok in hp. destruct hp as [hr hp]. injection hp as -> ->. cbn [fst snd tl tr] in *. destruct hd as [d1 d2].
    destruct (IHf _ _ _ _ hl hu e1 d1) as [r1 u1]. destruct (IHg _ _ _ _ hl hu e2 d2) as [r2 u2]. rewrite r1, r2. unfold osub. cbn [bind].
    split; [|apply qone_unitary; exact hr]. apply probe_sub; auto.
  - apply bind_ok in hp. destruct hp as [[a ta] [e1 hp]]. apply bind_ok in hp. destruct hp as [r [e3 hp]].
    apply carried_ok in hp. destruct hp as [hr hp]. injection hp as -> ->. cbn [fst snd tl tr] in *.
    destruct (IHf _ _ _ _ hl hu e1 hd) as [r1 u1]. rewrite r1. unfold oneg. cbn [bind].
    split; [|apply qone_unitary; exact hr]. apply probe_neg; auto.
  - apply bind_ok in hp. destruct hp as [[a ta] [e1 hp]]. apply bind_ok in hp. destruct hp as [r [e3 hp]].
    apply carried_ok in hp. destruct hp as [hr hp]. injection hp as -> ->. cbn [fst snd tl tr] in *. destruct hd as [d1 [y hy]].
    destruct (IHf _ _ _ _ hl hu e1 d1) as [r1 u1]. rewrite r1. unfold opow. cbn [bind].
    split; [|apply qone_unitary; exact hr]. unfold powr. rewrite hy. apply probe_pow; auto.
  - apply bind_ok in hp. destruct hp as [[a ta] [e1 hp]]. cbn [fst snd] in hp. destruct a as [q| | |u|m]; try discriminate. injection hp as <- <-. cbn [tl] in *. destruct hd as [d1 d2].
    destruct (IHf _ _ _ _ hl hu e1 d1) as [r1 u1]. rewrite r1. unfold math_log. cbn [bind obj vmap setv].
    rewrite (proj2 (Rltb_true 0 _) d2). split; [reflexivity|split; reflexivity].
  - apply bind_ok in hp. destruct hp as [[a ta] [e1 hp]]. cbn [fst snd] in hp. destruct a as [q| | |u|m]; try discriminate. injection hp as <- <-. cbn [tl] in *.
    destruct (IHf _ _ _ _ hl hu e1 hd) as [r1 u1]. rewrite r1. unfold math1. cbn [bind obj vmap setv].
    split; [reflexivity|split; reflexivity].
  - apply bind_ok in hp. destruct hp as [[a ta] [e1 hp]]. apply bind_ok in hp. destruct hp as [[b tb] [e2 hp]]. injection hp as <- <-. cbn [fst snd tl tr] in *. destruct hd as [d1 d2].
    destruct (IHf _ _ _ _ hl hu e1 d1) as [r1 u1]. rewrite r1. cbn [bind].
    specialize (IHg (a :: vs) (pnum xs ta f :: xs)). cbn [objs] in IHg. apply IHg; auto. cbn. f_equal. exact hl.
Qed.

(** ** Constructor calls *)
Definition qmakes (s : res qval) (v : val) (x : R) : Prop := exists o, s = Ok o /\ unitary o /\ v = obj o x.
Lemma multi_qmakes c x s v : multi c x s = Ok v -> qmakes (qmulti c 1 s) v x.
Proof.
  unfold multi, qmulti, mk_multi. destruct (String.eqb s EmptyString).
  - intro h. injection h as <-. eexists. split; [reflexivity|]. split; [split; reflexivity|reflexivity].
  - destruct (parse_units s) as [p|]; cbn [bind rmap]; [|discriminate]. intro h. injection h as <-. eexists. split; [reflexivity|]. split; [split; reflexivity|reflexivity].
Qed.
Lemma simple_qmakes c x s v : simple c x s = Ok v -> qmakes (qsimple c 1 s) v x.
Proof.
  unfold simple, qsimple. intro h. destruct c; cbn [mk_unit] in *;
    try (injection h as <-; eexists; split; [reflexivity|split; [split; reflexivity|reflexivity]]);
    try (match type of h with context [mem_str ?a ?b] => destruct (mem_str a b); [injection h as <-; eexists; split; [reflexivity|split; [split; reflexivity|reflexivity]]|discriminate] end);
    unfold split_caret in *; (destruct (has_char "^" s); [|injection h as <-; eexists; split; [reflexivity|split; [split; reflexivity|reflexivity]]]);
    (destruct (split_on "^" s) as [|a [|b [|? ?]]]; try discriminate); (destruct (py_float b); [injection h as <-; eexists; split; [reflexivity|split; [split; reflexivity|reflexivity]]|discriminate]).
Qed.
Lemma num_qmakes x : qmakes (Ok (VNum 1%Q)) (VNum x) x.
Proof. eexists. split; [reflexivity|]. split; [split; reflexivity|reflexivity]. Qed.
Lemma constant_qmakes x s v : constant x s = Ok v -> qmakes (rmap VMulti (mk_multi MMulti 1%Q s)) v x.
Proof.
  unfold constant, mk_multi. destruct (String.eqb s EmptyString).
  - intro h. injection h as <-. eexists. split; [reflexivity|]. split; [split; reflexivity|reflexivity].
  - destruct (parse_units s) as [p|]; cbn [bind rmap]; [|discriminate]. intro h. injection h as <-. eexists. split; [reflexivity|]. split; [split; reflexivity|reflexivity].
Qed.
Inductive qmakes_all : list (res qval) -> list val -> list R -> Prop :=
| qmakes_nil : qmakes_all nil nil nil
| qmakes_cons s v x ss vs xs : qmakes s v x -> qmakes_all ss vs xs -> qmakes_all (s :: ss) (v :: vs) (x :: xs).
Definition probes (args : list (res qval)) (f : fx) : res (qval * qt) := let* l := seq args in probe l f.
Lemma qmakes_seq ss vs xs : qmakes_all ss vs xs -> exists os, seq ss = Ok os /\ Forall unitary os /\ vs = objs os xs /\ length os = length xs.
Proof.
  induction 1 as [|s v x ss vs xs [o [-> [hu ->]]] _ [os [e1 [e2 [e3 e4]]]]].
  - exists nil. repeat split. constructor.
  - exists (o :: os). cbn [seq bind]. rewrite e1. cbn [bind objs]. split; [reflexivity|]. split; [constructor; assumption|]. split; [f_equal; exact e3|cbn; f_equal; exact e4].
Qed.
Theorem probes_sound ss vs xs f o t : qmakes_all ss vs xs -> probes ss f = Ok (o, t) -> pdef xs t f ->
  run vs f = Ok (obj o (pnum xs t f)) /\ unitary o.
Proof.
  intros hm h hd. destruct (qmakes_seq _ _ _ hm) as [os [e1 [e2 [e3 e4]]]]. unfold probes in h. rewrite e1 in h. cbn [bind] in h. subst vs.
  apply probe_sound; assumption.
Qed.
Ltac qmake := repeat (first [apply qmakes_nil | apply qmakes_cons; [first [apply multi_qmakes; eassumption | apply simple_qmakes; eassumption | apply constant_qmakes; eassumption | apply num_qmakes]|]]).

(** Formulas without factors. *)
Fixpoint ones (t : qt) : bool := match t with QL => true | QN q a b => Qeq_bool q 1 && ones a && ones b end.
Lemma ones_lr t : ones t = true -> Qeq_bool (tq t) 1 = true /\ ones (tl t) = true /\ ones (tr t) = true.
Proof. destruct t; cbn; [auto|]. intro h. apply andb_true_iff in h. destruct h as [h h3]. apply andb_true_iff in h. tauto. Qed.
Lemma ones_num f : forall xs t, ones t = true -> pnum xs t f = num xs f.
Proof.
  induction f; intros xs t ht; cbn [pnum num]; try reflexivity; destruct (ones_lr t ht) as [h1 [h2 h3]]; unfold scale; rewrite ?h1;
    try (rewrite IHf1, IHf2 by assumption; reflexivity); try (rewrite IHf by assumption; reflexivity).
Qed.
Lemma ones_def f : forall xs t, ones t = true -> def xs f -> pdef xs t f.
Proof.
  induction f; intros xs t ht hd; cbn [pdef def] in *; try exact I; destruct (ones_lr t ht) as [h1 [h2 h3]]; rewrite ?ones_num by assumption; intuition.
Qed.
Definition osys (args : list (res qval)) (f : fx) (ok : qval -> bool) : bool :=
  match probes args f with Ok (o, t) => ok o && ones t | Raise _ => false end.
Lemma osys_sound ss vs xs f ok : qmakes_all ss vs xs -> osys ss f ok = true -> def xs f ->
  exists o, run vs f = Ok (obj o (num xs f)) /\ ok o = true /\ unitary o.
Proof.
  intros hm h hd. unfold osys in h. destruct (probes ss f) as [[o t]|] eqn:e; [|discriminate]. apply andb_true_iff in h. destruct h as [h1 h2].
  exists o. destruct (probes_sound _ _ _ _ _ _ hm e (ones_def _ _ _ h2 hd)) as [hr hu]. rewrite (ones_num _ _ _ h2) in hr. auto.
Qed.
