(** * ParamFacts: numbers and units do not interfere

    For any operands, prefixed units included, the operators treat the numbers in
    front of the units alike: the result is the product (quotient, difference) of
    the numbers times a positive factor, and neither that factor nor the units of
    the result depend on the numbers. *)
From Coq Require Import String Ascii List ZArith QArith Qcanon Bool Reals Qreals Lia Lra.
From Verif Require Import Py Num UnitsData UnitsStruct Units NumFacts Spec SpecFacts StructFacts
  OpFacts NamesFacts ClosureFacts FactorFacts LawFacts WitnessFacts OpPropFacts Solve Formulas FormulaSpec SemFacts SymFacts.
Import ListNotations.
Local Open Scope string_scope.
Local Open Scope list_scope.
Local Open Scope R_scope.

Definition setv (v : val) (x : R) : val :=
  match v with
  | VNum _ => VNum x
  | VUnit u => VUnit (UO (uc u) x (un u) (ue u))
  | VMulti m => VMulti (MO (mc m) x (mtop m) (mbot m))
  | VNone => VNone
  | VObj => VObj
  end.
Lemma setv_value v : setv v (value v) = v.
Proof. destruct v as [| | |[]|[]]; reflexivity. Qed.
Lemma setv_setv v x y : setv (setv v x) y = setv v y.
Proof. destruct v; reflexivity. Qed.
Definition carries (v : val) : Prop := match v with VNone | VObj => False | _ => True end.
Lemma value_setv v x : carries v -> value (setv v x) = x.
Proof. destruct v; cbn; tauto. Qed.
Lemma same_setv a b : same_unit a b -> b = setv a (value b).
Proof. destruct a as [| | |[]|[]]; destruct b as [| | |[]|[]]; cbn; try tauto; intros [-> [-> ->]]; reflexivity. Qed.
Lemma setv_same v x y : carries v -> same_unit (setv v x) (setv v y).
Proof. destruct v; cbn; tauto. Qed.
Lemma carries_setv v x : carries (setv v x) <-> carries v.
Proof. destruct v; cbn; tauto. Qed.

(** The factor of the prefixes is positive. *)
Lemma loop_pos inv l : forall (f g : R), 0 < f -> prefix_loop inv l f = Ok g -> 0 < g.
Proof.
  induction l as [|[p x] l IH]; intros f g hf h; cbn [prefix_loop] in h; [injection h as <-; exact hf|].
  destruct (String.eqb p EmptyString); [eapply IH; eassumption|]. destruct (dict_get prefix_factors p) as [q|] eqn:eq; [|discriminate].
  assert (hq : 0 < Q2R q).
  { assert (hb : forallb (fun x => Qle_bool (1 # 1000000000) (snd x)) prefix_factors = true) by (vm_compute; reflexivity).
    rewrite forallb_forall in hb. assert (hi : In (p, q) prefix_factors).
    { apply dict_get_in. exact eq. }
    specialize (hb _ hi). cbn [snd] in hb. apply Qle_bool_iff in hb. apply Qle_Rle in hb. assert (0 < Q2R (1 # 1000000000)) by (unfold Q2R; cbn; lra). lra. }
  assert (hb : exists b : R, (if inv then pydiv (nq 1) (nq q) else Ok (nq q : R)) = Ok b /\ 0 < b).
  { destruct inv.
    - exists (Q2R 1 / Q2R q). cbn [nq Rnum]. rewrite pydiv_ok by lra. split; [reflexivity|]. apply Rmult_lt_0_compat; [unfold Q2R; cbn; lra|apply Rinv_0_lt_compat, hq].
    - exists (Q2R q). split; [reflexivity|exact hq]. }
  destruct hb as [b [eb hb]]. rewrite eb in h. cbn [bind npow Rnum] in h. rewrite Rpowq_pos in h by exact hb.
  cbn [nmul Rnum] in h. eapply IH; [|exact h]. apply Rmult_lt_0_compat; [exact hf|apply exp_pos].
Qed.
Lemma reduce_pos ct cb top bot t b (f : R) : reduce ct cb top bot = Ok (t, b, f) -> 0 < f.
Proof.
  unfold reduce, deconstruct_unit_prefixes. intro h. apply bind_ok in h. destruct h as [[[t' b'] f'] [h h']].
  apply bind_ok in h'. destruct h' as [r [_ h']]. injection h' as _ _ <-.
  apply bind_ok in h. destruct h as [tp [_ h]]. apply bind_ok in h. destruct h as [bp [_ h]].
  apply bind_ok in h. destruct h as [f1 [h1 h]]. apply bind_ok in h. destruct h as [f2 [h2 h]]. injection h as _ _ <-.
  eapply loop_pos; [|exact h2]. eapply loop_pos; [|exact h1]. cbn. unfold Q2R. cbn. lra.
Qed.

(** What each operator does to the numbers. *)
Definition acts2 (dom : R -> Prop) (op : val -> val -> res val) (f : R -> R -> R) (a b : val) : Prop :=
  (exists e, forall x y, dom y -> op (setv a x) (setv b y) = Raise e) \/
  (exists c s, 0 < s /\ (carries a -> carries b -> carries c) /\ forall x y, dom y -> op (setv a x) (setv b y) = Ok (setv c (f x y * s))).
Definition always (y : R) := True.
Definition nonzero (y : R) := y <> 0.
Lemma mk_acts c n e : (exists er, forall x : R, vunit (mk_unit c x n e) = Raise er) \/ (exists u, forall x, vunit (mk_unit c x n e) = Ok (setv (VUnit u) x)).
Proof.
  unfold vunit. destruct c; cbn [mk_unit];
    try (right; exists (UO UUnit 0 n e); reflexivity) ; try (right; eexists (UO _ 0 n e); reflexivity);
    try (match goal with |- context [mem_str ?a ?b] => destruct (mem_str a b); [right; eexists (UO _ 0 n e); reflexivity|left; eexists; reflexivity] end);
    unfold split_caret; (destruct (has_char "^" n); [|right; eexists (UO _ 0 n e); reflexivity]);
    (destruct (split_on "^" n) as [|x1 [|x2 [|x3 ?]]]; try (left; eexists; reflexivity));
    (destruct (py_float x2) as [q|]; cbn [bind rmap]; [right; eexists (UO _ 0 x1 (eflt q)); reflexivity|left; eexists; reflexivity]).
Qed.
Ltac raises := left; eexists; reflexivity.
Lemma shape_mul_setv x t b : shape_mul x t b = setv (shape_mul 0 t b) x.
Proof. destruct t as [|? [|? ?]]; destruct b; reflexivity. Qed.
Lemma shape_div_setv x t b : shape_div x t b = setv (shape_div 0 t b) x.
Proof. destruct t as [|? [|? ?]]; destruct b as [|? [|? ?]]; reflexivity. Qed.
Lemma carries_mul x t b : carries (shape_mul x t b).
Proof. destruct t as [|? [|? ?]]; destruct b; exact I. Qed.
Lemma carries_div x t b : carries (shape_div x t b).
Proof. destruct t as [|? [|? ?]]; destruct b as [|? [|? ?]]; exact I. Qed.
Ltac cr := intros; first [exact I | apply carries_mul | apply carries_div | cbn in *; tauto].
Lemma mul_acts a b : acts2 always py_mul Rmult a b.
Proof.
  unfold acts2. destruct a as [a0| | |u|m]; destruct b as [b0| | |v|n]; cbn [setv py_mul unit_mul unit_rmul multi_mul multi_rmul uc uv un ue mc mv mtop mbot nmul Rnum];
    try raises.
  - right. exists (VNum 0), 1. split; [lra|]. split; [cr|]. intros x y _. cbn. do 2 f_equal. ring.
  - destruct (mk_acts (uc v) (un v) (eint 1)) as [[er h]|[w h]]; [left; exists er; intros; apply h|].
    right. exists (VUnit w), 1. split; [lra|]. split; [cr|]. intros x y _. rewrite h. do 2 f_equal. ring.
  - right. exists (VMulti (MO MMulti 0 (mtop n) (mbot n))), 1. split; [lra|]. split; [cr|]. intros x y _. cbn. do 3 f_equal. ring.
  - destruct (mk_acts (uc u) (un u) (eint 1)) as [[er h]|[w h]]; [left; exists er; intros; apply h|].
    right. exists (VUnit w), 1. split; [lra|]. split; [cr|]. intros x y _. rewrite h. do 2 f_equal. ring.
  - destruct (_ && _).
    + destruct (mk_acts (uc u) (un u) (eadd (ue u) (ue v))) as [[er h]|[w h]]; [left; exists er; intros; apply h|].
      right. exists (VUnit w), 1. split; [lra|]. split; [cr|]. intros x y _. rewrite h. do 2 f_equal. ring.
    + right. exists (VMulti (MO MMulti 0 [BU (un u) (eint 1); BU (un v) (eint 1)] nil)), 1. split; [lra|]. split; [cr|]. intros x y _. cbn. do 3 f_equal. ring.
  - destruct (reduce true true (mtop n ++ [BU (un u) (ue u)]) (mbot n)) as [[[t b] f]|er]; [|raises].
    right. exists (shape_mul 0 t b), 1. split; [lra|]. split; [cr|]. intros x y _. cbn [bind]. rewrite shape_mul_setv. do 2 f_equal. ring.
  - right. exists (VMulti (MO MMulti 0 (mtop m) (mbot m))), 1. split; [lra|]. split; [cr|]. intros x y _. cbn. do 3 f_equal. ring.
  - right. exists VNone, 1. split; [lra|]. split; [cr|]. reflexivity.
  - right. exists VNone, 1. split; [lra|]. split; [cr|]. reflexivity.
  - destruct (reduce true true (mtop m ++ [BU (un v) (ue v)]) (mbot m)) as [[[t b] f]|er]; [|raises].
    right. exists (shape_mul 0 t b), 1. split; [lra|]. split; [cr|]. intros x y _. cbn [bind]. rewrite shape_mul_setv. do 2 f_equal. ring.
  - destruct (reduce (T := R) true true (mtop m ++ mtop n) (mbot m ++ mbot n)) as [[[t b] f]|er] eqn:e; [|raises].
    right. exists (VMulti (MO MMulti 0 t b)), f. split; [eapply reduce_pos; exact e|]. split; [cr|]. intros x y _. reflexivity.
Qed.
Lemma mul_num_acts a : (exists e, forall x y, py_mul (setv a x) (VNum y) = Raise e) \/ (exists c, carries c /\ forall x y, py_mul (setv a x) (VNum y) = Ok (setv c (x * y))).
Proof.
  destruct a as [a0| | |u|m]; cbn [setv py_mul unit_mul multi_mul uc uv un ue mc mv mtop mbot nmul Rnum]; try raises.
  - right. exists (VNum 0); split; [exact I|]; reflexivity.
  - destruct (mk_acts (uc u) (un u) (eint 1)) as [[er h]|[w h]]; [left; exists er; intros; apply h|]. right. exists (VUnit w); split; [exact I|]; intros. apply h.
  - right. exists (VMulti (MO MMulti 0 (mtop m) (mbot m))); split; [exact I|]; reflexivity.
Qed.
Lemma div_acts a b : acts2 nonzero py_div Rdiv a b.
Proof.
  unfold acts2, nonzero. destruct a as [a0| | |u|m]; destruct b as [b0| | |v|n]; cbn [setv py_div unit_div multi_div multi_rdiv uc uv un ue mc mv mtop mbot];
    try raises.
  - right. exists (VNum 0), 1. split; [lra|]. split; [cr|]. intros x y hy. rewrite pydiv_ok by exact hy. cbn. do 2 f_equal. field. exact hy.
  - right. exists (VMulti (MO MMulti 0 (mbot n) (mtop n))), 1. split; [lra|]. split; [cr|]. intros x y hy. rewrite pydiv_ok by exact hy. cbn. do 3 f_equal. field. exact hy.
  - destruct (mk_acts (uc u) (un u) (ue u)) as [[er h]|[w h]].
    + left. exists er. intros x y hy. rewrite pydiv_ok by exact hy. apply h.
    + right. exists (VUnit w), 1. split; [lra|]. split; [cr|]. intros x y hy. rewrite pydiv_ok by exact hy. cbn [bind]. rewrite h. do 2 f_equal. field. exact hy.
  - destruct (String.eqb (un u) (un v)).
    + destruct (e_is _ 0).
      * right. exists (VNum 0), 1. split; [lra|]. split; [cr|]. intros x y hy. rewrite pydiv_ok by exact hy. cbn. do 2 f_equal. field. exact hy.
      * destruct (mk_acts (uc u) (un u) (esub (ue u) (ue v))) as [[er h]|[w h]].
        -- left. exists er. intros x y hy. rewrite pydiv_ok by exact hy. apply h.
        -- right. exists (VUnit w), 1. split; [lra|]. split; [cr|]. intros x y hy. rewrite pydiv_ok by exact hy. cbn [bind]. rewrite h. do 2 f_equal. field. exact hy.
    + right. exists (VMulti (MO MMulti 0 [BU (un u) (ue u)] [BU (un v) (ue v)])), 1. split; [lra|]. split; [cr|]. intros x y hy. rewrite pydiv_ok by exact hy. cbn. do 3 f_equal. field. exact hy.
  - destruct (reduce (T := R) true false (mbot n ++ [BU (un u) (ue u)]) (mtop n)) as [[[t b] f]|er]; [|raises].
    right. exists (shape_div 0 t b), 1. split; [lra|]. split; [cr|]. intros x y hy. cbn [bind]. rewrite pydiv_ok by exact hy. cbn [bind]. rewrite shape_div_setv. do 2 f_equal. field. exact hy.
  - right. exists (VMulti (MO MMulti 0 (mtop m) (mbot m))), 1. split; [lra|]. split; [cr|]. intros x y hy. rewrite pydiv_ok by exact hy. cbn. do 3 f_equal. field. exact hy.
  - right. exists VNone, 1. split; [lra|]. split; [cr|]. reflexivity.
  - right. exists VNone, 1. split; [lra|]. split; [cr|]. reflexivity.
  - destruct (reduce (T := R) false true (mtop m) (mbot m ++ [BU (un v) (ue v)])) as [[[t b] f]|er] eqn:e; [|raises].
    right. exists (shape_div 0 t b), f. split; [eapply reduce_pos; exact e|]. split; [cr|]. intros x y hy. cbn [bind]. rewrite pydiv_ok by exact hy. cbn [bind nmul Rnum]. rewrite shape_div_setv. reflexivity.
  - destruct (_ && _).
    + right. exists (VNum 0), 1. split; [lra|]. split; [cr|]. intros x y hy. rewrite pydiv_ok by exact hy. cbn. do 2 f_equal. field. exact hy.
    + destruct (reduce (T := R) true true (mtop m ++ mbot n) (mbot m ++ mtop n)) as [[[t b] f]|er] eqn:e; [|raises].
      right. exists (shape_div 0 t b), f. split; [eapply reduce_pos; exact e|]. split; [cr|]. intros x y hy. cbn [bind]. rewrite pydiv_ok by exact hy. cbn [bind nmul Rnum]. rewrite shape_div_setv. reflexivity.
Qed.
Lemma sub_acts a b : (exists e, forall x y, py_sub (setv a x) (setv b y) = Raise e) \/ (exists c, carries c /\ forall x y, py_sub (setv a x) (setv b y) = Ok (setv c (x - y))).
Proof.
  destruct a as [a0| | |u|m]; destruct b as [b0| | |v|n]; cbn [setv py_sub unit_addsub multi_sub uc uv un ue mc mv mtop mbot nsub Rnum]; try raises.
  - right. exists (VNum 0); split; [exact I|]; reflexivity.
  - destruct (mk_acts (uc u) (un u) (eint 1)) as [[er h]|[w h]]; [left; exists er; intros; apply h|]. right. exists (VUnit w); split; [exact I|]; intros. apply h.
  - destruct (ucls_sub _ _); [|raises]. destruct (_ && _); [|raises].
    destruct (mk_acts (uc u) (un u) (ue u)) as [[er h]|[w h]]; [left; exists er; intros; apply h|]. right. exists (VUnit w); split; [exact I|]; intros. apply h.
  - destruct (_ && _); [|raises]. right. exists (VMulti (MO MMulti 0 (mtop m) (mbot m))); split; [exact I|]; reflexivity.
Qed.
Lemma neg_acts a : (exists e, forall x, py_neg (setv a x) = Raise e) \/ (exists c, carries c /\ forall x, py_neg (setv a x) = Ok (setv c (- x))).
Proof.
  destruct a as [a0| | |u|m]; unfold unit_neg, multi_neg; cbn [setv py_neg uc uv un ue mc mv mtop mbot nopp Rnum]; try raises.
  - right. exists (VNum 0); split; [exact I|]; reflexivity.
  - destruct (mk_acts (uc u) (un u) (ue u)) as [[er h]|[w h]]; [left; exists er; intros; apply h|]. right. exists (VUnit w); split; [exact I|]; intros. apply h.
  - right. exists (VMulti (MO (mc m) 0 (mtop m) (mbot m))); split; [exact I|]; reflexivity.
Qed.

(** Division by a value with the number 0 never succeeds. *)
Lemma pydiv_0 (x y : R) : y = 0 -> pydiv x y = Raise EZeroDivisionError.
Proof. intros ->. unfold pydiv. cbn [neqb nq Rnum]. rewrite (proj2 (Reqb_true 0 (Q2R 0))); [reflexivity|]. unfold Q2R. cbn. field. Qed.
Lemma div_nonzero a b r : carries b -> py_div a b = Ok r -> value b <> 0.
Proof.
  intros hb h e. destruct a as [a0| | |u|m]; destruct b as [b0| | |v|n]; cbn [value] in e; try discriminate h; try destruct hb;
    cbn [py_div unit_div multi_div multi_rdiv] in h; rewrite ?(pydiv_0 _ _ e) in h; try discriminate h.
  all: repeat match type of h with
       | (if ?c then _ else _) = _ => destruct c; try discriminate h
       | bind ?c _ = _ => destruct c as [[[? ?] ?]|]; cbn [bind] in h; rewrite ?(pydiv_0 _ _ e) in h; try discriminate h
       end.
Qed.
Lemma mul_ok a b r : py_mul a b = Ok r -> exists c s, 0 < s /\ (carries a -> carries b -> carries c) /\ r = setv c (value a * value b * s) /\
  forall x y, py_mul (setv a x) (setv b y) = Ok (setv c (x * y * s)).
Proof.
  intro h. destruct (mul_acts a b) as [[e hr]|[c [s [hs [hc hr]]]]].
  - specialize (hr (value a) (value b) I). rewrite !setv_value in hr. congruence.
  - exists c, s. split; [exact hs|]. split; [exact hc|]. split; [|intros; apply hr; exact I].
    specialize (hr (value a) (value b) I). rewrite !setv_value in hr. congruence.
Qed.
Lemma div_ok a b r : carries b -> py_div a b = Ok r -> exists c s, 0 < s /\ (carries a -> carries b -> carries c) /\ value b <> 0 /\ r = setv c (value a / value b * s) /\
  forall x y, y <> 0 -> py_div (setv a x) (setv b y) = Ok (setv c (x / y * s)).
Proof.
  intros hb h. pose proof (div_nonzero _ _ _ hb h) as hn. destruct (div_acts a b) as [[e hr]|[c [s [hs [hc hr]]]]].
  - specialize (hr (value a) (value b) hn). rewrite !setv_value in hr. congruence.
  - exists c, s. split; [exact hs|]. split; [exact hc|]. split; [exact hn|]. split; [|intros; apply hr; assumption].
    specialize (hr (value a) (value b) hn). rewrite !setv_value in hr. congruence.
Qed.
Lemma sub_ok a b r : py_sub a b = Ok r -> exists c, carries c /\ r = setv c (value a - value b) /\
  forall x y, py_sub (setv a x) (setv b y) = Ok (setv c (x - y)).
Proof.
  intro h. destruct (sub_acts a b) as [[e hr]|[c [hc hr]]].
  - specialize (hr (value a) (value b)). rewrite !setv_value in hr. congruence.
  - exists c. split; [exact hc|]. split; [|exact hr]. specialize (hr (value a) (value b)). rewrite !setv_value in hr. congruence.
Qed.
Lemma neg_ok a r : py_neg a = Ok r -> exists c, carries c /\ r = setv c (- value a) /\ forall x, py_neg (setv a x) = Ok (setv c (- x)).
Proof.
  intro h. destruct (neg_acts a) as [[e hr]|[c [hc hr]]].
  - specialize (hr (value a)). rewrite setv_value in hr. congruence.
  - exists c. split; [exact hc|]. split; [|exact hr]. specialize (hr (value a)). rewrite setv_value in hr. congruence.
Qed.
Lemma muln_ok a y r : py_mul a (VNum y) = Ok r -> exists c, carries c /\ r = setv c (value a * y) /\ forall x y, py_mul (setv a x) (VNum y) = Ok (setv c (x * y)).
Proof.
  intro h. destruct (mul_num_acts a) as [[e hr]|[c [hc hr]]].
  - specialize (hr (value a) y). rewrite setv_value in hr. congruence.
  - exists c. split; [exact hc|]. split; [|exact hr]. specialize (hr (value a) y). rewrite setv_value in hr. congruence.
Qed.
Lemma nz_carries v : value v <> 0 -> carries v.
Proof. destruct v; cbn; intro h; try exact I; apply h; reflexivity. Qed.

(** ** Formulas [X * ((b - a) / Y)] *)
Definition lin (X : res val) (b a : val) (Y : res val) : res val := omul X (odiv (osub (Ok b) (Ok a)) Y).
Lemma lin_acts xv b a yv q : carries yv -> lin (Ok xv) b a (Ok yv) = Ok q -> exists c K, K <> 0 /\ (carries xv -> carries c) /\
  q = setv c (value xv * (value b - value a) * K) /\
  forall z x y, lin (Ok (setv xv z)) (setv b x) (setv a y) (Ok yv) = Ok (setv c (z * (x - y) * K)).
Proof.
  unfold lin, omul, odiv, osub. cbn [bind]. intros hy h. apply bind_ok in h. destruct h as [d [hd h]].
  apply bind_ok in hd. destruct hd as [s [hs hd]].
  destruct (sub_ok _ _ _ hs) as [c1 [k1 [e1 f1]]]. subst s.
  destruct (div_ok _ _ _ hy hd) as [c2 [s2 [p2 [k2 [nz [e2 f2]]]]]]. subst d.
  destruct (mul_ok _ _ _ h) as [c3 [s3 [p3 [k3 [e3 f3]]]]]. subst q.
  assert (kc2 : carries c2) by (apply k2; [apply carries_setv, k1|exact hy]).
  rewrite !value_setv in * by assumption.
  exists c3, (s2 * s3 / value yv). split; [|split; [|split]].
  - apply Rmult_integral_contrapositive_currified; [apply Rmult_integral_contrapositive_currified; lra|apply Rinv_neq_0_compat, nz].
  - intro kx. apply k3; [exact kx|apply carries_setv; exact kc2].
  - f_equal. field. exact nz.
  - intros z x y. rewrite f1. cbn [bind].
    specialize (f2 (x - y) (value yv) nz). rewrite setv_value, !setv_setv in f2. rewrite f2. cbn [bind].
    specialize (f3 z ((x - y) / value yv * s2)). rewrite setv_setv in f3. rewrite f3. do 2 f_equal. field. exact nz.
Qed.
Lemma lin_props X b a Y q xv yv : X = Ok xv -> Y = Ok yv -> carries yv -> value xv <> 0 -> same_unit a b -> lin X b a Y = Ok q ->
  (value q = 0 <-> value a = value b) /\
  (exists q', lin X a b Y = Ok q' /\ value q' = - value q /\ same_unit q q') /\
  (forall k, exists q', lin (Ok (setv xv (k * value xv))) b a Y = Ok q' /\ value q' = k * value q /\ same_unit q q').
Proof.
  intros -> -> hy hx hs h. destruct (lin_acts _ _ _ _ _ hy h) as [c [K [hK [hc [e f]]]]]. pose proof (hc (nz_carries _ hx)) as kc. subst q.
  rewrite value_setv by exact kc. split; [|split].
  - split; intro e; [|rewrite e; ring]. apply Rmult_integral in e. destruct e as [e|e]; [|contradiction]. apply Rmult_integral in e. destruct e as [e|e]; [contradiction|lra].
  - exists (setv c (value xv * (value a - value b) * K)). pose proof (same_setv _ _ hs) as eb. split; [|split].
    + specialize (f (value xv) (value a) (value b)). rewrite setv_value in f. rewrite <- eb in f.
      assert (ea : setv b (value a) = a) by (rewrite eb, setv_setv; apply setv_value). rewrite ea in f. exact f.
    + rewrite value_setv by exact kc. ring.
    + apply setv_same. exact kc.
  - intro k. exists (setv c (k * value xv * (value b - value a) * K)). split; [|split].
    + specialize (f (k * value xv) (value b) (value a)). rewrite !setv_value in f. exact f.
    + rewrite value_setv by exact kc. ring.
    + apply setv_same. exact kc.
Qed.
Lemma lin_parts X b a Y q : lin X b a Y = Ok q -> exists xv yv, X = Ok xv /\ Y = Ok yv.
Proof.
  unfold lin, omul, odiv. intro h. apply bind_ok in h. destruct h as [x [hx h]]. apply bind_ok in h. destruct h as [d [hd _]].
  apply bind_ok in hd. destruct hd as [s [_ hd]]. apply bind_ok in hd. destruct hd as [y [hy _]]. exists x, y. auto.
Qed.
(** Products of nonzero values. *)
Lemma omul_nz X b v : omul X (Ok b) = Ok v -> (forall x, X = Ok x -> value x <> 0) -> value b <> 0 -> value v <> 0.
Proof.
  unfold omul. intros h hx hb. apply bind_ok in h. destruct h as [x [ex h]]. cbn [bind] in h. specialize (hx x ex).
  destruct (mul_ok _ _ _ h) as [c [s [p [k [-> _]]]]]. rewrite value_setv by (apply k; apply nz_carries; assumption).
  repeat apply Rmult_integral_contrapositive_currified; try assumption. lra.
Qed.
Lemma omul_scale X b v k b' : omul X (Ok b) = Ok v -> (forall x, X = Ok x -> value x <> 0) -> value b <> 0 -> same_unit b b' -> value b' = k * value b ->
  omul X (Ok b') = Ok (setv v (k * value v)).
Proof.
  unfold omul. intros h hx hb hs hk. apply bind_ok in h. destruct h as [x [ex h]]. cbn [bind] in h. specialize (hx x ex).
  destruct (mul_ok _ _ _ h) as [c [s [p [hc [e f]]]]]. rewrite ex. cbn [bind]. specialize (f (value x) (value b')). rewrite setv_value in f.
  rewrite (same_setv _ _ hs), f. subst v. assert (kc : carries c) by (apply hc; apply nz_carries; assumption). rewrite value_setv, setv_setv by exact kc.
  do 2 f_equal. rewrite hk. ring.
Qed.
Lemma oneg_nz b v : oneg (Ok b) = Ok v -> value b <> 0 -> value v <> 0.
Proof.
  unfold oneg. cbn [bind]. intros h hb. destruct (neg_ok _ _ h) as [c [kc [-> _]]]. rewrite value_setv by exact kc. lra.
Qed.
Lemma log_carries x y : math_log x = Ok y -> carries y.
Proof. unfold math_log. intro h. apply bind_ok in h. destruct h as [a [_ h]]. destruct a; try discriminate h. destruct (Rltb 0 _); [|discriminate h]. injection h as <-. exact I. Qed.
Lemma osub_carries x y z : osub x y = Ok z -> carries z.
Proof.
  unfold osub. intro h. apply bind_ok in h. destruct h as [a [_ h]]. apply bind_ok in h. destruct h as [b [_ h]].
  destruct (sub_ok _ _ _ h) as [c [kc [-> _]]]. apply carries_setv. exact kc.
Qed.
Lemma start_nz n : n <> 0 -> forall x, omul (Ok (VNum n)) (Ok (VNum PI)) = Ok x -> value x <> 0.
Proof. intros h x e. injection e as <-. cbn. pose proof PI_RGT_0. apply Rmult_integral_contrapositive_currified; lra. Qed.

Lemma pipe_gen k a b l r2 r1 q : same_unit a b -> value k <> 0 -> value l <> 0 -> pipe_heat k a b l r2 r1 = Ok q ->
  (value q = 0 <-> value a = value b) /\
  (exists q', pipe_heat k b a l r2 r1 = Ok q' /\ value q' = - value q /\ same_unit q q') /\
  (forall k' c, same_unit k k' -> value k' = c * value k -> exists q', pipe_heat k' a b l r2 r1 = Ok q' /\ value q' = c * value q /\ same_unit q q').
Proof.
  intros hs hk hl h. change (pipe_heat k a b l r2 r1) with (lin (omul (omul (omul (Ok (VNum (-2))) (Ok (VNum PI))) (Ok l)) (Ok k)) b a (math_log (odiv (Ok r2) (Ok r1)))) in h.
  destruct (lin_parts _ _ _ _ _ h) as [xv [yv [ex ey]]].
  assert (h2 : forall x, omul (omul (Ok (VNum (-2))) (Ok (VNum PI))) (Ok l) = Ok x -> value x <> 0).
  { intros x e. apply (omul_nz _ _ _ e); [apply start_nz; lra|exact hl]. }
  assert (hx : value xv <> 0) by (apply (omul_nz _ _ _ ex); assumption).
  destruct (lin_props _ _ _ _ _ _ _ ex ey (log_carries _ _ ey) hx hs h) as [p1 [p2 p3]].
  split; [exact p1|]. split; [exact p2|]. intros k' c hk' hc. destruct (p3 c) as [q' [e r]]. exists q'. split; [|exact r].
  rewrite <- (omul_scale _ _ _ _ _ ex h2 hk hk' hc) in e. exact e.
Qed.
Lemma pipe_mass_gen D r2 r1 b a l q : same_unit a b -> value D <> 0 -> value l <> 0 -> pipe_mass_transfer D r2 r1 b a l = Ok q ->
  (value q = 0 <-> value a = value b) /\ (exists q', pipe_mass_transfer D r2 r1 a b l = Ok q' /\ value q' = - value q /\ same_unit q q').
Proof. intros hs hk hl h. destruct (pipe_gen D a b l r2 r1 q hs hk hl h) as [p1 [p2 _]]. split; [exact p1|exact p2]. Qed.
Lemma sphere_gen k a b ro ri q : same_unit a b -> value ro <> 0 -> value ri <> 0 -> sphere_heat k a b ro ri = Ok q ->
  (value q = 0 <-> value a = value b) /\ (exists q', sphere_heat k b a ro ri = Ok q' /\ value q' = - value q /\ same_unit q q').
Proof.
  intros hs h2 h1 h. change (sphere_heat k a b ro ri) with (lin (omul (omul (omul (Ok (VNum (-4))) (Ok (VNum PI))) (Ok ri)) (Ok ro)) b a (osub (Ok ro) (Ok ri))) in h.
  destruct (lin_parts _ _ _ _ _ h) as [xv [yv [ex ey]]].
  assert (hx : value xv <> 0). { apply (omul_nz _ _ _ ex); [|assumption]. intros x e. apply (omul_nz _ _ _ e); [apply start_nz; lra|assumption]. }
  destruct (lin_props _ _ _ _ _ _ _ ex ey (osub_carries _ _ _ ey) hx hs h) as [p1 [p2 _]]. split; [exact p1|exact p2].
Qed.
Lemma sphere_mass_gen D ro ri b a q : same_unit a b -> value D <> 0 -> value ro <> 0 -> value ri <> 0 -> sphere_mass_transfer D ro ri b a = Ok q ->
  (value q = 0 <-> value a = value b) /\ (exists q', sphere_mass_transfer D ro ri a b = Ok q' /\ value q' = - value q /\ same_unit q q').
Proof.
  intros hs hD h2 h1 h. change (sphere_mass_transfer D ro ri b a) with (lin (omul (omul (omul (omul (Ok (VNum (-4))) (Ok (VNum PI))) (Ok ri)) (Ok ro)) (Ok D)) b a (osub (Ok ro) (Ok ri))) in h.
  destruct (lin_parts _ _ _ _ _ h) as [xv [yv [ex ey]]].
  assert (hx : value xv <> 0).
  { apply (omul_nz _ _ _ ex); [|assumption]. intros x e. apply (omul_nz _ _ _ e); [|assumption]. intros x' e'. apply (omul_nz _ _ _ e'); [apply start_nz; lra|assumption]. }
  destruct (lin_props _ _ _ _ _ _ _ ex ey (osub_carries _ _ _ ey) hx hs h) as [p1 [p2 _]]. split; [exact p1|exact p2].
Qed.
Lemma planar_mass_gen D A b a d q : same_unit a b -> value D <> 0 -> value A <> 0 -> value d <> 0 -> planar_mass_transfer D A b a d = Ok q ->
  (value q = 0 <-> value a = value b) /\ (exists q', planar_mass_transfer D A a b d = Ok q' /\ value q' = - value q /\ same_unit q q').
Proof.
  intros hs hD hA hd h. change (planar_mass_transfer D A b a d) with (lin (omul (oneg (Ok D)) (Ok A)) b a (Ok d)) in h.
  destruct (lin_parts _ _ _ _ _ h) as [xv [yv [ex ey]]].
  assert (hx : value xv <> 0). { apply (omul_nz _ _ _ ex); [|assumption]. intros x e. apply (oneg_nz _ _ e). assumption. }
  assert (hy : carries yv) by (injection ey as <-; apply nz_carries; exact hd).
  destruct (lin_props _ _ _ _ _ _ _ ex ey hy hx hs h) as [p1 [p2 _]]. split; [exact p1|exact p2].
Qed.
Lemma planar_flux_gen D b a d q : same_unit a b -> value D <> 0 -> value d <> 0 -> planar_mass_flux D b a d = Ok q ->
  (value q = 0 <-> value a = value b) /\ (exists q', planar_mass_flux D a b d = Ok q' /\ value q' = - value q /\ same_unit q q').
Proof.
  intros hs hD hd h. change (planar_mass_flux D b a d) with (lin (oneg (Ok D)) b a (Ok d)) in h.
  destruct (lin_parts _ _ _ _ _ h) as [xv [yv [ex ey]]].
  assert (hx : value xv <> 0) by (apply (oneg_nz _ _ ex); assumption).
  assert (hy : carries yv) by (injection ey as <-; apply nz_carries; exact hd).
  destruct (lin_props _ _ _ _ _ _ _ ex ey hy hx hs h) as [p1 [p2 _]]. split; [exact p1|exact p2].
Qed.
