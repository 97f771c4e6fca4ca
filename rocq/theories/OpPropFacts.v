(** * OpPropFacts: the operator properties assembled, and witnesses against the false ones *)
From Coq Require Import String Ascii List ZArith QArith Qcanon Bool Reals Qreals Lia Lra.
From Verif Require Import Py Num UnitsData UnitsStruct Units NumFacts Spec SpecFacts StructFacts CombineFacts CancelFacts
  ExpandFacts PrefixFacts SimplifyFacts OpFacts NamesFacts ClosureFacts FactorFacts LawFacts WitnessFacts PropFacts.
Import ListNotations.
Local Open Scope string_scope.
Local Open Scope list_scope.
Local Open Scope R_scope.

Lemma adm_nonempty_scale (a : multi_obj R) (u : unit_obj R) :
  0 < msize pscale (mtop a) (mbot a) * Rpower (pscale (un u)) (QcR (ev (ue u))).
Proof. apply Rmult_lt_0_compat; [apply msize_pos; exact pscale_pos|apply exp_pos]. Qed.

Lemma mul_mu_exact (a : multi_obj R) (u : unit_obj R) : adm_multi a -> admissible (un u) ->
  exists r, py_mul (VMulti a) (VUnit u) = Ok r /\ py_mul (VUnit u) (VMulti a) = Ok r /\
  forall w x y, coherent w -> qty w (VMulti a) = Some x -> qty w (VUnit u) = Some y ->
    qty w r = Some (x * y / (msize pscale (mtop a) (mbot a) * Rpower (pscale (un u)) (QcR (ev (ue u))))).
Proof.
  intros h1 h2. destruct (mul_mu_scale a u h1 h2) as [r [e1 [e2 h]]]. exists r. split; [exact e1|]. split; [exact e2|].
  intros w x y hw hx hy. destruct (mul_mu_factor a u h1 h2) as [r' [f [e' [_ [hf h']]]]]. rewrite e1 in e'. injection e' as <-.
  specialize (h' w x y hw hx hy). rewrite h'. f_equal.
  pose proof (h w x y _ _ hw hx hy eq_refl h') as k. pose proof (adm_nonempty_scale a u). apply Rmult_eq_reg_l with
    (msize pscale (mtop a) (mbot a) * Rpower (pscale (un u)) (QcR (ev (ue u)))); [|lra].
  rewrite k. set (s := msize _ _ _ * _) in *. field. lra.
Qed.

Lemma div_um_exact (a : multi_obj R) (u : unit_obj R) : adm_multi a -> admissible (un u) -> mv a <> 0 ->
  exists r, py_div (VUnit u) (VMulti a) = Ok r /\
  forall w x y, coherent w -> qty w (VUnit u) = Some x -> qty w (VMulti a) = Some y ->
    qty w r = Some (x / y / (Rpower (pscale (un u)) (QcR (ev (ue u))) / msize pscale (mtop a) (mbot a))).
Proof.
  intros h1 h2 h3. destruct (div_um_scale a u h1 h2 h3) as [r [e1 h]]. exists r. split; [exact e1|].
  intros w x y hw hx hy. destruct (div_um_factor a u h1 h2 h3) as [r' [f [e' [hf h']]]]. rewrite e1 in e'. injection e' as <-.
  specialize (h' w x y hw hx hy). rewrite h'. f_equal.
  pose proof (h w x y _ _ hw hx hy eq_refl h') as k.
  assert (0 < Rpower (pscale (un u)) (QcR (ev (ue u))) / msize pscale (mtop a) (mbot a)) as p.
  { apply Rdiv_lt_0_compat; [apply exp_pos|apply msize_pos; exact pscale_pos]. }
  apply Rmult_eq_reg_l with (Rpower (pscale (un u)) (QcR (ev (ue u))) / msize pscale (mtop a) (mbot a)); [|lra].
  rewrite k. generalize (x / y). intro q. set (s := Rpower _ _ / _) in *. field. lra.
Qed.

(** ** Witnesses *)
Definition one_i := eint 1.
Lemma QcR1 e : ev e = qc 1 -> QcR (ev e) = 1.
Proof. intros ->. unfold QcR. cbn. unfold Q2R. cbn. lra. Qed.
Lemma QcR2 e : ev e = qc 2 -> QcR (ev e) = 2.
Proof. intros ->. unfold QcR. cbn. unfold Q2R. cbn. lra. Qed.
Lemma si_val n q : dict_get si_table n = Some q -> si n = Q2R q.
Proof. intro h. unfold si. rewrite h. reflexivity. Qed.
Ltac sival n := let q := eval vm_compute in (dict_get si_table n) in
  match q with Some ?x => replace (si n) with (Q2R x) by (symmetry; apply si_val; vm_compute; reflexivity) end.

Definition kmps : multi_obj R := MO MMulti 5 [BU "km" ex1] [BU "s" ex1].
Definition sec1 : unit_obj R := UO Time 1 "s" (eint 1).
Lemma kmps_mul : exists r, py_mul (VMulti kmps) (VUnit sec1) = Ok r /\ qty si r = Some 5 /\
  qty si (VMulti kmps) = Some 5000 /\ qty si (VUnit sec1) = Some 1.
Proof.
  assert (e : reduce (T := R) true true [BU "km" ex1; BU "s" (eint 1)] [BU "s" ex1] =
     Ok ([BU "m" ex1], nil, msize pscale [BU "km" ex1; BU "s" (eint 1)] [BU "s" ex1])).
  { eapply reduce_eval; [vm_compute; reflexivity|vm_compute; reflexivity|].
    vm_compute. repeat (f_equal; try (apply Qc_is_canon; reflexivity)). }
  exists (VUnit (UO UUnit (1 * 5) "m" ex1)). split; [|split; [|split]].
  - cbn [py_mul multi_mul kmps sec1 mtop mbot un ue app]. rewrite e. reflexivity.
  - cbn [qty uv un ue]. rewrite ev_ex1, Rpower1 by apply si_pos. f_equal. sival "m". unfold Q2R. cbn. lra.
  - cbn [qty kmps mv mtop mbot]. unfold msize. cbn [usize bname bexp]. rewrite ev_ex1, !Rpower1 by apply si_pos.
    sival "km". sival "s". unfold Q2R. cbn. f_equal; try field.
  - cbn [qty sec1 uv un ue]. rewrite (QcR1 (eint 1)) by reflexivity. rewrite Rpower1 by apply si_pos.
    sival "s". unfold Q2R. cbn. f_equal; try field.
Qed.
Lemma built_simple c v n e : has_char "^" n = false ->
  (match c with Pressure | Current | Amount | Force => False | _ => True end) -> built (UO c v n e).
Proof.
  intros h1 h2. exists v, n, e. cbn [uc]. destruct c; try contradiction; cbn; try reflexivity; unfold split_caret; rewrite h1; reflexivity.
Qed.
Lemma kmps_adm : adm_multi kmps /\ admissible (un sec1).
Proof. split; [split; adm|]. apply admissible_b_ok. reflexivity. Qed.
Lemma mul_mu_refuted : exists (a : multi_obj R) (u : unit_obj R) r x y, adm_multi a /\ admissible (un u) /\ built u /\
  py_mul (VMulti a) (VUnit u) = Ok r /\ qty si (VMulti a) = Some x /\ qty si (VUnit u) = Some y /\ qty si r <> Some (x * y).
Proof.
  exists kmps, sec1. destruct kmps_mul as [r [e [q [q1 q2]]]]. exists r, 5000, 1. destruct kmps_adm. repeat (split; [assumption|]).
  split; [apply built_simple; [reflexivity|exact I]|].
  repeat (split; [assumption|]). rewrite q. intro k. injection k as k. lra.
Qed.

Definition kmps1 : multi_obj R := MO MMulti 1 [BU "km" ex1] [BU "s" ex1].
Definition met1 : unit_obj R := UO Length 1 "m" (eint 1).
Lemma div_um_refuted : exists (a : multi_obj R) (u : unit_obj R) r x y, adm_multi a /\ admissible (un u) /\ built u /\ mv a <> 0 /\
  py_div (VUnit u) (VMulti a) = Ok r /\ qty si (VUnit u) = Some x /\ qty si (VMulti a) = Some y /\ qty si r <> Some (x / y).
Proof.
  assert (e : reduce (T := R) true false [BU "s" ex1; BU "m" (eint 1)] [BU "km" ex1] =
     Ok ([BU "s" ex1], nil, msize pscale [BU "s" ex1; BU "m" (eint 1)] [BU "km" ex1])).
  { eapply reduce_eval; [vm_compute; reflexivity|vm_compute; reflexivity|].
    vm_compute. repeat (f_equal; try (apply Qc_is_canon; reflexivity)). }
  exists kmps1, met1, (VUnit (UO UUnit (1 / 1) "s" ex1)), 1, 1000.
  split; [split; adm|]. split; [apply admissible_b_ok; reflexivity|].
  split; [apply built_simple; [reflexivity|exact I]|]. split; [cbn; lra|]. split; [|split; [|split]].
  - cbn [py_div unit_div multi_rdiv kmps1 met1 mtop mbot un ue app]. rewrite e. cbn [bind uv mv]. unfold pydiv. cbn [neqb nq Rnum].
    rewrite (proj2 (Reqb_false 1 _)) by (unfold Q2R; cbn; lra). reflexivity.
  - cbn [qty met1 uv un ue]. rewrite (QcR1 (eint 1)) by reflexivity. rewrite Rpower1 by apply si_pos.
    sival "m". unfold Q2R. cbn. f_equal; try field.
  - cbn [qty kmps1 mv mtop mbot]. unfold msize. cbn [usize bname bexp]. rewrite ev_ex1, !Rpower1 by apply si_pos.
    sival "km". sival "s". unfold Q2R. cbn. f_equal; try field.
  - cbn [qty uv un ue]. rewrite ev_ex1, Rpower1 by apply si_pos. sival "s". unfold Q2R. cbn. intro k. injection k as k. lra.
Qed.

Lemma Rpow2 w n e : positive w -> ev e = qc 2 -> Rpower (w n) (QcR (ev e)) = w n * w n.
Proof. exact (Rpower_exp2 w n e). Qed.
Definition ft2 : unit_obj R := UO Length 2 "ft" (eint 2).
Lemma ft2_qty : qty si (VUnit ft2) = Some (2 * (3048 / 10000 * (3048 / 10000))).
Proof.
  cbn [qty ft2 uv un ue]. rewrite Rpow2 by (exact si_pos || reflexivity). sival "ft". unfold Q2R. cbn. f_equal; try field.
Qed.
Definition min3 : unit_obj R := UO Time 3 "min" (eint 1).
Lemma mul_uu_refuted : exists (a b : unit_obj R) r x y, built a /\ built b /\
  py_mul (VUnit a) (VUnit b) = Ok r /\ qty si (VUnit a) = Some x /\ qty si (VUnit b) = Some y /\ qty si r <> Some (x * y).
Proof.
  exists ft2, min3, (VMulti (MO MMulti (2 * 3) [BU "ft" (eint 1); BU "min" (eint 1)] nil)). eexists. exists 180.
  split; [apply built_simple; [reflexivity|exact I]|]. split; [apply built_simple; [reflexivity|exact I]|].
  split; [reflexivity|]. split; [exact ft2_qty|]. split.
  - cbn [qty min3 uv un ue]. rewrite (QcR1 (eint 1)) by reflexivity. rewrite Rpower1 by apply si_pos.
    sival "min". unfold Q2R. cbn. f_equal; try field.
  - cbn [qty mv mtop mbot]. unfold msize. cbn [usize bname bexp]. rewrite (QcR1 (eint 1)) by reflexivity. rewrite !Rpower1 by apply si_pos.
    sival "min". sival "ft". unfold Q2R. cbn. intro k. injection k as k. lra.
Qed.
Lemma scale_u_refuted : exists (a : unit_obj R) x r y, built a /\
  py_mul (VUnit a) (VNum x) = Ok r /\ py_mul (VNum x) (VUnit a) = Ok r /\ qty si (VUnit a) = Some y /\ qty si r <> Some (x * y).
Proof.
  exists ft2, 3, (VUnit (UO Length (2 * 3) "ft" (eint 1))). eexists.
  split; [apply built_simple; [reflexivity|exact I]|]. split; [reflexivity|]. split; [reflexivity|]. split; [exact ft2_qty|].
  cbn [qty uv un ue]. rewrite (QcR1 (eint 1)) by reflexivity. rewrite !Rpower1 by apply si_pos.
  sival "ft". unfold Q2R. cbn. intro k. injection k as k. lra.
Qed.

(** ** Scaling *)
Lemma scale_partial a x : is_quantity a -> (forall u, a = VUnit u -> ev (ue u) = qc 1) ->
  exists r, py_mul a (VNum x) = Ok r /\ py_mul (VNum x) a = Ok r /\ shape r = shape a /\
    forall w y, qty w a = Some y -> qty w r = Some (y * x).
Proof.
  intros g h2. destruct a as [v| | |u|m]; cbn in g; try contradiction.
  - destruct (scale_u u x g) as [e1 e2]. specialize (h2 u eq_refl). eexists. split; [eassumption|]. split; [eassumption|].
    split; [cbn [shape un ue]; rewrite h2; reflexivity|].
    intros w y k. cbn [qty uv un ue] in *. injection k as <-. rewrite h2. f_equal. replace (ev (eint 1)) with (qc 1) by reflexivity. ring.
  - destruct (scale_m m x) as [e1 [e2 _]]. eexists. split; [eassumption|]. split; [rewrite e2, (Rmult_comm x); reflexivity|].
    split; [reflexivity|]. intros w y k. cbn [qty mv mtop mbot] in *. injection k as <-; f_equal; ring.
Qed.
Lemma scale_div a x : is_quantity a ->
  (x <> 0 -> exists r, py_div a (VNum x) = Ok r /\ shape r = shape a /\ forall w y, qty w a = Some y -> qty w r = Some (y / x)) /\
  (x = 0 -> py_div a (VNum x) = Raise EZeroDivisionError).
Proof.
  intros g. destruct a as [v| | |u|m]; cbn in g; try contradiction; split; intro h.
  - eexists. split; [exact (scale_u_div u x g h)|]. split; [reflexivity|]. intros w y k. cbn [qty uv un ue] in *. injection k as <-. f_equal. unfold Rdiv. ring.
  - subst. cbn [py_div unit_div]. rewrite pydiv_0. reflexivity.
  - eexists. split; [exact (proj2 (proj2 (scale_m m x)) h)|]. split; [reflexivity|]. intros w y k. cbn [qty mv mtop mbot] in *. injection k as <-. f_equal. unfold Rdiv. ring.
  - subst. cbn [py_div multi_div]. rewrite pydiv_0. reflexivity.
Qed.

(** ** Powers *)
Lemma pow_all (a : pyval R) k : is_quantity a -> (match a with VUnit u => 0 < uv u | VMulti m => 0 < mv m | _ => False end) ->
  exists r, py_pow a k = Ok r /\ forall w x, coherent w -> qty w a = Some x -> qty w r = Some (Rpower x (QcR (ev k))).
Proof.
  intros g h. destruct a as [v| | |u|m]; cbn in g; try contradiction.
  - destruct (pow_u u k g h) as [r [e [_ [_ q]]]]. exists (VUnit r). split; [exact e|]. intros w x hw. apply q. exact (co_pos _ hw).
  - destruct (pow_m m k h) as [r [e q]]. exists r. auto.
Qed.
Lemma pow_int_all (a : pyval R) t z : is_quantity a ->
  (match a with VUnit u => uv u <> 0 \/ (0 <= z)%Z | VMulti m => mv m <> 0 \/ (0 <= z)%Z | _ => False end) ->
  exists r, py_pow a (Ex t (qc z)) = Ok r /\ forall w x, coherent w -> qty w a = Some x -> qty w r = Some (powerRZ x z).
Proof.
  intros g h. destruct a as [v| | |u|m]; cbn in g; try contradiction.
  - destruct (pow_u_int u z t g h) as [r [e [_ [_ q]]]]. exists (VUnit r). split; [exact e|]. intros w x hw. apply q. exact (co_pos _ hw).
  - destruct (pow_m_int m z t h) as [r [e q]]. exists r. auto.
Qed.

(** ** Negation *)
Lemma neg_all a : is_quantity a -> exists r, py_neg a = Ok r /\ shape r = shape a /\
  (match a, r with VUnit u, VUnit u' => uc u' = uc u | VMulti m, VMulti m' => mc m' = mc m | _, _ => False end) /\
  forall w x, qty w a = Some x -> qty w r = Some (- x).
Proof.
  intros g. destruct a as [v| | |u|m]; cbn in g; try contradiction.
  - eexists. split; [cbn [py_neg unit_neg]; unfold unit_neg, vunit; rewrite (rebuild u _ _ g); reflexivity|]. split; [reflexivity|].
    split; [reflexivity|]. intros w x k. cbn [qty uv un ue nopp Rnum] in *. injection k as <-. f_equal. ring.
  - eexists. split; [reflexivity|]. split; [reflexivity|]. split; [reflexivity|]. intros w x k. unfold multi_neg in *; cbn [qty mv mtop mbot nopp Rnum] in *. injection k as <-. f_equal. ring.
Qed.
Lemma rdiv_num_zero (a : multi_obj R) x : mv a = 0 -> py_div (VNum x) (VMulti a) = Raise EZeroDivisionError.
Proof. intro h. cbn [py_div multi_rdiv]. rewrite h, pydiv_0. reflexivity. Qed.
Lemma rdiv_unit (a : unit_obj R) x : py_div (VNum x) (VUnit a) = Raise ETypeError.
Proof. reflexivity. Qed.

(** ** Sums: when they succeed *)
Lemma addsub_complete a b : is_quantity a -> is_quantity b ->
  (match a, b with
   | VUnit u, VUnit w => uc u = uc w \/ uc u = UUnit
   | VMulti m, VMulti m' => mc m = mc m'
   | _, _ => False
   end) -> shape a = shape b -> (exists r, py_add a b = Ok r) /\ (exists r, py_sub a b = Ok r).
Proof.
  intros ga gb hc hs. destruct a as [v| | |u|m]; cbn in ga; try contradiction; destruct b as [v'| | |u'|m']; cbn in gb; try contradiction; try (cbn in hc; contradiction).
  - cbn [shape] in hs. injection hs as hn he.
    split; cbn [py_add py_sub].
    + destruct (addsub_u nadd u u' ga) as [[_ [_ [_ e]]]|[h _]]; [eauto|]. exfalso. apply h. intuition.
    + destruct (addsub_u nsub u u' ga) as [[_ [_ [_ e]]]|[h _]]; [eauto|]. exfalso. apply h. intuition.
  - cbn [shape] in hs. injection hs as h1 h2. apply half_eqb_same in h1, h2.
    split; cbn [py_add py_sub multi_add multi_sub]; rewrite h1, h2; cbn [andb]; [|eauto].
    rewrite (proj2 (mcls_eqb_eq _ _) hc). eauto.
Qed.
Lemma add_num (a : unit_obj R) x : built a ->
  py_add (VUnit a) (VNum x) = Ok (VUnit (UO (uc a) (uv a + x) (un a) (eint 1))) /\
  py_sub (VUnit a) (VNum x) = Ok (VUnit (UO (uc a) (uv a - x) (un a) (eint 1))).
Proof. intro g. split; cbn [py_add py_sub unit_addsub]; unfold vunit; rewrite (rebuild a _ _ g); reflexivity. Qed.
Lemma add_num_partial (a : unit_obj R) x : built a -> ev (ue a) = qc 1 ->
  exists r s, py_add (VUnit a) (VNum x) = Ok (VUnit r) /\ py_sub (VUnit a) (VNum x) = Ok (VUnit s) /\
    shape (VUnit r) = shape (VUnit a) /\ shape (VUnit s) = shape (VUnit a) /\ uc r = uc a /\ uc s = uc a /\
    uv r = uv a + x /\ uv s = uv a - x.
Proof.
  intros g h. destruct (add_num a x g) as [e1 e2]. eexists. eexists. split; [exact e1|]. split; [exact e2|]. cbn. rewrite h. auto 10.
Qed.
Lemma add_num_refuted : exists (a : unit_obj R) x r, built a /\ py_add (VUnit a) (VNum x) = Ok r /\ shape r <> shape (VUnit a).
Proof.
  exists ft2, 1, (VUnit (UO Length (2 + 1) "ft" (eint 1))). split; [apply built_simple; [reflexivity|exact I]|]. split; [reflexivity|].
  cbn. intro k. injection k as k. discriminate.
Qed.

(** ** Equality *)
Lemma trans_refuted : exists a b c : pyval R, is_quantity a /\ is_quantity b /\ is_quantity c /\
  py_eq a b = true /\ py_eq b c = true /\ py_eq a c = false.
Proof.
  exists (VUnit (UO Length 2 "m" (eint 1))), (VUnit (UO UUnit 2 "m" (eint 1))), (VUnit (UO Area 2 "m" (eint 1))).
  split; [apply built_simple; [reflexivity|exact I]|]. split; [apply built_unit|].
  split; [apply built_simple; [reflexivity|exact I]|].
  split; [apply unit_eq_char; cbn; auto|]. split; [apply unit_eq_char; cbn; auto|].
  match goal with |- ?e = false => destruct e eqn:h end; [|reflexivity]. apply unit_eq_char in h. cbn in h.
  destruct h as [[h|[h|h]] _]; discriminate.
Qed.
Lemma trans_typed (a b c : unit_obj R) : uc b <> UUnit \/ uc a = UUnit \/ uc c = UUnit ->
  py_eq (VUnit a) (VUnit b) = true -> py_eq (VUnit b) (VUnit c) = true -> py_eq (VUnit a) (VUnit c) = true.
Proof.
  intros h h1 h2. apply unit_eq_char in h1, h2. apply unit_eq_char. destruct h1 as [c1 [v1 [n1 e1]]], h2 as [c2 [v2 [n2 e2]]].
  split; [|split; [congruence|split; congruence]].
  destruct c1 as [c1|[c1|c1]], c2 as [c2|[c2|c2]], h as [h|[h|h]]; auto; try (left; congruence); try (right; left; congruence); try (right; right; congruence).
Qed.
Lemma set_sub_trans a b c : set_sub a b = true -> set_sub b c = true -> set_sub a c = true.
Proof.
  unfold set_sub. rewrite !forallb_forall. intros h1 h2 x hx. specialize (h1 x hx). apply existsb_exists in h1. destruct h1 as [y [hy e1]].
  specialize (h2 y hy). apply existsb_exists in h2. destruct h2 as [z [hz e2]]. apply existsb_exists. exists z. split; [exact hz|].
  unfold bu_seteq, bu_eqb, eeqb, e_is in *. rewrite !andb_true_iff, !orb_true_iff, !Qceqb_eq, !String.eqb_eq, !Bool.eqb_true_iff in *.
  destruct e1 as [[n1 v1] t1], e2 as [[n2 v2] t2]. split; [split; congruence|].
  destruct t1 as [t1|t1]; [left; assumption|]. destruct t2 as [t2|t2]; [left; congruence|right; congruence].
Qed.
Lemma trans_multi (a b c : multi_obj R) :
  py_eq (VMulti a) (VMulti b) = true -> py_eq (VMulti b) (VMulti c) = true -> py_eq (VMulti a) (VMulti c) = true.
Proof.
  intros h1 h2. apply multi_eq_char in h1, h2. apply multi_eq_char. destruct h1 as [c1 [v1 [n1 e1]]], h2 as [c2 [v2 [n2 e2]]].
  unfold set_eqb in *. rewrite !andb_true_iff in *. split; [congruence|]. split; [congruence|].
  split; split; eapply set_sub_trans; intuition eassumption.
Qed.
Lemma multi_eq_refuted : exists (a b : multi_obj R) x y, adm_multi a /\ adm_multi b /\ py_eq (VMulti a) (VMulti b) = true /\
  qty si (VMulti a) = Some x /\ qty si (VMulti b) = Some y /\ x <> y.
Proof.
  exists (MO MMulti 1 [BU "ft" ex1; BU "ft" ex1] nil), (MO MMulti 1 [BU "ft" ex1] nil). eexists. eexists.
  split; [split; adm|]. split; [split; adm|]. split.
  { apply multi_eq_char. cbn. auto. }
  split; [reflexivity|]. split; [reflexivity|]. cbn [mv mtop mbot]. unfold msize. cbn [usize bname bexp].
  rewrite ev_ex1, !Rpower1 by apply si_pos. sival "ft". unfold Q2R. cbn. intro k. lra.
Qed.

(** ** Foreign operands *)
Lemma foreign_partial (a : pyval R) : is_quantity a -> forall o, o = VObj \/ o = VNone ->
  py_add a o = Raise ETypeError /\ py_sub a o = Raise ETypeError /\ py_add o a = Raise ETypeError /\ py_sub o a = Raise ETypeError /\
  py_mul o a = Raise ETypeError /\ py_div o a = Raise ETypeError /\
  (forall u, a = VUnit u -> py_mul a o = Raise ETypeError /\ py_div a o = Raise ETypeError) /\
  (forall m, a = VMulti m -> py_mul a o = Ok VNone /\ py_div a o = Ok VNone).
Proof.
  intros g o ho. destruct a as [v| | |u|m]; cbn in g; try contradiction;
  destruct ho as [-> | ->]; repeat (split; [reflexivity|]); split; intros ? h; try discriminate; split; reflexivity.
Qed.
Lemma foreign_refuted : exists (m : multi_obj R), py_mul (VMulti m) VObj = Ok VNone /\ py_div (VMulti m) VObj = Ok VNone.
Proof. exists kmps. split; reflexivity. Qed.

(** ** Totality on good operands *)
Lemma mul_total a b : good a -> good b -> exists r, py_mul a b = Ok r.
Proof.
  intros ga gb. destruct a as [x| | |u|m]; cbn in ga; try contradiction; destruct b as [y| | |u'|m']; cbn in gb; try contradiction.
  - eexists; reflexivity.
  - eexists. exact (proj2 (scale_u u' x (proj2 gb))).
  - eexists; reflexivity.
  - eexists. exact (proj1 (scale_u u y (proj2 ga))).
  - cbn [py_mul unit_mul]. destruct (_ && _); [|eauto]. unfold vunit. rewrite (rebuild u _ _ (proj2 ga)). cbn. eauto.
  - destruct (mul_mu_exact m' u gb (proj1 ga)) as [r [_ [e _]]]. eauto.
  - eexists; reflexivity.
  - destruct (mul_mu_exact m u' ga (proj1 gb)) as [r [e _]]. eauto.
  - destruct (mul_mm m m' ga gb) as [r [e _]]. eauto.
Qed.
Lemma div_mu_zero (a : multi_obj R) (u : unit_obj R) : adm_multi a -> admissible (un u) -> uv u = 0 ->
  py_div (VMulti a) (VUnit u) = Raise EZeroDivisionError.
Proof.
  intros [h1 h2] h3 h. cbn [py_div multi_div].
  destruct (reduce_ok false true (mtop a) (mbot a ++ [BU (un u) (ue u)]) h1) as [t [b [f [e _]]]].
  { apply adm_app; [assumption|]. apply adm_one. assumption. }
  rewrite e. cbn [bind]. rewrite h, pydiv_0. reflexivity.
Qed.
Lemma div_um_zero (a : multi_obj R) (u : unit_obj R) : adm_multi a -> admissible (un u) -> mv a = 0 ->
  py_div (VUnit u) (VMulti a) = Raise EZeroDivisionError.
Proof.
  intros [h1 h2] h3 h. cbn [py_div unit_div multi_rdiv].
  destruct (reduce_ok true false (mbot a ++ [BU (un u) (ue u)]) (mtop a)) as [t [b [f [e _]]]].
  { apply adm_app; [assumption|]. apply adm_one. assumption. }
  { assumption. }
  rewrite e. cbn [bind]. rewrite h, pydiv_0. reflexivity.
Qed.
Lemma div_total a b : good a -> good b ->
  (value b = 0 /\ ((forall x, a <> VNum x) \/ (forall u, b <> VUnit u)) -> py_div a b = Raise EZeroDivisionError) /\
  (value b <> 0 -> (forall x, a <> VNum x) \/ (forall u, b <> VUnit u) -> exists r, py_div a b = Ok r) /\
  (forall x u, a = VNum x -> b = VUnit u -> py_div a b = Raise ETypeError).
Proof.
  intros ga gb. split; [|split].
  - intros [hz hn]. destruct a as [x| | |u|m]; cbn in ga; try contradiction; destruct b as [y| | |u'|m']; cbn in gb; try contradiction; cbn [value] in hz.
    + subst. cbn [py_div]. rewrite pydiv_0. reflexivity.
    + exfalso. destruct hn as [hn|hn]; [exact (hn x eq_refl)|exact (hn u' eq_refl)].
    + apply rdiv_num_zero. assumption.
    + subst. cbn [py_div unit_div]. rewrite pydiv_0. reflexivity.
    + apply div_uu_zero. assumption.
    + apply div_um_zero; [assumption|exact (proj1 ga)|assumption].
    + subst. cbn [py_div multi_div]. rewrite pydiv_0. reflexivity.
    + apply div_mu_zero; [assumption|exact (proj1 gb)|assumption].
    + apply div_mm_zero; assumption.
  - intros hz hn. destruct a as [x| | |u|m]; cbn in ga; try contradiction; destruct b as [y| | |u'|m']; cbn in gb; try contradiction; cbn [value] in hz.
    + cbn [py_div]. rewrite pydiv_ok by assumption. eexists; reflexivity.
    + exfalso. destruct hn as [hn|hn]; [exact (hn x eq_refl)|exact (hn u' eq_refl)].
    + destruct (rdiv_num m' x hz) as [r [e _]]. eauto.
    + eexists. exact (scale_u_div u y (proj2 ga) hz).
    + destruct (div_uu u u' (proj2 ga) hz) as [r [e _]]. eauto.
    + destruct (div_um_exact m' u gb (proj1 ga) hz) as [r [e _]]. eauto.
    + eexists. exact (proj2 (proj2 (scale_m m y)) hz).
    + destruct (div_mu m u' ga (proj1 gb) hz) as [r [e _]]. eauto.
    + destruct (div_mm m m' ga gb hz) as [r [e _]]. eauto.
  - intros x u -> ->. reflexivity.
Qed.
