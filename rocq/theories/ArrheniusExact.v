(** * ArrheniusExact: the Arrhenius relation for every order *)
From Coq Require Import String Ascii List ZArith QArith Qcanon Bool Reals Qreals Lia Lra.
From Verif Require Import Py Num UnitsData UnitsStruct Units NumFacts Spec SpecFacts StructFacts
  OpFacts ClosureFacts WitnessFacts OpPropFacts Solve Formulas FormulaSpec SemFacts SymFacts SweepFacts SimFacts ConductionFacts DimlessFacts SafetyFacts ArrheniusSpec.
Import ListNotations.
Local Open Scope string_scope.
Local Open Scope list_scope.
Local Open Scope R_scope.

Lemma constant_form x s v : constant x s = Ok v -> exists t b, v = VMulti (MO MMulti x t b) /\ forall y, constant y s = Ok (VMulti (MO MMulti y t b)).
Proof.
  unfold constant, mk_multi. destruct (String.eqb s EmptyString); [intro h; injection h as <-; eexists _, _; split; [reflexivity|intro; reflexivity]|].
  destruct (parse_units s) as [[t b]|]; [|discriminate]. cbn. intro h. injection h as <-. exists t, b. split; [reflexivity|intro; reflexivity].
Qed.
Lemma half_of_shape a b : map (fun x => (bname x, ev (bexp x))) a = map (fun x => (bname x, ev (bexp x))) b -> half_eqb a b = true.
Proof.
  revert b. induction a as [|x a IH]; intros [|y b] h; try discriminate; [reflexivity|]. cbn in h. injection h as h1 h2 h3. cbn. rewrite (IH b h3), andb_true_r.
  unfold bu_eqb, eeqb. rewrite h1, h2, String.eqb_refl. cbn. unfold Qc_eq_bool. destruct (Qc_eq_dec _ _); congruence.
Qed.
Definition f_exp := FFun exp (FDiv (FNeg (FVar 1)) (FMul (FVar 2) (FVar 3))).
Lemma ak_split v l : run (v :: l) f_ak = omul (Ok v) (run (v :: l) f_exp). Proof. reflexivity. Qed.
Definition f_exp' := FFun exp (FMul (FDiv (FNeg (FVar 1)) (FVar 2)) (FVar 3)).
Lemma aa_split v E_ R_ T k : run [v; E_; R_; T; k] f_aa = let* x := run [VNone; E_; R_; T] f_exp' in py_div k x. Proof. reflexivity. Qed.
Section Any.
  Variables (o : expo) (s e r th : string) (A Ea Rg T : R) (vA vE vR vT : val).
  Hypotheses (ho : arrhenius_units o = Ok s) (hi : In ("s^-1", e, r, th) arr_texts) (hA : constant A s = Ok vA)
    (hE : multi "ActivationEnergy" Ea e = Ok vE) (hR : constant Rg r = Ok vR) (hT : simple Temperature T th = Ok vT).
  (** The exponential does not depend on the order. *)
  Lemma any_exp : Rg <> 0 -> T <> 0 -> forall v0 l, run (v0 :: vE :: vR :: vT :: l) f_exp = Ok (VNum (exp (- Ea / (Rg * T)))).
  Proof.
    intros n1 n2 v0 l. destruct (constant 1 "s^-1") as [v1|] eqn:e1; [|discriminate].
    assert (ho1 : In (eint 1, "s^-1") orders) by (right; left; reflexivity).
    destruct (arr_k _ _ _ _ _ 1 Ea Rg T v1 vE vR vT ho1 hi e1 hE hR hT n1 n2) as [k [ek [vk _]]].
    rewrite (ak_run (eint 1) "s^-1" 1 v1) in ek by (try exact e1; apply order_units; exact ho1). unfold f_ak in ek. cbn [run f_exp] in ek |- *. change (var (v0 :: vE :: vR :: vT :: l) 1) with (@Ok val vE). change (var (v0 :: vE :: vR :: vT :: l) 2) with (@Ok val vR). change (var (v0 :: vE :: vR :: vT :: l) 3) with (@Ok val vT). cbn [var nth_error] in ek.
    destruct (constant_form _ _ _ e1) as [t [b [-> _]]].
    unfold omul at 1 in ek. cbn [bind] in ek.
    destruct (math1 exp _) as [x|] eqn:em in ek; [|discriminate ek]. rewrite em. cbn [bind] in ek. f_equal.
    unfold math1 in em. apply bind_ok in em. destruct em as [y [_ em]]. destruct y; try discriminate em. injection em as <-.
    cbn [py_mul multi_mul] in ek. injection ek as <-. cbn [value mv] in vk. f_equal. cbn [nmul Rnum] in vk. lra.
  Qed.
  Lemma any_k : Rg <> 0 -> T <> 0 -> exists t b, vA = VMulti (MO MMulti A t b) /\
    arrhenius o [AVal (VNum A); AVal vE; AVal vR; AVal vT] [] = Ok (VMulti (MO MMulti (A * exp (- Ea / (Rg * T))) t b)).
  Proof.
    intros n1 n2. destruct (constant_form _ _ _ hA) as [t [b [e1 _]]]. exists t, b. split; [exact e1|].
    rewrite (ak_run o s A vA) by assumption. rewrite ak_split, (any_exp n1 n2 vA []), e1. reflexivity.
  Qed.
  Lemma any_back : A <> 0 -> Rg <> 0 -> T <> 0 -> exists k E', arrhenius o [AVal (VNum A); AVal vE; AVal vR; AVal vT] [] = Ok k /\
    value k = A * exp (- Ea / (Rg * T)) /\ shape k = shape vA /\
    arrhenius o [AVal (VNum A); ANone; AVal vR; AVal vT; AVal k] [] = Ok E' /\ value E' = Ea /\ shape E' = shape vE.
  Proof.
    intros n0 n1 n2. destruct (any_k n1 n2) as [t [b [e1 ek]]]. destruct (constant 1 "s^-1") as [v1|] eqn:c1; [|discriminate].
    assert (ho1 : In (eint 1, "s^-1") orders) by (right; left; reflexivity).
    destruct (arr_back _ _ _ _ _ 1 Ea Rg T v1 vE vR vT ho1 hi c1 hE hR hT Rlt_0_1 n1 n2) as [k1 [E' [e3 [_ [_ [e4 [e5 e6]]]]]]].
    rewrite (ak_run (eint 1) "s^-1" 1 v1) in e3 by (try exact c1; apply order_units; exact ho1).
    rewrite (ae_run (eint 1) "s^-1" 1 v1 VNone) in e4 by (try exact c1; apply order_units; exact ho1).
    rewrite ak_split, (any_exp n1 n2 v1 []) in e3. destruct (constant_form _ _ _ c1) as [t1 [b1 [f1 _]]]. rewrite f1 in e3. cbn in e3. injection e3 as <-.
    exists (VMulti (MO MMulti (A * exp (- Ea / (Rg * T))) t b)), E'. split; [exact ek|]. split; [reflexivity|]. split; [rewrite e1; reflexivity|]. split; [|split; assumption].
    rewrite (ae_run o s A vA VNone) by assumption. rewrite <- e4. unfold f_ae. cbn [run var nth_error].
    assert (q : forall a t b, a <> 0 -> odiv (Ok (VMulti (MO MMulti (a * exp (- Ea / (Rg * T))) t b))) (Ok (VMulti (MO MMulti a t b))) = Ok (VNum (exp (- Ea / (Rg * T))))).
    { intros a t' b' na. unfold odiv. cbn [bind py_div multi_div mtop mbot mv]. rewrite !half_eqb_refl. cbn [andb]. rewrite pydiv_ok by exact na. cbn [rmap bind]. do 2 f_equal. field. exact na. }
    rewrite e1, f1, q by exact n0. rewrite (q 1 t1 b1) by lra. reflexivity.
  Qed.
  Lemma any_T k : 0 < A -> 0 < value k -> value k <> A -> Rg <> 0 -> Ea <> 0 -> shape k = shape vA -> kind k = KMulti ->
    arrhenius o [AVal (VNum A); AVal vE; AVal vR; ANone; AVal k] [] = Raise ETypeError.
  Proof.
    intros n0 n1 n2 n3 n4 hs hk. destruct (constant_form _ _ _ hA) as [t [b [e1 _]]]. destruct (constant 1 "s^-1") as [v1|] eqn:c1; [|discriminate].
    assert (ho1 : In (eint 1, "s^-1") orders) by (right; left; reflexivity). destruct (constant_form _ _ _ c1) as [t1 [b1 [f1 _]]].
    set (q := value k / A). assert (q0 : 0 < q) by (apply Rdiv_lt_0_compat; assumption).
    assert (q1 : q <> 1) by (intro z; apply n2; unfold q in z; apply (f_equal (fun y => y * A)) in z; field_simplify in z; lra).
    assert (c2 : multi "KineticConstant" q "s^-1" = Ok (VMulti (MO (MSub "KineticConstant") q t1 b1))).
    { clear - c1 f1. subst v1. unfold constant, multi, mk_multi in *. destruct (parse_units "s^-1") as [[t' b']|]; [|discriminate c1]. cbn in *. injection c1 as <- <-. reflexivity. }
    pose proof (arr_T _ _ _ _ _ 1 Ea Rg T v1 vE vR vT ho1 hi c1 hE hR hT q _ c2 Rlt_0_1 q0 q1 n3 n4) as h.
    rewrite (at_run (eint 1) "s^-1" 1 v1 _ _ VNone) in h by (try exact c1; apply order_units; exact ho1).
    rewrite (at_run o s A vA _ _ VNone) by assumption. rewrite <- h. unfold f_at. cbn [run var nth_error].
    destruct k as [| | | |m]; try discriminate hk. subst vA v1. cbn [value] in *.
    replace (odiv (Ok (VMulti m)) (Ok (VMulti (MO MMulti A t b)))) with (@Ok val (VNum q)).
    2:{ unfold odiv. cbn [bind py_div multi_div mtop mbot mv]. cbn in hs. injection hs as h1 h2. rewrite (half_of_shape _ _ h1), (half_of_shape _ _ h2). cbn [andb].
        rewrite pydiv_ok by lra. reflexivity. }
    replace (odiv (Ok (VMulti (MO (MSub "KineticConstant") q t1 b1))) (Ok (VMulti (MO MMulti 1 t1 b1)))) with (@Ok val (VNum q)).
    2:{ unfold odiv. cbn [bind py_div multi_div mtop mbot mv]. rewrite !half_eqb_refl. cbn [andb]. rewrite pydiv_ok by lra. cbn [rmap bind]. do 2 f_equal. field. }
    reflexivity.
  Qed.
  Lemma any_A k : Rg <> 0 -> arrhenius o [ANone; AVal vE; AVal vR; AVal vT; AVal k] [] = Raise ETypeError.
  Proof.
    intro n1. destruct (constant_form _ _ _ hA) as [t [b [e1 h0]]]. destruct (constant 1 "s^-1") as [v1|] eqn:c1; [|discriminate].
    assert (ho1 : In (eint 1, "s^-1") orders) by (right; left; reflexivity).
    destruct (multi "KineticConstant" 1 "s^-1") as [vk|] eqn:c2; [|discriminate].
    pose proof (arr_A _ _ _ _ _ Ea Rg T 1 vE vR vT vk ho1 hi hE hR hT c2 n1) as h.
    rewrite (aa_run (eint 1) "s^-1" v1) in h by (try exact c1; apply order_units; exact ho1).
    rewrite (aa_run o s _ vE vR vT k ho (h0 1)). rewrite aa_split in *. destruct (run [VNone; vE; vR; vT] f_exp') as [x|x] eqn:em; [|exact h]. exfalso.
    unfold f_exp' in em. cbn [run] in em. unfold math1 in em. apply bind_ok in em. destruct em as [y [_ em]]. destruct y; try discriminate em. injection em as <-. cbn [bind] in h.
    assert (km : exists m, vk = VMulti m) by (unfold multi in c2; destruct (mk_multi (MSub "KineticConstant") 1 "s^-1") as [m|]; cbn in c2; [|discriminate c2]; injection c2 as <-; eauto).
    destruct km as [m ->]. cbn [py_div multi_div] in h. rewrite pydiv_ok in h by (apply Rgt_not_eq, exp_pos). cbn in h. discriminate h.
  Qed.
End Any.

(** ** The units of A *)
Definition q_units (o : expo) : fq := QDiv (QPow (QVar 0) (esub (eint 1) o)) (QVar 1).
Definition units_q (o : expo) : option string :=
  match qrun [unr_m (qmulti "Concentration" 1 "mol/L"); unr_m (qsimple Time 1 "s")] (q_units o) with
  | Ok (VMulti m) => match get_unit_string (mtop m) (mbot m) with Ok s => Some s | Raise _ => None end
  | _ => None
  end.
Lemma units_ok o s : e_is o 0 = false -> e_is o 1 = false -> units_q o = Some s -> arrhenius_units o = Ok s.
Proof.
  intros h0 h1 h2. pose (a := unr_m (qmulti "Concentration" 1 "mol/L")). pose (t := unr_m (qsimple Time 1 "s")).
  unfold units_q in h2. fold a t in h2. destruct (qrun [a; t] (q_units o)) as [v|] eqn:hq; [|discriminate h2]. destruct v as [| | | |m]; try discriminate h2.
  destruct (get_unit_string (mtop m) (mbot m)) as [s'|] eqn:hs; [|discriminate h2]. injection h2 as ->.
  pose proof (qrun_ok (q_units o) [a; t] _ hq) as h.
  assert (ha : multi "Concentration" 1 "mol/L" = Ok (vmap a)) by (apply (multi_q _ _ 1); [q2|vm_compute; reflexivity]).
  assert (ht : simple Time 1 "s" = Ok (vmap t)) by (apply (simple_q _ _ 1); [q2|vm_compute; reflexivity]).
  unfold arrhenius_units. rewrite h0, h1. unfold multi in ha. rewrite ha. unfold simple in ht. rewrite ht. cbn [bind].
  cbn [map run to_fx q_units var nth_error] in h. unfold odiv in *. cbn [bind] in *.
  destruct (opow (Ok (vmap a)) (esub (eint 1) o)) as [c|]; [|discriminate h]. cbn [bind] in *. rewrite h. cbn [bind vmap]. exact hs.
Qed.
Lemma more_units o s : In (o, s) more_orders -> arrhenius_units o = Ok s /\ forall A, exists vA, constant A s = Ok vA.
Proof.
  intro h. split.
  - repeat (destruct h as [h|h]; [injection h as <- <-; apply units_ok; vm_compute; reflexivity|]). destruct h.
  - intro A. repeat (destruct h as [h|h]; [injection h as <- <-; eexists; reflexivity|]). destruct h.
Qed.
