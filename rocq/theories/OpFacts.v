(** * OpFacts: the arithmetic operators denote arithmetic of quantities *)
From Coq Require Import String Ascii List ZArith QArith Qcanon Bool Reals Qreals Lia Lra.
From Verif Require Import Py Num UnitsData UnitsStruct Units NumFacts Spec SpecFacts StructFacts CancelFacts
  ExpandFacts PrefixFacts SimplifyFacts.
Import ListNotations.
Local Open Scope string_scope.
Local Open Scope list_scope.
Local Open Scope R_scope.

Lemma lin_msize w t b t' b' : coherent w ->
  (forall phi, compat phi -> lin phi t - lin phi b = lin phi t' - lin phi b') -> msize w t b = msize w t' b'.
Proof. intros hc h. rewrite !msize_lin. f_equal. apply h. apply coherent_compat. exact hc. Qed.

Lemma reduce_tail_ok ct cb top bot : exists t b, reduce_tail ct cb top bot = Ok (t, b) /\
  (forall phi, compat phi -> lin phi t - lin phi b = lin phi top - lin phi bot).
Proof.
  unfold reduce_tail. destruct (deconstruct_ok false top bot) as [t1 [b1 [e1 [l1 _]]]]. rewrite e1. cbn [bind].
  set (t2 := if ct then combine_units t1 else t1). set (b2 := if cb then combine_units b1 else b1).
  destruct (cancel_units t2 b2) as [t3 b3] eqn:c.
  destruct (simplify_ok t3 b3) as [t4 [b4 [e4 l4]]]. exists t4, b4. split; [exact e4|].
  intros phi hc. rewrite l4 by exact hc. rewrite (cancel_lin phi _ _ _ _ c).
  assert (a : lin phi t2 = lin phi t1) by (unfold t2; destruct ct; [apply combine_lin|reflexivity]).
  assert (b : lin phi b2 = lin phi b1) by (unfold b2; destruct cb; [apply combine_lin|reflexivity]).
  rewrite a, b. apply l1. exact hc.
Qed.

Lemma reduce_ok ct cb top bot : adm_half top -> adm_half bot ->
  exists t b f, reduce ct cb top bot = Ok (t, b, f) /\ 0 < f /\
  (forall w, coherent w -> f * msize w t b = msize w top bot).
Proof.
  intros h1 h2. unfold reduce.
  destruct (prefixes_ok si top bot coherent_si h1 h2) as [t1 [b1 [f [e [hf _]]]]]. rewrite e. cbn [bind].
  destruct (reduce_tail_ok ct cb t1 b1) as [t [b [e' l]]]. rewrite e'. cbn [bind fst snd].
  exists t, b, f. split; [reflexivity|]. split; [exact hf|]. intros w hw.
  rewrite (lin_msize w t b t1 b1 hw l).
  destruct (prefixes_ok w top bot hw h1 h2) as [t1' [b1' [f' [e2 [_ [hm _]]]]]].
  rewrite e in e2. injection e2 as <- <- <-. exact hm.
Qed.

Lemma qty_shape_div w v t b : positive w -> qty w (shape_div v t b) = Some (v * msize w t b).
Proof.
  intro hp. unfold shape_div. destruct t as [|x [|y t]]; destruct b as [|z [|z' b]]; cbn [qty plain uv un ue mv mtop mbot]; try reflexivity.
  - rewrite msize_nil. f_equal. lra.
  - unfold msize. cbn [usize eopp ev]. rewrite QcR_opp. f_equal. rewrite Rpower_Ropp.
    pose proof (Rpower_pos (w (bname z)) (QcR (ev (bexp z)))). field. lra.
  - unfold msize. cbn [usize]. f_equal. field.
Qed.
Lemma qty_shape_mul w v t b : positive w -> qty w (shape_mul v t b) = Some (v * msize w t b).
Proof.
  intro hp. unfold shape_mul. destruct t as [|x [|y t]]; destruct b as [|z b]; cbn [qty plain uv un ue mv mtop mbot]; try reflexivity.
  - rewrite msize_nil. f_equal. lra.
  - unfold msize. cbn [usize]. f_equal. field.
Qed.

Lemma adm_app l1 l2 : adm_half l1 -> adm_half l2 -> adm_half (l1 ++ l2).
Proof. intros h1 h2 x hx. apply in_app_or in hx. destruct hx; auto. Qed.
Lemma adm_one n e : admissible n -> adm_half [BU n e].
Proof. intros h x [<-|[]]. exact h. Qed.

(** ** Products and quotients involving MultiUnits *)
Lemma mul_mm (a b : multi_obj R) : adm_multi a -> adm_multi b ->
  exists r, py_mul (VMulti a) (VMulti b) = Ok (VMulti r) /\ mc r = MMulti /\
  forall w x y, coherent w -> qty w (VMulti a) = Some x -> qty w (VMulti b) = Some y ->
    qty w (VMulti r) = Some (x * y).
Proof.
  intros [ha1 ha2] [hb1 hb2]. cbn [py_mul multi_mul].
  destruct (reduce_ok true true (mtop a ++ mtop b) (mbot a ++ mbot b)) as [t [bt [f [e [hf hm]]]]];
    [apply adm_app; auto|apply adm_app; auto|]. rewrite e. cbn [bind].
  eexists. split; [reflexivity|]. split; [reflexivity|]. intros w x y hw hx hy.
  cbn [qty mv mtop mbot] in *. injection hx as <-. injection hy as <-. f_equal. cbn [nmul Rnum].
  specialize (hm w hw). rewrite msize_app in hm.
  replace (mv a * mv b * f * msize w t bt) with (mv a * mv b * (f * msize w t bt)) by ring. rewrite hm. ring.
Qed.

Lemma div_mm (a b : multi_obj R) : adm_multi a -> adm_multi b -> mv b <> 0 ->
  exists r, py_div (VMulti a) (VMulti b) = Ok r /\
  forall w x y, coherent w -> qty w (VMulti a) = Some x -> qty w (VMulti b) = Some y -> qty w r = Some (x / y).
Proof.
  intros [ha1 ha2] [hb1 hb2] hb. cbn [py_div multi_div].
  destruct (half_eqb (mtop a) (mtop b) && half_eqb (mbot a) (mbot b)) eqn:eq.
  - rewrite pydiv_ok by exact hb. cbn [rmap]. eexists. split; [reflexivity|].
    intros w x y hw hx hy. cbn [qty] in *. injection hx as <-. injection hy as <-. f_equal.
    apply andb_true_iff in eq. destruct eq as [q1 q2].
    assert (s : msize w (mtop a) (mbot a) = msize w (mtop b) (mbot b)).
    { rewrite !msize_lin. rewrite (half_eqb_lin _ _ _ q1), (half_eqb_lin _ _ _ q2). reflexivity. }
    rewrite s. pose proof (msize_pos w (mtop b) (mbot b)). field. lra.
  - destruct (reduce_ok true true (mtop a ++ mbot b) (mbot a ++ mtop b)) as [t [bt [f [e [hf hm]]]]];
      [apply adm_app; auto|apply adm_app; auto|]. rewrite e. cbn [bind]. rewrite pydiv_ok by exact hb. cbn [bind].
    eexists. split; [reflexivity|]. intros w x y hw hx hy.
    cbn [qty] in hx, hy. injection hx as <-. injection hy as <-.
    rewrite qty_shape_div by apply (co_pos w hw). f_equal. cbn [nmul Rnum].
    specialize (hm w hw). rewrite msize_app, (msize_swap w (mtop b) (mbot b)) in hm.
    pose proof (msize_pos w (mtop b) (mbot b)).
    replace (mv a / mv b * f * msize w t bt) with (mv a / mv b * (f * msize w t bt)) by ring. rewrite hm. field. lra.
Qed.

Lemma div_mm_zero (a b : multi_obj R) : adm_multi a -> adm_multi b -> mv b = 0 ->
  py_div (VMulti a) (VMulti b) = Raise EZeroDivisionError.
Proof.
  intros [ha1 ha2] [hb1 hb2] hb. cbn [py_div multi_div]. rewrite hb, pydiv_0.
  destruct (half_eqb (mtop a) (mtop b) && half_eqb (mbot a) (mbot b)); [reflexivity|].
  destruct (reduce_ok true true (mtop a ++ mbot b) (mbot a ++ mtop b)) as [t [bt [f [e _]]]];
    [apply adm_app; auto|apply adm_app; auto|]. rewrite e. reflexivity.
Qed.

Lemma div_mu (a : multi_obj R) (u : unit_obj R) : adm_multi a -> admissible (un u) -> uv u <> 0 ->
  exists r, py_div (VMulti a) (VUnit u) = Ok r /\
  forall w x y, coherent w -> qty w (VMulti a) = Some x -> qty w (VUnit u) = Some y -> qty w r = Some (x / y).
Proof.
  intros [ha1 ha2] hu h0. cbn [py_div multi_div].
  destruct (reduce_ok false true (mtop a) (mbot a ++ [BU (un u) (ue u)])) as [t [bt [f [e [hf hm]]]]];
    [auto|apply adm_app; auto using adm_one|]. rewrite e. cbn [bind]. rewrite pydiv_ok by exact h0. cbn [bind].
  eexists. split; [reflexivity|]. intros w x y hw hx hy.
  cbn [qty] in hx, hy. injection hx as <-. injection hy as <-.
  rewrite qty_shape_div by apply (co_pos w hw). f_equal. cbn [nmul Rnum].
  specialize (hm w hw).
  assert (s : msize w (mtop a) (mbot a ++ [BU (un u) (ue u)]) = msize w (mtop a) (mbot a) / Rpower (w (un u)) (QcR (ev (ue u)))).
  { unfold msize. rewrite usize_app. cbn [usize bname bexp]. pose proof (usize_pos w (mbot a)).
    pose proof (Rpower_pos (w (un u)) (QcR (ev (ue u)))). field. lra. }
  rewrite s in hm. pose proof (Rpower_pos (w (un u)) (QcR (ev (ue u)))).
  replace (mv a / uv u * f * msize w t bt) with (mv a / uv u * (f * msize w t bt)) by ring. rewrite hm. field. lra.
Qed.

(** MultiUnit * Unit: the prefix factor is lost, so the product is off by it. *)
Lemma mul_mu_factor (a : multi_obj R) (u : unit_obj R) : adm_multi a -> admissible (un u) ->
  exists r f, py_mul (VMulti a) (VUnit u) = Ok r /\ py_mul (VUnit u) (VMulti a) = Ok r /\ 0 < f /\
  forall w x y, coherent w -> qty w (VMulti a) = Some x -> qty w (VUnit u) = Some y -> qty w r = Some (x * y / f).
Proof.
  intros [ha1 ha2] hu. cbn [py_mul multi_mul unit_mul].
  destruct (reduce_ok true true (mtop a ++ [BU (un u) (ue u)]) (mbot a)) as [t [bt [f [e [hf hm]]]]];
    [apply adm_app; auto using adm_one|auto|]. rewrite e. cbn [bind].
  eexists. exists f. split; [reflexivity|]. split; [reflexivity|]. split; [exact hf|]. intros w x y hw hx hy.
  cbn [qty] in hx, hy. injection hx as <-. injection hy as <-.
  rewrite qty_shape_mul by apply (co_pos w hw). f_equal. cbn [nmul Rnum]. specialize (hm w hw).
  assert (s : msize w (mtop a ++ [BU (un u) (ue u)]) (mbot a) = msize w (mtop a) (mbot a) * Rpower (w (un u)) (QcR (ev (ue u)))).
  { unfold msize. rewrite usize_app. cbn [usize bname bexp]. pose proof (usize_pos w (mbot a)). field. lra. }
  rewrite s in hm.
  replace (mv a * msize w (mtop a) (mbot a) * (uv u * Rpower (w (un u)) (QcR (ev (ue u)))) / f)
    with (mv a * uv u * (msize w (mtop a) (mbot a) * Rpower (w (un u)) (QcR (ev (ue u)))) / f) by (field; lra).
  rewrite <- hm. field. lra.
Qed.

(** Without prefixes the factor is 1. *)
Lemma unprefixed_split x : unprefixed (bname x) -> split_prefix x = Ok (EmptyString, x).
Proof.
  destruct x as [n e]. cbn [bname]. intro h. unfold split_prefix. cbn [bname bexp].
  destruct (String.eqb n "kg") eqn:k; [apply String.eqb_eq in k; subst; reflexivity|].
  unfold get_prefix. destruct h as [[c ->]|[[c [r [-> hn]]]|h]].
  - reflexivity.
  - replace (mem_str (String c EmptyString) ["m"; "c"; "d"; "k"; "M"]) with false.
    + rewrite orb_true_r. reflexivity.
    + symmetry. apply not_true_iff_false. rewrite mem_str_In. intro h. apply hn. cbn in h. cbn.
      destruct h as [h|[h|[h|[h|[h|[]]]]]]; injection h as ->; tauto.
  - cbn in h. destruct h as [<-|[<-|[<-|[<-|[]]]]]; reflexivity || discriminate.
Qed.
Lemma unprefixed_mapM l : unprefixed_half l -> mapM split_prefix l = Ok (map (fun x => (EmptyString, x)) l).
Proof.
  induction l as [|x l IH]; intro h; [reflexivity|]. cbn [mapM map].
  rewrite unprefixed_split by (apply h; left; reflexivity). cbn [bind].
  rewrite IH by (intros y hy; apply h; right; exact hy). reflexivity.
Qed.
Lemma prefix_loop_none inv l (f : R) : prefix_loop inv (map (fun x : bu => (EmptyString, x)) l) f = Ok f.
Proof. induction l as [|x l IH]; [reflexivity|]. exact IH. Qed.
Lemma unprefixed_prefixes top bot : unprefixed_half top -> unprefixed_half bot ->
  deconstruct_unit_prefixes (T := R) top bot = Ok (top, bot, Q2R 1).
Proof.
  intros h1 h2. unfold deconstruct_unit_prefixes. rewrite !unprefixed_mapM by assumption. cbn [bind].
  rewrite prefix_loop_none. cbn [bind]. rewrite prefix_loop_none. cbn [bind].
  rewrite !map_map. cbn. rewrite !map_id. reflexivity.
Qed.

Lemma reduce_unprefixed ct cb top bot : unprefixed_half top -> unprefixed_half bot ->
  exists t b, reduce ct cb top bot = Ok (t, b, Q2R 1) /\
  (forall w, coherent w -> msize w t b = msize w top bot).
Proof.
  intros h1 h2. unfold reduce. rewrite unprefixed_prefixes by assumption. cbn [bind].
  destruct (reduce_tail_ok ct cb top bot) as [t [b [e l]]]. rewrite e. cbn [bind fst snd].
  exists t, b. split; [reflexivity|]. intros w hw. apply lin_msize; auto.
Qed.

Lemma unp_app l1 l2 : unprefixed_half l1 -> unprefixed_half l2 -> unprefixed_half (l1 ++ l2).
Proof. intros h1 h2 x hx. apply in_app_or in hx. destruct hx; auto. Qed.
Lemma unp_one n e : unprefixed n -> unprefixed_half [BU n e].
Proof. intros h x [<-|[]]. exact h. Qed.

Lemma mul_mu (a : multi_obj R) (u : unit_obj R) : unp_multi a -> unprefixed (un u) ->
  exists r, py_mul (VMulti a) (VUnit u) = Ok r /\ py_mul (VUnit u) (VMulti a) = Ok r /\
  forall w x y, coherent w -> qty w (VMulti a) = Some x -> qty w (VUnit u) = Some y -> qty w r = Some (x * y).
Proof.
  intros [ha1 ha2] hu. cbn [py_mul multi_mul unit_mul].
  destruct (reduce_unprefixed true true (mtop a ++ [BU (un u) (ue u)]) (mbot a)) as [t [bt [e hm]]];
    [apply unp_app; auto using unp_one|auto|]. rewrite e. cbn [bind].
  eexists. split; [reflexivity|]. split; [reflexivity|]. intros w x y hw hx hy.
  cbn [qty] in hx, hy. injection hx as <-. injection hy as <-.
  rewrite qty_shape_mul by apply (co_pos w hw). f_equal. cbn [nmul Rnum]. rewrite (hm w hw).
  unfold msize. rewrite usize_app. cbn [usize bname bexp]. pose proof (usize_pos w (mbot a)). field. lra.
Qed.

Lemma div_um (a : multi_obj R) (u : unit_obj R) : unp_multi a -> unprefixed (un u) -> mv a <> 0 ->
  exists r, py_div (VUnit u) (VMulti a) = Ok r /\
  forall w x y, coherent w -> qty w (VUnit u) = Some x -> qty w (VMulti a) = Some y -> qty w r = Some (x / y).
Proof.
  intros [ha1 ha2] hu h0. cbn [py_div unit_div multi_rdiv].
  destruct (reduce_unprefixed true false (mbot a ++ [BU (un u) (ue u)]) (mtop a)) as [t [bt [e hm]]];
    [apply unp_app; auto using unp_one|auto|]. rewrite e. cbn [bind]. rewrite pydiv_ok by exact h0. cbn [bind].
  eexists. split; [reflexivity|]. intros w x y hw hx hy.
  cbn [qty] in hx, hy. injection hx as <-. injection hy as <-.
  rewrite qty_shape_div by apply (co_pos w hw). f_equal. rewrite (hm w hw).
  unfold msize. rewrite usize_app. cbn [usize bname bexp]. pose proof (usize_pos w (mbot a)). pose proof (usize_pos w (mtop a)).
  field. repeat split; lra.
Qed.

Lemma div_um_factor (a : multi_obj R) (u : unit_obj R) : adm_multi a -> admissible (un u) -> mv a <> 0 ->
  exists r f, py_div (VUnit u) (VMulti a) = Ok r /\ 0 < f /\
  forall w x y, coherent w -> qty w (VUnit u) = Some x -> qty w (VMulti a) = Some y -> qty w r = Some (x / y / f).
Proof.
  intros [ha1 ha2] hu h0. cbn [py_div unit_div multi_rdiv].
  destruct (reduce_ok true false (mbot a ++ [BU (un u) (ue u)]) (mtop a)) as [t [bt [f [e [hf hm]]]]];
    [apply adm_app; auto using adm_one|auto|]. rewrite e. cbn [bind]. rewrite pydiv_ok by exact h0. cbn [bind].
  eexists. exists f. split; [reflexivity|]. split; [exact hf|]. intros w x y hw hx hy.
  cbn [qty] in hx, hy. injection hx as <-. injection hy as <-.
  rewrite qty_shape_div by apply (co_pos w hw). f_equal. specialize (hm w hw).
  assert (s : msize w (mbot a ++ [BU (un u) (ue u)]) (mtop a) = Rpower (w (un u)) (QcR (ev (ue u))) / msize w (mtop a) (mbot a)).
  { unfold msize. rewrite usize_app. cbn [usize bname bexp]. pose proof (usize_pos w (mbot a)). pose proof (usize_pos w (mtop a)).
    field. lra. }
  rewrite s in hm. pose proof (msize_pos w (mtop a) (mbot a)).
  replace (msize w t bt) with (Rpower (w (un u)) (QcR (ev (ue u))) / msize w (mtop a) (mbot a) / f).
  - field. repeat split; lra.
  - rewrite <- hm. field. lra.
Qed.

(** ** Powers *)
Lemma pow_m (a : multi_obj R) (k : expo) : 0 < mv a ->
  exists r, py_pow (VMulti a) k = Ok r /\
  forall w x, coherent w -> qty w (VMulti a) = Some x -> qty w r = Some (Rpower x (QcR (ev k))).
Proof.
  intro h0. cbn [py_pow multi_pow].  unfold multi_pow.
  destruct (reduce_tail_ok true true (scale_half k (mtop a)) (scale_half k (mbot a))) as [t [b [e l]]].
  rewrite e. cbn [bind npow Rnum]. rewrite Rpowq_pos by exact h0. cbn [bind fst snd].
  eexists. split; [reflexivity|]. intros w x hw hx. cbn [qty mv mtop mbot] in *. injection hx as <-. f_equal.
  rewrite (lin_msize w _ _ _ _ hw l). rewrite Rpower_mult_base by (auto using msize_pos). f_equal.
  rewrite !msize_lin. change (scale_half k (mtop a)) with (scaled k (mtop a)).
  change (scale_half k (mbot a)) with (scaled k (mbot a)). rewrite !lin_scaled.
  unfold Rpower. rewrite ln_exp. f_equal. ring.
Qed.

(** ** Units *)
Lemma split_on_no c s x : In x (split_on c s) -> has_char c x = false.
Proof.
  revert x. induction s as [|a s IH]; intros x h; cbn in h; [destruct h as [<-|[]]; reflexivity|].
  destruct (Ascii.eqb a c) eqn:e.
  - destruct h as [<-|h]; auto.
  - destruct (split_on c s) as [|y ys] eqn:r.
    + destruct h as [<-|[]]. cbn. rewrite e. reflexivity.
    + destruct h as [<-|h]; [|apply IH; right; exact h]. cbn. rewrite e. apply IH. left. reflexivity.
Qed.

Lemma rebuild (u : unit_obj R) (v : R) e : built u -> mk_unit (uc u) v (un u) e = Ok (UO (uc u) v (un u) e).
Proof.
  intros [v0 [n [e0 h]]]. unfold mk_unit in *. destruct u as [c x m k]. cbn [uc un] in *.
  assert (sc : forall c, split_caret c v0 n e0 = Ok (UO c x m k) -> split_caret c v m e = Ok (UO c v m e)).
  { intros c' hs. unfold split_caret in *. destruct (has_char "^" n) eqn:hc.
    - destruct (split_on "^" n) as [|y [|z [|z' l]]] eqn:sp; try discriminate.
      destruct (py_float z); cbn in hs; [|discriminate]. injection hs as _ <- _.
      rewrite (split_on_no "^" n y); [reflexivity|]. rewrite sp. left. reflexivity.
    - injection hs as _ <- _. rewrite hc. reflexivity. }
  destruct c; auto.
  - destruct (mem_str n PressureUnits) eqn:m1; [|discriminate]. injection h as _ <- _. rewrite m1. reflexivity.
  - destruct (mem_str n CurrentUnits) eqn:m1; [|discriminate]. injection h as _ <- _. rewrite m1. reflexivity.
  - destruct (mem_str n AmountUnits) eqn:m1; [|discriminate]. injection h as _ <- _. rewrite m1. reflexivity.
  - destruct (mem_str n ForceUnits) eqn:m1; [|discriminate]. injection h as _ <- _. rewrite m1. reflexivity.
Qed.

Lemma div_uu (a b : unit_obj R) : built a -> uv b <> 0 ->
  exists r, py_div (VUnit a) (VUnit b) = Ok r /\
  forall w x y, positive w -> qty w (VUnit a) = Some x -> qty w (VUnit b) = Some y -> qty w r = Some (x / y).
Proof.
  intros ha hb. cbn [py_div unit_div]. rewrite pydiv_ok by exact hb. cbn [bind].
  destruct (String.eqb (un a) (un b)) eqn:en.
  - apply String.eqb_eq in en. destruct (e_is (esub (ue a) (ue b)) 0) eqn:z.
    + eexists. split; [reflexivity|]. intros w x y hw hx hy. cbn [qty] in *. injection hx as <-. injection hy as <-.
      apply expo_z in z. cbn [esub ev] in z. rewrite QcR_minus in z.
      replace (QcR (ev (ue a))) with (QcR (ev (ue b))) by lra. rewrite en.
      pose proof (Rpower_pos (w (un b)) (QcR (ev (ue b)))). f_equal. field. lra.
    + rewrite rebuild by exact ha. cbn [vunit rmap]. eexists. split; [reflexivity|].
      intros w x y hw hx hy. cbn [qty uv un ue] in *. injection hx as <-. injection hy as <-. f_equal.
      cbn [esub ev]. rewrite QcR_minus. rewrite en. unfold Rminus. rewrite Rpower_plus, Rpower_Ropp.
      pose proof (Rpower_pos (w (un b)) (QcR (ev (ue b)))). field. lra.
  - eexists. split; [reflexivity|]. intros w x y hw hx hy. cbn [qty uv un ue mv mtop mbot] in *.
    injection hx as <-. injection hy as <-. f_equal. unfold msize. cbn [usize bname bexp].
    pose proof (Rpower_pos (w (un b)) (QcR (ev (ue b)))). field. lra.
Qed.
Lemma div_uu_zero (a b : unit_obj R) : uv b = 0 -> py_div (VUnit a) (VUnit b) = Raise EZeroDivisionError.
Proof. intro h. cbn [py_div unit_div]. rewrite h, pydiv_0. reflexivity. Qed.

(** Unit * Unit: exact when class and name agree or both exponents are 1. *)
Lemma mul_uu (a b : unit_obj R) : built a ->
  (uc a = uc b /\ un a = un b) \/ (ev (ue a) = qc 1 /\ ev (ue b) = qc 1) ->
  exists r, py_mul (VUnit a) (VUnit b) = Ok r /\
  forall w x y, positive w -> qty w (VUnit a) = Some x -> qty w (VUnit b) = Some y -> qty w r = Some (x * y).
Proof.
  intros ha hc. cbn [py_mul unit_mul].
  destruct (ucls_eqb (uc a) (uc b) && String.eqb (un a) (un b)) eqn:e.
  - apply andb_true_iff in e. destruct e as [_ e]. apply String.eqb_eq in e.
    rewrite rebuild by exact ha. cbn [vunit rmap]. eexists. split; [reflexivity|].
    intros w x y hw hx hy. cbn [qty uv un ue] in *. injection hx as <-. injection hy as <-. f_equal.
    cbn [eadd ev nmul Rnum]. rewrite QcR_plus, Rpower_plus, e. ring.
  - destruct hc as [[h1 h2]|[h1 h2]].
    { exfalso. rewrite h1, h2, String.eqb_refl in e. destruct (uc b); discriminate. }
    eexists. split; [reflexivity|]. intros w x y hw hx hy. cbn [qty uv un ue mv mtop mbot] in *.
    injection hx as <-. injection hy as <-. rewrite h1, h2. unfold msize. cbn [usize bname bexp nmul Rnum].
    rewrite !ev_eint, QcR_qc. f_equal. field.
Qed.

Lemma pow_u (a : unit_obj R) k : built a -> 0 < uv a ->
  exists r, py_pow (VUnit a) k = Ok (VUnit r) /\ uc r = uc a /\ un r = un a /\
  forall w x, positive w -> qty w (VUnit a) = Some x -> qty w (VUnit r) = Some (Rpower x (QcR (ev k))).
Proof.
  intros ha h0. cbn [py_pow unit_pow]. unfold unit_pow. cbn [npow Rnum]. rewrite Rpowq_pos by exact h0. cbn [bind].
  rewrite rebuild by exact ha. cbn [vunit rmap]. eexists. split; [reflexivity|]. split; [reflexivity|]. split; [reflexivity|].
  intros w x hw hx. cbn [qty uv un ue] in *. injection hx as <-. f_equal. cbn [emul ev].
  rewrite QcR_mult. rewrite Rpower_mult_base by (auto using Rpower_pos). f_equal. rewrite Rpower_mult. reflexivity.
Qed.

(** Scaling. *)
Lemma scale_m (a : multi_obj R) x :
  py_mul (VMulti a) (VNum x) = Ok (VMulti (MO MMulti (mv a * x) (mtop a) (mbot a))) /\
  py_mul (VNum x) (VMulti a) = Ok (VMulti (MO MMulti (x * mv a) (mtop a) (mbot a))) /\
  (x <> 0 -> py_div (VMulti a) (VNum x) = Ok (VMulti (MO MMulti (mv a / x) (mtop a) (mbot a)))).
Proof.
  split; [reflexivity|]. split; [reflexivity|]. intro h. cbn [py_div multi_div]. rewrite pydiv_ok by exact h. reflexivity.
Qed.
Lemma scale_u_div (a : unit_obj R) x : built a -> x <> 0 ->
  py_div (VUnit a) (VNum x) = Ok (VUnit (UO (uc a) (uv a / x) (un a) (ue a))).
Proof. intros ha h. cbn [py_div unit_div]. rewrite pydiv_ok by exact h. cbn [bind]. rewrite rebuild by exact ha. reflexivity. Qed.
Lemma scale_u (a : unit_obj R) x : built a ->
  py_mul (VUnit a) (VNum x) = Ok (VUnit (UO (uc a) (uv a * x) (un a) (eint 1))) /\
  py_mul (VNum x) (VUnit a) = Ok (VUnit (UO (uc a) (uv a * x) (un a) (eint 1))).
Proof. intro ha. cbn [py_mul unit_mul unit_rmul]. rewrite rebuild by exact ha. split; reflexivity. Qed.

Lemma rdiv_num (a : multi_obj R) x : mv a <> 0 ->
  exists r, py_div (VNum x) (VMulti a) = Ok r /\
  forall w y, positive w -> qty w (VMulti a) = Some y -> qty w r = Some (x / y).
Proof.
  intro h. cbn [py_div multi_rdiv]. rewrite pydiv_ok by exact h. cbn [bind]. eexists. split; [reflexivity|].
  intros w y hw hy. cbn [qty mv mtop mbot] in *. injection hy as <-. f_equal. rewrite msize_swap.
  pose proof (msize_pos w (mtop a) (mbot a)). field. lra.
Qed.
