(** * KindFacts: int and float exponents through the operators *)
From Coq Require Import String Ascii List ZArith QArith Qcanon Bool Reals Lia Lra.
From Verif Require Import Py Num UnitsData UnitsStruct Units FloatSpec KindSpec StructFacts PrefixFacts OpSpec OpPropFacts LawFacts OpExactFacts CombineFacts.
Import ListNotations.
Local Open Scope string_scope.
Local Open Scope list_scope.

(** ** The kinds *)
Lemma kind_float e : isf e = true -> float_kind e.
Proof. left. assumption. Qed.
Lemma kind_int k : float_kind (eint (100 * k)).
Proof. right. exists k. reflexivity. Qed.
Lemma qc_add a b : (qc a + qc b = qc (a + b))%Qc.
Proof. apply Qc_is_canon. unfold qc, Qcplus. cbn [Q2Qc this]. rewrite !Qred_correct. rewrite inject_Z_plus. reflexivity. Qed.
Lemma qc_opp a : (- qc a = qc (- a))%Qc.
Proof. apply Qc_is_canon. unfold qc, Qcopp. cbn [Q2Qc this]. rewrite !Qred_correct. rewrite inject_Z_opp. reflexivity. Qed.
Lemma qc_mul a b : (qc a * qc b = qc (a * b))%Qc.
Proof. apply Qc_is_canon. unfold qc, Qcmult. cbn [Q2Qc this]. rewrite !Qred_correct. rewrite inject_Z_mult. reflexivity. Qed.
Lemma kind_opp a : float_kind a -> float_kind (eopp a).
Proof. intros [h|[k h]]; [left; exact h|right]. exists (- k)%Z. cbn [eopp ev]. rewrite h, qc_opp. f_equal. lia. Qed.
Lemma kind_add a b : float_kind a -> float_kind b -> float_kind (eadd a b).
Proof.
  intros [h|[k h]] [h'|[k' h']]; try (left; cbn [eadd isf]; rewrite ?h, ?h', ?orb_true_r; reflexivity).
  right. exists (k + k')%Z. cbn [eadd ev]. rewrite h, h', qc_add. f_equal. lia.
Qed.
Lemma kind_sub a b : float_kind a -> float_kind b -> float_kind (esub a b).
Proof.
  intros [h|[k h]] [h'|[k' h']]; try (left; cbn [esub isf]; rewrite ?h, ?h', ?orb_true_r; reflexivity).
  right. exists (k - k')%Z. cbn [esub ev]. unfold Qcminus. rewrite h, h', qc_opp, qc_add. f_equal. lia.
Qed.
Lemma kind_mul_float a b : isf a = true -> float_kind (emul a b).
Proof. intro h. left. cbn [emul isf]. rewrite h. reflexivity. Qed.

Lemma kinds_app a b : float_kinds a -> float_kinds b -> float_kinds (a ++ b).
Proof. intros h k x hx. apply in_app_iff in hx. destruct hx; [apply h|apply k]; assumption. Qed.
Lemma kinds_split a b : float_kinds (a ++ b) -> float_kinds a /\ float_kinds b.
Proof. intro h. split; intros x hx; apply h, in_app_iff; tauto. Qed.
Lemma kinds_sub a b : (forall x, In x a -> In x b) -> float_kinds b -> float_kinds a.
Proof. intros h k x hx. apply k, h, hx. Qed.

(** ** Texts *)
Lemma mapM_in {A B} (f : A -> res B) l r : mapM f l = Ok r -> forall y, In y r -> exists x, f x = Ok y.
Proof.
  revert r. induction l as [|x l IH]; cbn; intros r h y hy; [injection h as <-; destruct hy|].
  destruct (f x) as [z|] eqn:e; cbn in h; [|discriminate]. destruct (mapM f l) as [r'|]; cbn in h; [|discriminate]. injection h as <-.
  destruct hy as [<-|hy]; [exists x; exact e|apply (IH r' eq_refl y hy)].
Qed.
Lemma parse_half_floats s l : parse_half s = Ok l -> floats_only l.
Proof.
  intros h x hx. destruct (mapM_in _ _ _ h x hx) as [t e]. unfold parse_factor in e. destruct (has_char "^" t); [|injection e as <-; reflexivity].
  destruct (split_on "^" t) as [|u [|d [|? ?]]]; try discriminate. destruct (py_float d); cbn in e; [|discriminate]. injection e as <-. reflexivity.
Qed.
Lemma parse_floats s t b : parse_units s = Ok (t, b) -> floats_only (t ++ b).
Proof.
  unfold parse_units. intro h.
  assert (g : forall s' l, (let* top := parse_half s' in Ok (top, l)) = Ok (t, b) -> floats_only l -> floats_only (t ++ b)).
  { intros s' l e k. destruct (parse_half s') as [tp|] eqn:e'; [|discriminate]. injection e as <- <-. intros x hx. apply in_app_iff in hx.
    destruct hx as [hx|hx]; [exact (parse_half_floats _ _ e' x hx)|exact (k x hx)]. }
  assert (z : floats_only nil) by (intros x []).
  destruct (split_on "/" s) as [|s1 [|s2 [|s3 l]]]; cbn in h; [eapply g; eassumption|eapply g; eassumption| |eapply g; eassumption].
  destruct (parse_half s2) as [bs|e] eqn:e2; cbn in h; [apply (g _ _ h), (parse_half_floats _ _ e2)|].
  destruct e; cbn in h; try discriminate. eapply g; eassumption.
Qed.
Lemma parse_kinds s t b : parse_units s = Ok (t, b) -> float_kinds t /\ float_kinds b.
Proof. intro h. apply kinds_split. intros x hx. left. exact (parse_floats _ _ _ h x hx). Qed.

(** ** The list algorithms *)
Lemma absorb_kinds u l u' l' : float_kind (bexp u) -> float_kinds l -> absorb u l = (u', l') -> float_kind (bexp u') /\ float_kinds l'.
Proof.
  revert u u' l'. induction l as [|v l IH]; cbn; intros u u' l' hu hl h; [injection h as <- <-; split; assumption|].
  assert (hv : float_kind (bexp v)) by (apply hl; left; reflexivity). assert (hl' : float_kinds l) by (intros x hx; apply hl; right; exact hx).
  destruct (_ && _).
  - destruct (absorb _ l) as [u1 l1] eqn:e. injection h as <- <-. destruct (IH (BU (bname u) (esub (bexp u) (bexp v))) _ _ (kind_sub _ _ hu hv) hl' e) as [k1 k2]. split; [exact k1|].
    intros x [<-|hx]; [apply (kind_int 0)|apply k2, hx].
  - destruct (absorb u l) as [u1 l1] eqn:e. injection h as <- <-. destruct (IH _ _ _ hu hl' e) as [k1 k2]. split; [exact k1|].
    intros x [<-|hx]; [exact hv|apply k2, hx].
Qed.
Lemma cancel_loop_kinds a b t u : float_kinds a -> float_kinds b -> cancel_loop a b = (t, u) -> float_kinds t /\ float_kinds u.
Proof.
  revert b t u. induction a as [|x a IH]; cbn; intros b t u ha hb h; [injection h as <- <-; split; [intros ? []|exact hb]|].
  destruct (absorb x b) as [x' b1] eqn:e1. destruct (cancel_loop a b1) as [a' b2] eqn:e2. injection h as <- <-.
  destruct (absorb_kinds _ _ _ _ (ha x (or_introl eq_refl)) hb e1) as [k1 k2].
  destruct (IH b1 a' b2 (fun y hy => ha y (or_intror hy)) k2 e2) as [k3 k4]. split; [|exact k4]. intros y [<-|hy]; [exact k1|apply k3, hy].
Qed.
Lemma cancel_kinds a b t u : float_kinds a -> float_kinds b -> cancel_units a b = (t, u) -> float_kinds t /\ float_kinds u.
Proof.
  unfold cancel_units. intros ha hb h. destruct (cancel_loop a b) as [t1 u1] eqn:e. injection h as <- <-.
  destruct (cancel_loop_kinds _ _ _ _ ha hb e) as [k1 k2]. split; [|apply kinds_app].
  - intros x hx. apply filter_In in hx. apply k1, hx.
  - intros x hx. apply in_map_iff in hx. destruct hx as (y & <- & hy). apply filter_In in hy. apply kind_opp, k1, hy.
  - intros x hx. apply filter_In in hx. apply k2, hx.
Qed.

Lemma set_nth_in {A} n (x : A) l y : In y (set_nth n x l) -> y = x \/ In y l.
Proof.
  revert n. induction l as [|z l IH]; intros [|n] h; cbn in *; try tauto.
  - destruct h as [<-|h]; tauto.
  - destruct h as [<-|h]; [tauto|]. destruct (IH n h); tauto.
Qed.
Lemma combine_step_kinds i j l : float_kinds l -> float_kinds (combine_step i j l).
Proof.
  intro h. unfold combine_step. destruct (nth_error l i) as [u1|] eqn:hi; [|exact h]. destruct (nth_error l j) as [u2|] eqn:hj; [|exact h].
  destruct (_ && _); [|exact h]. intros x hx. apply set_nth_in in hx. destruct hx as [->|hx]; [apply (kind_int 0)|].
  apply set_nth_in in hx. destruct hx as [->|hx]; [apply kind_add; apply h; eapply nth_error_In; eassumption|apply h, hx].
Qed.
Lemma combine_kinds l : float_kinds l -> float_kinds (combine_units l).
Proof.
  unfold combine_units. generalize (seq 0 (List.length l)) at 2 as outer. generalize (seq 0 (List.length l)) as inner. intros inner outer. revert l.
  induction outer as [|i outer IH]; intros l h; [exact h|]. cbn. apply IH. clear IH. revert l h.
  induction inner as [|j js IH]; intros l h; [exact h|]. cbn. apply IH, combine_step_kinds, h.
Qed.

Lemma expand_kinds d e p : expand d e = Ok p -> float_kinds (fst p) /\ float_kinds (snd p).
Proof.
  unfold expand. destruct (parse_units d) as [[t b]|] eqn:h; [|discriminate]. cbn. intro k. injection k as <-. cbn [fst snd].
  pose proof (parse_floats _ _ _ h) as f.
  split; intros x hx; apply in_map_iff in hx; destruct hx as (y & <- & hy); apply kind_mul_float, f, in_app_iff; tauto.
Qed.
Lemma expand_loop_kinds fuel pre rest other hit r : float_kinds pre -> float_kinds rest -> float_kinds other ->
  expand_loop fuel pre rest other hit = Ok r -> float_kinds (fst (fst r)) /\ float_kinds (snd (fst r)).
Proof.
  revert pre rest other hit. induction fuel as [|n IH]; intros pre rest other hit h1 h2 h3 h; destruct rest as [|x rest]; cbn [expand_loop] in h; try discriminate;
    try (injection h as <-; split; assumption).
  assert (hx : float_kinds [x]) by (intros y [<-|[]]; apply h2; left; reflexivity). assert (hr : float_kinds rest) by (intros y hy; apply h2; right; exact hy).
  destruct (dict_get _ _) as [d|].
  - destruct (expand d (bexp x)) as [p|] eqn:e; [|discriminate]. cbn [bind] in h. destruct (expand_kinds _ _ _ e) as [k1 k2].
    pose proof (kinds_app _ _ hr k1) as k. destruct (rest ++ fst p) as [|y ys]; [injection h as <-; split; [exact h1|apply kinds_app; assumption]|].
    apply (IH _ _ _ _) in h; [exact h|apply kinds_app; [exact h1|intros z [<-|[]]; apply k; left; reflexivity]|intros z hz; apply k; right; exact hz|apply kinds_app; assumption].
  - apply (IH _ _ _ _) in h; [exact h|apply kinds_app; assumption|exact hr|exact h3].
Qed.
Lemma deconstruct_kinds o a b t u : float_kinds a -> float_kinds b -> deconstruct_units o a b = Ok (t, u) -> float_kinds t /\ float_kinds u.
Proof.
  unfold deconstruct_units. generalize (S (weights a + weights b)) as fuel. intro fuel. revert a b.
  induction fuel as [|n IH]; cbn [deconstruct_loop]; intros a b ha hb h; [discriminate|].
  unfold deconstruct_round in h. destruct (expand_loop (weights a) nil a b false) as [[[t1 b1] h1]|] eqn:e1; [|discriminate]. cbn [bind] in h.
  destruct (expand_loop (weights b1) nil b1 t1 false) as [[[b2 t2] h2]|] eqn:e2; [|discriminate]. cbn [bind] in h.
  assert (z : float_kinds nil) by (intros x []).
  destruct (expand_loop_kinds _ _ _ _ _ _ z ha hb e1) as [k1 k2]. cbn [fst snd] in k1, k2.
  destruct (expand_loop_kinds _ _ _ _ _ _ z k2 k1 e2) as [k3 k4]. cbn [fst snd] in k3, k4.
  destruct (_ && _); [apply (IH _ _ k4 k3 h)|injection h as <- <-; split; assumption].
Qed.

Lemma matches_kinds d l n : float_kind n -> float_kind (count_matches d l n).
Proof.
  unfold count_matches. revert n. induction d as [|x d IH]; intros n h; [exact h|]. cbn. apply IH. clear IH. revert n h.
  induction l as [|y l IH]; intros n h; [exact h|]. cbn. apply IH. destruct (String.eqb _ _); [|exact h]. destruct (eltb _ _); [left; reflexivity|exact h].
Qed.
Lemma match_kinds t b kd u k : match_one t b kd = Ok (Some (u, k)) -> float_kind k.
Proof.
  unfold match_one. destruct (parse_units (snd kd)) as [[dt db]|]; [|discriminate]. cbn [bind]. destruct (_ && _); [|discriminate].
  intro h. injection h as _ <-. apply matches_kinds, matches_kinds, (kind_int 1).
Qed.
Lemma somes_in {A} (l : list (option A)) x : In x (somes l) -> In (Some x) l.
Proof. induction l as [|[y|] l IH]; cbn; [tauto| |]; intuition (subst; auto). Qed.
Lemma best_in l c : In (best l c) (c :: l).
Proof.
  revert c. induction l as [|x l IH]; intro c; [left; reflexivity|]. cbn [best]. destruct (IH (if eltb (snd c) (snd x) then x else c)) as [<-|h].
  - destruct (eltb _ _); [right; left|left]; reflexivity.
  - right. right. exact h.
Qed.
Lemma round_kinds a b t u : float_kinds a -> float_kinds b -> simplify_round a b = Ok (Some (t, u)) -> float_kinds t /\ float_kinds u.
Proof.
  unfold simplify_round. intros ha hb h. destruct (mapM (match_one a b) DECONSTRUCTABLE_UNITS) as [ms|] eqn:e; [|discriminate]. cbn [bind] in h.
  destruct (somes ms) as [|m ms'] eqn:es; [discriminate|]. destruct (Qc_eq_bool _ _); [discriminate|].
  destruct (best ms' m) as [n k] eqn:eb. assert (hk : float_kind k).
  { pose proof (best_in ms' m) as i. rewrite eb, <- es in i. apply somes_in in i. destruct (mapM_in _ _ _ e _ i) as [kd q]. exact (match_kinds _ _ _ _ _ q). }
  destruct (dict_get _ n) as [d|]; [|discriminate]. destruct (expand d k) as [p|] eqn:ep; [|discriminate]. cbn [bind] in h. destruct (expand_kinds _ _ _ ep) as [k1 k2].
  destruct (cancel_units (a ++ snd p) (b ++ fst p)) as [t1 b1] eqn:ec. injection h as <- <-.
  destruct (cancel_kinds _ _ _ _ (kinds_app _ _ ha k2) (kinds_app _ _ hb k1) ec) as [k3 k4]. split; [|exact k4].
  apply kinds_app; [exact k3|]. intros x [<-|[]]. exact hk.
Qed.
Lemma simplify_kinds a b t u : float_kinds a -> float_kinds b -> simplify_units a b = Ok (t, u) -> float_kinds t /\ float_kinds u.
Proof.
  unfold simplify_units. intros ha hb h. destruct (simplify_loop _ a b) as [[t1 b1]|] eqn:e; [|discriminate]. cbn [bind fst snd] in h.
  assert (k : float_kinds t1 /\ float_kinds b1).
  { revert e. generalize (simplify_fuel a b) as fuel. intro fuel. revert a b ha hb. induction fuel as [|n IH]; cbn [simplify_loop]; intros a b ha hb e; [discriminate|].
    destruct (simplify_round a b) as [[[t2 b2]|]|] eqn:er; [| |discriminate]; cbn [bind] in e; [|injection e as <- <-; split; assumption].
    destruct (round_kinds _ _ _ _ ha hb er) as [k1 k2]. exact (IH _ _ k1 k2 e). }
  destruct k as [k1 k2]. unfold do_common_simplifications in h. revert h. generalize UNIT_SIMPLIFICATIONS as l. induction l as [|[p q] l IH]; cbn [common_simpl]; intro h.
  - injection h as <- <-. split; assumption.
  - destruct (parse_units p); [|discriminate]. cbn [bind] in h. destruct (_ && _); [exact (parse_kinds _ _ _ h)|exact (IH h)].
Qed.
Lemma tail_kinds ct cb a b t u : float_kinds a -> float_kinds b -> reduce_tail ct cb a b = Ok (t, u) -> float_kinds t /\ float_kinds u.
Proof.
  unfold reduce_tail. intros ha hb h. destruct (deconstruct_units false a b) as [[t1 b1]|] eqn:e; [|discriminate]. cbn [bind] in h.
  destruct (deconstruct_kinds _ _ _ _ _ ha hb e) as [k1 k2]. destruct (cancel_units _ _) as [t2 b2] eqn:ec.
  assert (k3 : float_kinds (if ct then combine_units t1 else t1)) by (destruct ct; [apply combine_kinds|]; exact k1).
  assert (k4 : float_kinds (if cb then combine_units b1 else b1)) by (destruct cb; [apply combine_kinds|]; exact k2).
  destruct (cancel_kinds _ _ _ _ k3 k4 ec) as [k5 k6]. exact (simplify_kinds _ _ _ _ k5 k6 h).
Qed.
Lemma reduce_kinds ct cb a b r : float_kinds a -> float_kinds b -> reduce (T := R) ct cb a b = Ok r -> float_kinds (fst (fst r)) /\ float_kinds (snd (fst r)).
Proof.
  unfold reduce. intros ha hb h. destruct (deconstruct_unit_prefixes a b) as [[[t1 b1] f]|] eqn:e; [|discriminate]. cbn [bind] in h.
  destruct (prefixes_exps _ _ _ _ _ e) as [e1 e2].
  assert (g : forall l l', map bexp l = map bexp l' -> float_kinds l' -> float_kinds l).
  { intros l l' q k x hx. assert (i : In (bexp x) (map bexp l')) by (rewrite <- q; apply in_map, hx). apply in_map_iff in i. destruct i as (y & <- & hy). apply k, hy. }
  destruct (reduce_tail ct cb t1 b1) as [[t2 b2]|] eqn:er; [|discriminate]. injection h as <-. cbn [fst snd].
  exact (tail_kinds _ _ _ _ _ _ (g _ _ e1 ha) (g _ _ e2 hb) er).
Qed.

(** ** The operators *)
Lemma shape_div_kinds (v : R) t b : float_kinds t -> float_kinds b -> float_kinds (parts (shape_div v t b)).
Proof.
  intros ht hb. destruct t as [|x [|y t]], b as [|z [|w b]]; cbn [shape_div parts plain app]; try (intros ? []; fail); try (apply kinds_app; assumption); intros q [<-|[]]; cbn [un ue bexp].
  - apply kind_opp, hb. left. reflexivity.
  - apply ht. left. reflexivity.
Qed.
Lemma shape_mul_kinds (v : R) t b : float_kinds t -> float_kinds b -> float_kinds (parts (shape_mul v t b)).
Proof.
  intros ht hb. destruct t as [|x [|y t]], b as [|z b]; cbn [shape_mul parts plain app]; try (intros ? []; fail); try (apply kinds_app; assumption); intros q [<-|[]]; cbn [un ue bexp].
  apply ht. left. reflexivity.
Qed.
Lemma mul_kinds (a b r : pyval R) : multi_with_unit a b -> float_kinds (parts a) -> float_kinds (parts b) -> py_mul a b = Ok r -> float_kinds (parts r).
Proof.
  assert (mu : forall m u r, float_kinds (mtop m ++ mbot m) -> float_kinds [BU (un u) (ue u)] -> multi_mul (T := R) m (VUnit u) = Ok r -> float_kinds (parts r)).
  { clear. intros m u r hm hu h. cbn [multi_mul] in h. apply kinds_split in hm. destruct hm as [k1 k2]. destruct (reduce true true _ _) as [[[t b] f]|] eqn:e; [|discriminate].
    injection h as <-. destruct (reduce_kinds _ _ _ _ _ (kinds_app _ _ k1 hu) k2 e) as [k3 k4]. apply shape_mul_kinds; assumption. }
  intros w ha hb h. destruct a as [| | |u|m], b as [| | |u'|m']; destruct w; cbn [py_mul unit_mul parts] in *.
  - exact (mu _ _ _ hb ha h).
  - exact (mu _ _ _ ha hb h).
  - cbn [multi_mul] in h. apply kinds_split in ha. apply kinds_split in hb. destruct ha as [a1 a2], hb as [b1 b2].
    destruct (reduce true true _ _) as [[[t b] f]|] eqn:e; [|discriminate]. injection h as <-. cbn [parts mtop mbot].
    destruct (reduce_kinds _ _ _ _ _ (kinds_app _ _ a1 b1) (kinds_app _ _ a2 b2) e) as [k3 k4]. apply kinds_app; assumption.
Qed.
Lemma div_kinds (a b r : pyval R) : multi_with_unit a b -> float_kinds (parts a) -> float_kinds (parts b) -> py_div a b = Ok r -> float_kinds (parts r).
Proof.
  intros w ha hb h. destruct a as [| | |u|m], b as [| | |u'|m']; destruct w; cbn [py_div unit_div parts] in *.
  - cbn [multi_rdiv] in h. apply kinds_split in hb. destruct hb as [b1 b2]. destruct (reduce true false _ _) as [[[t b] f]|] eqn:e; [|discriminate]. cbn [bind] in h.
    destruct (pydiv _ _); [|discriminate]. injection h as <-. destruct (reduce_kinds _ _ _ _ _ (kinds_app _ _ b2 ha) b1 e) as [k3 k4]. apply shape_div_kinds; assumption.
  - cbn [multi_div] in h. apply kinds_split in ha. destruct ha as [a1 a2]. destruct (reduce false true _ _) as [[[t b] f]|] eqn:e; [|discriminate]. cbn [bind] in h.
    destruct (pydiv _ _); [|discriminate]. injection h as <-. destruct (reduce_kinds _ _ _ _ _ a1 (kinds_app _ _ a2 hb) e) as [k3 k4]. apply shape_div_kinds; assumption.
  - cbn [multi_div] in h. apply kinds_split in ha. apply kinds_split in hb. destruct ha as [a1 a2], hb as [b1 b2].
    destruct (_ && _); [unfold rmap in h; destruct (pydiv _ _); [injection h as <-; intros ? []|discriminate]|].
    destruct (reduce true true _ _) as [[[t b] f]|] eqn:e; [|discriminate]. cbn [bind] in h. destruct (pydiv _ _); [|discriminate]. injection h as <-.
    destruct (reduce_kinds _ _ _ _ _ (kinds_app _ _ a1 b2) (kinds_app _ _ a2 b1) e) as [k3 k4]. apply shape_div_kinds; assumption.
Qed.
Lemma scale_kinds k l : float_kinds l -> float_kind k \/ floats_only l -> float_kinds (scale_half k l).
Proof.
  intros hl hk x hx. apply in_map_iff in hx. destruct hx as (y & <- & hy). cbn [bexp]. destruct hk as [hk|hk]; [|apply kind_mul_float, hk, hy].
  destruct (hl y hy) as [h|[n h]]; [apply kind_mul_float, h|]. destruct hk as [hk|[n' hk]]; [left; cbn [emul isf]; rewrite hk; apply orb_true_r|].
  right. exists (n * 100 * n')%Z. cbn [emul ev]. rewrite h, hk, qc_mul. f_equal. lia.
Qed.

(** ** Equality *)
Lemma equal_floats (a b : multi_obj R) : floats_only (mtop a ++ mbot a) -> floats_only (mtop b ++ mbot b) ->
  (py_eq (VMulti a) (VMulti b) = true <-> mc a = mc b /\ mv a = mv b /\ same_units (mtop a) (mtop b) /\ same_units (mbot a) (mbot b)).
Proof.
  intros ha hb. rewrite multi_eq_exact.
  assert (g : forall l l', floats_only l -> floats_only l' -> (listed_in l l' /\ listed_in l' l <-> same_units l l')).
  { clear. intros l l' h h'. split.
    - intros [k k'] n e. split; intros (x & hx & hn & he).
      + destruct (k x hx) as (y & hy & q1 & q2 & _). exists y. split; [exact hy|]. split; congruence.
      + destruct (k' x hx) as (y & hy & q1 & q2 & _). exists y. split; [exact hy|]. split; congruence.
    - intro k. split; intros x hx.
      + destruct (proj1 (k (bname x) (ev (bexp x))) (ex_intro _ x (conj hx (conj eq_refl eq_refl)))) as (y & hy & hn & he). exists y. repeat split; auto. right. rewrite (h x hx), (h' y hy). reflexivity.
      + destruct (proj2 (k (bname x) (ev (bexp x))) (ex_intro _ x (conj hx (conj eq_refl eq_refl)))) as (y & hy & hn & he). exists y. repeat split; auto. right. rewrite (h y hy), (h' x hx). reflexivity. }
  assert (s : forall l l', floats_only (l ++ l') -> floats_only l /\ floats_only l') by (intros l l' h; split; intros x hx; apply h, in_app_iff; tauto).
  destruct (s _ _ ha) as [a1 a2], (s _ _ hb) as [b1 b2]. rewrite <- (g _ _ a1 b1), <- (g _ _ a2 b2). tauto.
Qed.

(** ** What becomes of the kinds when units are combined

    As in CombineFacts.v: the exponents added to another are then the int 0. *)
Definition int0_at (l : half) (k : nat) : Prop :=
  forall u, nth_error l k = Some u -> bexp u = eint 0.

Lemma combine_step_int0 i j l k :
  k <> i -> int0_at l k -> int0_at (combine_step i j l) k.
Proof.
  intros hk hz u. unfold combine_step.
  destruct (nth_error l i) as [u1|] eqn:hi; auto.
  destruct (nth_error l j) as [u2|] eqn:hj; auto.
  destruct (String.eqb (bname u1) (bname u2) && negb (Nat.eqb i j)) eqn:c; auto.
  destruct (Nat.eq_dec j k) as [->|hjk].
  - rewrite nth_set_nth_eq.
    + intro e. injection e as <-. reflexivity.
    + rewrite set_nth_length. apply nth_error_Some. congruence.
  - rewrite nth_set_nth_neq, nth_set_nth_neq by auto. auto.
Qed.
Lemma combine_step_int0s i j l u1 u2 :
  i <> j -> nth_error l i = Some u1 -> nth_error l j = Some u2 -> bname u1 = bname u2 ->
  int0_at (combine_step i j l) j.
Proof.
  intros hij hi hj hn u. unfold combine_step. rewrite hi, hj, hn, String.eqb_refl.
  rewrite (proj2 (Nat.eqb_neq i j) hij). cbn [negb andb].
  rewrite nth_set_nth_eq.
  - intro e. injection e as <-. reflexivity.
  - rewrite set_nth_length. apply nth_error_Some. congruence.
Qed.

Lemma inner_int0 i js l k : k <> i -> int0_at l k -> int0_at (inner_loop i js l) k.
Proof.
  intros hk. revert l. induction js as [|j js IH]; intros l hz; [exact hz|].
  cbn. fold (inner_loop i js (combine_step i j l)). apply IH, combine_step_int0; auto.
Qed.
Lemma inner_int0s ns i js l k n :
  map bname l = ns -> k <> i -> nth_error ns i = Some n -> nth_error ns k = Some n ->
  In k js -> int0_at (inner_loop i js l) k.
Proof.
  intros hl hk hi hkn hin. revert l hl. induction js as [|j js IH]; intros l hl; [destruct hin|].
  cbn. fold (inner_loop i js (combine_step i j l)).
  destruct (Nat.eq_dec j k) as [->|hjk].
  - apply inner_int0; auto. subst ns.
    destruct (nth_name i i l n hi) as [ui [hui hn1]]. destruct (nth_name i k l n hkn) as [u [hu hn2]].
    eapply combine_step_int0s; eauto. congruence.
  - apply IH; [destruct hin as [e|e]; [congruence|exact e]|].
    rewrite combine_step_names. exact hl.
Qed.

(** After the outer loop has handled the indices below [m], every index that is
    the last one below [m] with its name holds the whole exponent of that name. *)
Definition settled_int (ns : list string) (m : nat) (l : half) : Prop :=
  forall k n, (k < m)%nat -> nth_error ns k = Some n ->
    (forall k', (k < k' < m)%nat -> nth_error ns k' <> Some n) ->
    forall j, j <> k -> nth_error ns j = Some n -> int0_at l j.

Lemma settled_int_step ns m l :
  map bname l = ns -> (m < List.length ns)%nat -> settled_int ns m l ->
  settled_int ns (S m) (inner_loop m (seq 0 (List.length ns)) l).
Proof.
  intros hl hm hs k n hk hkn hlast j hjk hjn.
  destruct (nth_error ns m) as [nm|] eqn:hnm; [|apply nth_error_None in hnm; lia].
  destruct (Nat.eq_dec k m) as [->|hkm].
  - rewrite hnm in hkn. injection hkn as ->.
    eapply inner_int0s; eauto. apply in_seq. split; [lia|].
    cbn. apply nth_error_Some. congruence.
  - assert (n <> nm) by (intro; subst; apply (hlast m); [lia|exact hnm]).
    intros u hu. erewrite inner_other in hu; eauto. revert u hu.
    apply (hs k n); auto; [lia|]. intros k' hk'. apply hlast. lia.
Qed.

Lemma combine_settled_int l : settled_int (map bname l) (List.length l) (combine_units l).
Proof.
  unfold combine_units.
  assert (gen : forall m, (m <= List.length l)%nat ->
    settled_int (map bname l) m (fold_left (fun l0 i => inner_loop i (seq 0 (List.length l)) l0) (seq 0 m) l)
    /\ map bname (fold_left (fun l0 i => inner_loop i (seq 0 (List.length l)) l0) (seq 0 m) l) = map bname l).
  { induction m as [|m IH]; intro hm.
    - split; [|reflexivity]. intros k n hk. lia.
    - rewrite seq_S, fold_left_app. cbn [fold_left plus]. destruct IH as [IH1 IH2]; [lia|]. split.
      + pose proof (settled_int_step (map bname l) m _ IH2) as h.
        rewrite map_length in h. apply h; auto.
      + rewrite inner_names. exact IH2. }
  exact (proj1 (gen _ (le_n _))).
Qed.

(** Of two units with the same name, the earlier one has exponent 0. *)
Lemma combine_unique_int l i j u1 u2 :
  nth_error (combine_units l) i = Some u1 -> nth_error (combine_units l) j = Some u2 ->
  (i < j)%nat -> bname u1 = bname u2 -> bexp u1 = eint 0.
Proof.
  intros hi hj hij hn.
  assert (names : forall k u, nth_error (combine_units l) k = Some u -> nth_error (map bname l) k = Some (bname u)).
  { intros k u h. rewrite <- combine_names, nth_error_map, h. reflexivity. }
  pose proof (names _ _ hi) as ni. pose proof (names _ _ hj) as nj.
  (* the last index with this name *)
  assert (last : forall n d, n = (List.length l - d)%nat -> (d <= List.length l)%nat -> forall k, (k < List.length l)%nat ->
     nth_error (map bname l) k = Some (bname u1) -> (n <= k)%nat ->
     exists k', (k <= k' < List.length l)%nat /\ nth_error (map bname l) k' = Some (bname u1) /\
       forall k'', (k' < k'' < List.length l)%nat -> nth_error (map bname l) k'' <> Some (bname u1)).
  { intros n d. revert n. induction d as [|d IH]; intros n hn' hd k hk hkn hle.
    - lia.
    - destruct (le_lt_dec (List.length l - d) k) as [h|h].
      + apply (IH (List.length l - d)%nat); auto. lia.
      + destruct (in_dec string_dec (bname u1) (map bname (skipn (S k) l))) as [h'|h'].
        * apply In_nth_error in h'. destruct h' as [p hp].
          assert (hp' : nth_error (map bname l) (S k + p) = Some (bname u1)).
          { rewrite <- (firstn_skipn (S k) l), map_app, nth_error_app2.
            - rewrite map_length, firstn_length_le by lia. replace (S k + p - S k)%nat with p by lia. exact hp.
            - rewrite map_length, firstn_length_le; lia. }
          assert (S k + p < List.length l)%nat.
          { rewrite <- (map_length bname). apply nth_error_Some. congruence. }
          destruct (IH (List.length l - d)%nat eq_refl ltac:(lia) (S k + p)%nat) as [k' [b1 [b2 b3]]]; auto; [lia|].
          exists k'. repeat split; auto; lia.
        * exists k. repeat split; auto. intros k'' hk'' e. apply h'.
          apply (nth_error_In _ (k'' - S k)).
          rewrite <- (firstn_skipn (S k) l), map_app, nth_error_app2 in e
            by (rewrite map_length, firstn_length_le; lia).
          rewrite map_length, firstn_length_le in e by lia. exact e. }
  assert (hj' : (j < List.length l)%nat).
  { rewrite <- (map_length bname). apply nth_error_Some. congruence. }
  destruct (last 0%nat (List.length l) ltac:(lia) (le_n _) j hj') as [k [b1 [b2 b3]]]; [congruence|lia|].
  apply (combine_settled_int l k (bname u1)) with (j := i); auto; try lia.
Qed.

Definition has_float (n : string) (l : half) : Prop := exists x, In x l /\ bname x = n /\ isf (bexp x) = true.
Lemma step_float i j l n : has_float n (combine_step i j l) <-> has_float n l.
Proof.
  unfold combine_step. destruct (nth_error l i) as [u1|] eqn:hi; [|reflexivity]. destruct (nth_error l j) as [u2|] eqn:hj; [|reflexivity].
  destruct (String.eqb (bname u1) (bname u2) && negb (Nat.eqb i j)) eqn:c; [|reflexivity].
  apply andb_true_iff in c. destruct c as [cn cj]. apply String.eqb_eq in cn. apply negb_true_iff, Nat.eqb_neq in cj.
  set (v := BU (bname u1) (eadd (bexp u1) (bexp u2))).
  assert (li : (i < List.length l)%nat) by (apply nth_error_Some; congruence).
  assert (hv : nth_error (set_nth j (BU (bname u2) (eint 0)) (set_nth i v l)) i = Some v) by (rewrite nth_set_nth_neq by auto; apply nth_set_nth_eq, li).
  split; intros (x & hx & hn & hf).
  - apply set_nth_in in hx. destruct hx as [->|hx]; [discriminate hf|]. apply set_nth_in in hx. destruct hx as [->|hx]; [|exists x; auto].
    unfold v in *. cbn [bname bexp eadd isf] in *. apply orb_true_iff in hf.
    destruct hf as [hf|hf]; [exists u1|exists u2]; (split; [eapply nth_error_In; eassumption|split; [congruence|exact hf]]).
  - apply In_nth_error in hx. destruct hx as [k hk].
    destruct (Nat.eq_dec i k) as [->|hik]; [|destruct (Nat.eq_dec j k) as [->|hjk]].
    + exists v. split; [eapply nth_error_In, hv|]. rewrite hk in hi. injection hi as ->. unfold v. cbn [bname bexp eadd isf]. rewrite hf. auto.
    + exists v. split; [eapply nth_error_In, hv|]. rewrite hk in hj. injection hj as ->. unfold v. cbn [bname bexp eadd isf]. rewrite hf. split; [congruence|apply orb_true_r].
    + exists x. split; [|auto]. apply (nth_error_In _ k). rewrite nth_set_nth_neq, nth_set_nth_neq by auto. exact hk.
Qed.
Lemma combine_float l n : has_float n (combine_units l) <-> has_float n l.
Proof.
  unfold combine_units. generalize (seq 0 (List.length l)) at 2 as outer. generalize (seq 0 (List.length l)) as inner. intros inner outer. revert l.
  induction outer as [|i outer IH]; intro l; [reflexivity|]. cbn. rewrite IH. clear IH. revert l.
  induction inner as [|j js IH]; intro l; [reflexivity|]. cbn. rewrite IH. apply step_float.
Qed.
Lemma combine_mixed l x : In x (combine_units l) -> ev (bexp x) <> qc 0 ->
  (isf (bexp x) = true <-> exists y, In y l /\ bname y = bname x /\ isf (bexp y) = true).
Proof.
  intros hx h0. rewrite <- (combine_float l (bname x)). split; [intro h; exists x; auto|]. intros (y & hy & hn & hf).
  apply In_nth_error in hx. apply In_nth_error in hy. destruct hx as [i hi], hy as [j hj].
  destruct (Nat.lt_trichotomy i j) as [h|[h|h]].
  - exfalso. apply h0. rewrite (combine_unique_int l i j x y hi hj h (eq_sym hn)). reflexivity.
  - subst j. rewrite hi in hj. injection hj as <-. exact hf.
  - rewrite (combine_unique_int l j i y x hj hi h hn) in hf. discriminate.
Qed.
