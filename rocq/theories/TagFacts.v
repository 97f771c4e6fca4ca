(** * TagFacts: int and float exponents of the same value lead to the same units *)
From Coq Require Import String Ascii List ZArith QArith Qcanon Bool Reals Lia.
From Verif Require Import Py Num UnitsData UnitsStruct Units.
Import ListNotations.
Local Open Scope string_scope.
Local Open Scope list_scope.

Definition sx (x y : bu) : Prop := bname x = bname y /\ ev (bexp x) = ev (bexp y).
Notation hs := (Forall2 sx).
Definition rrel {A} (P : A -> A -> Prop) (x y : res A) : Prop :=
  match x, y with Ok a, Ok b => P a b | Raise e, Raise e' => e = e' | _, _ => False end.
Lemma rrel_bind {A B} (P : A -> A -> Prop) (Q : B -> B -> Prop) x y f g :
  rrel P x y -> (forall a b, P a b -> rrel Q (f a) (g b)) -> rrel Q (bind x f) (bind y g).
Proof. destruct x, y; cbn; intros h k; try contradiction; auto. Qed.
Lemma rrel_eq {A} (P : A -> A -> Prop) x : (forall a, P a a) -> rrel P x x.
Proof. destruct x; cbn; auto. Qed.
Lemma rrel_mapM {A B} (S : A -> A -> Prop) (P : B -> B -> Prop) f g l m : Forall2 S l m -> (forall a b, S a b -> rrel P (f a) (g b)) ->
  rrel (Forall2 P) (mapM f l) (mapM g m).
Proof.
  intros h k. induction h as [|a b l m hab h IH]; cbn [mapM]; [constructor|].
  apply (rrel_bind P); [apply k; exact hab|]. intros x y hxy. apply (rrel_bind (Forall2 P)); [exact IH|]. intros xs ys hs. constructor; assumption.
Qed.
Lemma sx_refl x : sx x x. Proof. split; reflexivity. Qed.
Lemma hs_refl l : hs l l. Proof. induction l; constructor; [apply sx_refl|assumption]. Qed.
Lemma hs_iff a b : hs a b <-> half_eqb a b = true.
Proof.
  split.
  - induction 1 as [|x y a b [h1 h2] h IH]; [reflexivity|]. cbn. unfold bu_eqb, eeqb. rewrite h1, h2, IH, String.eqb_refl. unfold Qc_eq_bool. destruct (Qc_eq_dec _ _); [reflexivity|congruence].
  - revert b. induction a as [|x a IH]; intros [|y b] h; cbn in h; try discriminate; constructor.
    + apply andb_true_iff in h. destruct h as [h _]. unfold bu_eqb, eeqb in h. apply andb_true_iff in h. destruct h as [h1 h2]. apply String.eqb_eq in h1. apply Qc_eq_bool_correct in h2. split; assumption.
    + apply IH. apply andb_true_iff in h. apply h.
Qed.
Lemma hs_app a b c d : hs a b -> hs c d -> hs (a ++ c) (b ++ d).
Proof. apply Forall2_app. Qed.
Lemma hs_sym a b : hs a b -> hs b a.
Proof. induction 1 as [|x y a b [h1 h2] h IH]; constructor; [split; congruence|assumption]. Qed.
Lemma hs_trans a b c : hs a b -> hs b c -> hs a c.
Proof.
  intro h. revert c. induction h as [|x y a b [h1 h2] h IH]; intros c k; inversion k as [|y' z b' c' [k1 k2] k3]; subst; constructor; [split; congruence|auto].
Qed.
Lemma eltb_sx a b c d : ev a = ev b -> ev c = ev d -> eltb a c = eltb b d.
Proof. unfold eltb. congruence. Qed.
Lemma hs_filter f a b : (forall x y, sx x y -> f x = f y) -> hs a b -> hs (filter f a) (filter f b).
Proof. intros k h. induction h as [|x y a b hx h IH]; [constructor|]. cbn. rewrite (k x y hx). destruct (f y); [constructor; assumption|assumption]. Qed.
Lemma hs_map f g a b : (forall x y, sx x y -> sx (f x) (g y)) -> hs a b -> hs (map f a) (map g b).
Proof. intros k h. induction h; cbn; constructor; auto. Qed.

(** ** Prefixes *)
Definition px (p q : string * bu) : Prop := fst p = fst q /\ sx (snd p) (snd q).
Lemma split_sx x y : sx x y -> rrel px (split_prefix x) (split_prefix y).
Proof.
  intros [h1 h2]. unfold split_prefix. rewrite h1. destruct (String.eqb (bname y) "kg"); [split; [reflexivity|split; [reflexivity|exact h2]]|].
  destruct (get_prefix (bname y)) as [[p n]|e]; cbn; [|reflexivity]. split; [reflexivity|split; [reflexivity|exact h2]].
Qed.
Lemma prefix_loop_sx {T} `{Num T} inv l m (f : T) : Forall2 px l m -> prefix_loop inv l f = prefix_loop inv m f.
Proof.
  intro h. revert f. induction h as [|[p x] [q y] l m [h1 [h2 h3]] h IH]; intro f; [reflexivity|]. cbn [fst snd] in *. subst q. cbn [prefix_loop].
  destruct (String.eqb p ""); [apply IH|]. destruct (dict_get prefix_factors p); [|reflexivity]. rewrite h3. cbv zeta.
  destruct (let* b := _ in npow b (ev (bexp y))); [apply IH|reflexivity].
Qed.
Definition pr2 (p q : half * half) : Prop := hs (fst p) (fst q) /\ hs (snd p) (snd q).
Definition pr3 {B} (p q : half * half * B) : Prop := pr2 (fst p) (fst q) /\ snd p = snd q.
Lemma px_snd l m : Forall2 px l m -> hs (map snd l) (map snd m).
Proof. induction 1 as [|p q l m [_ h] _ IH]; constructor; assumption. Qed.
Lemma prefixes_sx {T} `{Num T} a b a' b' : hs a a' -> hs b b' -> rrel (@pr3 T) (deconstruct_unit_prefixes a b) (deconstruct_unit_prefixes a' b').
Proof.
  intros ha hb. unfold deconstruct_unit_prefixes.
  apply (rrel_bind (Forall2 px)); [apply (rrel_mapM sx); [exact ha|exact split_sx]|]. intros tp tp' ht.
  apply (rrel_bind (Forall2 px)); [apply (rrel_mapM sx); [exact hb|exact split_sx]|]. intros bp bp' hbp.
  rewrite (prefix_loop_sx false tp tp' _ ht). apply (rrel_bind eq); [apply rrel_eq; reflexivity|]. intros f f' <-.
  rewrite (prefix_loop_sx true bp bp' _ hbp). apply (rrel_bind eq); [apply rrel_eq; reflexivity|]. intros g g' <-.
  split; [split; apply px_snd; assumption|reflexivity].
Qed.

(** ** Cancelling and combining *)
Lemma absorb_sx u u' l m : sx u u' -> hs l m -> sx (fst (absorb u l)) (fst (absorb u' m)) /\ hs (snd (absorb u l)) (snd (absorb u' m)).
Proof.
  intros hu h. revert u u' hu. induction h as [|x y l m [h1 h2] h IH]; intros u u' [k1 k2]; cbn [absorb]; [split; [split; assumption|constructor]|].
  unfold e_is. rewrite h1, k1, k2. destruct (String.eqb (bname u') (bname y) && negb (Qc_eq_bool (ev (bexp u')) (qc 0))).
  - specialize (IH (BU (bname u') (esub (bexp u) (bexp x))) (BU (bname u') (esub (bexp u') (bexp y)))).
    destruct IH as [i1 i2]; [split; [reflexivity|cbn; congruence]|].
    destruct (absorb (BU (bname u') (esub (bexp u) (bexp x))) l), (absorb (BU (bname u') (esub (bexp u') (bexp y))) m). cbn [fst snd] in *. split; [exact i1|]. constructor; [split; reflexivity|exact i2].
  - destruct (IH u u') as [i1 i2]; [split; assumption|]. destruct (absorb u l), (absorb u' m). cbn [fst snd] in *. split; [exact i1|]. constructor; [split; assumption|exact i2].
Qed.
Lemma cancel_loop_sx t t' b b' : hs t t' -> hs b b' -> pr2 (cancel_loop t b) (cancel_loop t' b').
Proof.
  intro h. revert b b'. induction h as [|x y t t' hx h IH]; intros b b' hb; cbn [cancel_loop]; [split; [constructor|exact hb]|].
  destruct (absorb_sx x y b b' hx hb) as [i1 i2]. destruct (absorb x b) as [x1 b1], (absorb y b') as [y1 b1']. cbn [fst snd] in *.
  destruct (IH b1 b1' i2) as [j1 j2]. destruct (cancel_loop t b1), (cancel_loop t' b1'). cbn [fst snd] in *. split; [constructor; assumption|exact j2].
Qed.
Lemma cancel_sx t t' b b' : hs t t' -> hs b b' -> pr2 (cancel_units t b) (cancel_units t' b').
Proof.
  intros ht hb. unfold cancel_units. destruct (cancel_loop_sx t t' b b' ht hb) as [i1 i2]. destruct (cancel_loop t b) as [c1 c2], (cancel_loop t' b') as [c3 c4]. cbn [fst snd] in *.
  split; cbn [fst snd].
  - apply hs_filter; [|exact i1]. intros x y [_ h]. apply eltb_sx; auto.
  - apply hs_app.
    + apply hs_map; [intros x y [h1 h2]; split; cbn; congruence|]. apply hs_filter; [|exact i1]. intros x y [_ h]. apply eltb_sx; auto.
    + apply hs_filter; [|exact i2]. intros x y [_ h]. unfold e_is. congruence.
Qed.
Lemma set_nth_sx n x y l m : sx x y -> hs l m -> hs (set_nth n x l) (set_nth n y m).
Proof. intros hx h. revert n. induction h as [|a b l m hab h IH]; intros [|n]; cbn; constructor; auto. Qed.
Lemma nth_sx n l m : hs l m -> match nth_error l n, nth_error m n with Some x, Some y => sx x y | None, None => True | _, _ => False end.
Proof. intro h. revert n. induction h as [|a b l m hab h IH]; intros [|n]; cbn [nth_error]; [exact I|exact I|exact hab|apply IH]. Qed.
Lemma combine_step_sx i j l m : hs l m -> hs (combine_step i j l) (combine_step i j m).
Proof.
  intro h. unfold combine_step. pose proof (nth_sx i l m h) as hi. pose proof (nth_sx j l m h) as hj.
  destruct (nth_error l i) as [x|], (nth_error m i) as [y|]; try contradiction; [|exact h].
  destruct (nth_error l j) as [u|], (nth_error m j) as [v|]; try contradiction; [|exact h].
  destruct hi as [i1 i2], hj as [j1 j2]. rewrite i1, j1. destruct (_ && _); [|exact h].
  apply set_nth_sx; [split; reflexivity|]. apply set_nth_sx; [split; cbn; congruence|exact h].
Qed.

Lemma fold_sx {A} (f : half -> A -> half) idx l m : (forall a x y, hs x y -> hs (f x a) (f y a)) -> hs l m -> hs (fold_left f idx l) (fold_left f idx m).
Proof. intro k. revert l m. induction idx as [|a idx IH]; intros l m h; cbn; [exact h|]. apply IH, k, h. Qed.
Lemma hs_length l m : hs l m -> List.length l = List.length m.
Proof. induction 1; cbn; congruence. Qed.
Lemma combine_sx l m : hs l m -> hs (combine_units l) (combine_units m).
Proof.
  intro h. unfold combine_units. rewrite (hs_length l m h). apply fold_sx; [|exact h]. intros i x y hx. apply fold_sx; [|exact hx]. intros j u v hu. apply combine_step_sx, hu.
Qed.

(** ** Expanding *)
Lemma expand_sx d e e' : ev e = ev e' -> rrel pr2 (expand d e) (expand d e').
Proof.
  intro h. unfold expand. destruct (parse_units d) as [[t b]|]; cbn; [|reflexivity]. split; apply hs_map with (2 := hs_refl _); intros x y [h1 h2]; split; cbn; congruence.
Qed.
Lemma expand_loop_sx fuel : forall pre pre' rest rest' other other' hit, hs pre pre' -> hs rest rest' -> hs other other' ->
  rrel pr3 (expand_loop fuel pre rest other hit) (expand_loop fuel pre' rest' other' hit).
Proof.
  induction fuel as [|fuel IH]; intros pre pre' rest rest' other other' hit hp hr ho; destruct hr as [|x y rest rest' [h1 h2] hr]; cbn [expand_loop].
  - split; [split; assumption|reflexivity].
  - reflexivity.
  - split; [split; assumption|reflexivity].
  - rewrite h1. destruct (dict_get DECONSTRUCTABLE_UNITS (bname y)) as [d|].
    + apply (rrel_bind pr2); [apply expand_sx; exact h2|]. intros p q [k1 k2]. pose proof (hs_app _ _ _ _ hr k1) as k.
      destruct k as [|u v us vs hu k]; [split; [split; [exact hp|apply hs_app; assumption]|reflexivity]|].
      apply IH; [apply hs_app; [exact hp|constructor; [exact hu|constructor]]|exact k|apply hs_app; assumption].
    + apply IH; [apply hs_app; [exact hp|constructor; [split; assumption|constructor]]|exact hr|exact ho].
Qed.
Lemma weights_sx l m : hs l m -> weights l = weights m.
Proof. unfold weights. induction 1 as [|x y l m [h1 h2] h IH]; [reflexivity|]. cbn [map]. rewrite h1. unfold list_sum in *. cbn [fold_right]. rewrite IH. reflexivity. Qed.
Lemma round_sx t t' b b' : hs t t' -> hs b b' -> rrel pr3 (deconstruct_round t b) (deconstruct_round t' b').
Proof.
  intros ht hb. unfold deconstruct_round. rewrite (weights_sx t t' ht).
  apply (rrel_bind pr3); [apply expand_loop_sx; [constructor|assumption|assumption]|]. intros [[t1 b1] h1] [[t2 b2] h2] [[k1 k2] k3]. cbn [fst snd] in *. subst h2.
  rewrite (weights_sx b1 b2 k2). apply (rrel_bind pr3); [apply expand_loop_sx; [constructor|assumption|assumption]|].
  intros [[b3 t3] h3] [[b4 t4] h4] [[j1 j2] j3]. cbn [fst snd] in *. subst h4. split; [split; assumption|reflexivity].
Qed.
Lemma loop_sx fuel o : forall t t' b b', hs t t' -> hs b b' -> rrel pr2 (deconstruct_loop fuel o t b) (deconstruct_loop fuel o t' b').
Proof.
  induction fuel as [|fuel IH]; intros t t' b b' ht hb; cbn [deconstruct_loop]; [reflexivity|].
  apply (rrel_bind pr3); [apply round_sx; assumption|]. intros [[t1 b1] h1] [[t2 b2] h2] [[k1 k2] k3]. cbn [fst snd] in *. subst h2.
  destruct (h1 && negb o); [apply IH; assumption|split; assumption].
Qed.
Lemma deconstruct_sx o t t' b b' : hs t t' -> hs b b' -> rrel pr2 (deconstruct_units o t b) (deconstruct_units o t' b').
Proof. intros ht hb. unfold deconstruct_units. rewrite (weights_sx t t' ht), (weights_sx b b' hb). apply loop_sx; assumption. Qed.

(** ** Simplifying *)
Lemma names_sub_sx d l m : hs l m -> names_sub d l = names_sub d m.
Proof.
  intro h. unfold names_sub. induction d as [|x d IH]; cbn; [reflexivity|]. rewrite IH. f_equal. clear IH. induction h as [|a b l m [h1 h2] h IH]; cbn; [reflexivity|]. rewrite h1, IH. reflexivity.
Qed.
Lemma exps_ok_sx d l m : hs l m -> exps_ok d l = exps_ok d m.
Proof.
  intro h. unfold exps_ok. induction d as [|x d IH]; cbn; [reflexivity|]. rewrite IH. f_equal. clear IH. induction h as [|a b l m [h1 h2] h IH]; cbn; [reflexivity|].
  rewrite h1, IH, (eltb_sx (bexp a) (bexp b) (bexp x) (bexp x)) by auto. reflexivity.
Qed.
Lemma count_matches_sx d l m n n' : hs l m -> ev n = ev n' -> ev (count_matches d l n) = ev (count_matches d m n').
Proof.
  intro h. unfold count_matches. revert n n'. induction d as [|x d IH]; intros n n' hn; cbn [fold_left]; [exact hn|]. apply IH. clear IH. revert n n' hn.
  induction h as [|a b l m [h1 h2] h IH]; intros n n' hn; cbn [fold_left]; [exact hn|]. apply IH. rewrite h1. destruct (String.eqb _ _); [|exact hn]. cbv zeta.
  rewrite (eltb_sx (ediv (bexp a) (bexp x)) (ediv (bexp b) (bexp x)) n n') by (cbn; congruence). destruct (eltb _ _); [cbn; congruence|exact hn].
Qed.
Definition mx (p q : string * expo) : Prop := fst p = fst q /\ ev (snd p) = ev (snd q).
Definition ox (p q : option (string * expo)) : Prop := match p, q with Some a, Some b => mx a b | None, None => True | _, _ => False end.
Lemma match_one_sx t t' b b' kd : hs t t' -> hs b b' -> rrel ox (match_one t b kd) (match_one t' b' kd).
Proof.
  intros ht hb. unfold match_one. destruct (parse_units (snd kd)) as [[dt db]|]; cbn [bind]; [|reflexivity].
  rewrite (names_sub_sx dt t t' ht), (names_sub_sx db b b' hb), (exps_ok_sx dt t t' ht), (exps_ok_sx db b b' hb).
  destruct (_ && _); [|exact I]. split; [reflexivity|]. cbn [snd]. apply count_matches_sx; [exact hb|]. apply count_matches_sx; [exact ht|reflexivity].
Qed.
Lemma somes_sx l m : Forall2 ox l m -> Forall2 mx (somes l) (somes m).
Proof. induction 1 as [|[a|] [b|] l m h _ IH]; cbn in *; try contradiction; [constructor|constructor; assumption|assumption]. Qed.
Lemma sum_matches_sx l m : Forall2 mx l m -> sum_matches l = sum_matches m.
Proof. unfold sum_matches. induction 1 as [|a b l m [_ h] _ IH]; cbn; [reflexivity|]. rewrite h, IH. reflexivity. Qed.
Lemma best_sx l m c d : Forall2 mx l m -> mx c d -> mx (best l c) (best m d).
Proof.
  intro h. revert c d. induction h as [|a b l m hab h IH]; intros c d hc; cbn [best]; [exact hc|]. apply IH.
  rewrite (eltb_sx (snd c) (snd d) (snd a) (snd b)) by (apply hc || apply hab). destruct (eltb _ _); assumption.
Qed.
Definition orx (p q : option (half * half)) : Prop := match p, q with Some a, Some b => pr2 a b | None, None => True | _, _ => False end.
Lemma simplify_round_sx t t' b b' : hs t t' -> hs b b' -> rrel orx (simplify_round t b) (simplify_round t' b').
Proof.
  intros ht hb. unfold simplify_round.
  apply (rrel_bind (Forall2 ox)); [apply (rrel_mapM eq); [induction DECONSTRUCTABLE_UNITS; constructor; auto|intros k k' <-; apply match_one_sx; assumption]|].
  intros ms ms' hm. apply somes_sx in hm. destruct hm as [|a a' l l' ha hm]; [exact I|].
  rewrite (sum_matches_sx (a :: l) (a' :: l')) by (constructor; assumption). destruct (Qc_eq_bool _ _); [exact I|].
  pose proof (best_sx l l' a a' hm ha) as [k1 k2]. destruct (best l a) as [u k], (best l' a') as [u' k']. cbn [fst snd] in *. subst u'.
  destruct (dict_get DECONSTRUCTABLE_UNITS u); [|reflexivity]. apply (rrel_bind pr2); [apply expand_sx; exact k2|]. intros p q [j1 j2].
  pose proof (cancel_sx (t ++ snd p) (t' ++ snd q) (b ++ fst p) (b' ++ fst q) (hs_app _ _ _ _ ht j2) (hs_app _ _ _ _ hb j1)) as [c1 c2].
  destruct (cancel_units (t ++ snd p) (b ++ fst p)) as [x1 x2], (cancel_units (t' ++ snd q) (b' ++ fst q)) as [y1 y2]. cbn [fst snd] in *.
  split; [apply hs_app; [exact c1|constructor; [split; [reflexivity|exact k2]|constructor]]|exact c2].
Qed.
Lemma simplify_loop_sx fuel : forall t t' b b', hs t t' -> hs b b' -> rrel pr2 (simplify_loop fuel t b) (simplify_loop fuel t' b').
Proof.
  induction fuel as [|fuel IH]; intros t t' b b' ht hb; cbn [simplify_loop]; [reflexivity|].
  apply (rrel_bind orx); [apply simplify_round_sx; assumption|]. intros [[x1 x2]|] [[y1 y2]|] h; try contradiction; [destruct h; apply IH; assumption|split; assumption].
Qed.
Lemma half_eqb_sx a l m : hs l m -> half_eqb a l = half_eqb a m.
Proof.
  intro h. destruct (half_eqb a l) eqn:e1, (half_eqb a m) eqn:e2; try reflexivity; exfalso.
  - apply hs_iff in e1. apply (hs_trans _ _ _ e1) in h. apply hs_iff in h. congruence.
  - apply hs_iff in e2. apply hs_sym in h. apply (hs_trans _ _ _ e2) in h. apply hs_iff in h. congruence.
Qed.
Lemma common_sx d t t' b b' : hs t t' -> hs b b' -> rrel pr2 (common_simpl d t b) (common_simpl d t' b').
Proof.
  intros ht hb. induction d as [|[k v] d IH]; cbn [common_simpl]; [split; assumption|].
  destruct (parse_units k) as [[x y]|]; cbn [bind fst snd]; [|reflexivity]. rewrite (half_eqb_sx x t t' ht), (half_eqb_sx y b b' hb). destruct (_ && _); [|exact IH].
  apply rrel_eq. intros [p q]. split; apply hs_refl.
Qed.
Lemma abs_total_sx l m : hs l m -> abs_total l = abs_total m.
Proof. unfold abs_total. induction 1 as [|x y l m [h1 h2] h IH]; cbn; [reflexivity|]. rewrite h2, IH. reflexivity. Qed.
Lemma simplify_sx t t' b b' : hs t t' -> hs b b' -> rrel pr2 (simplify_units t b) (simplify_units t' b').
Proof.
  intros ht hb. unfold simplify_units, simplify_fuel. rewrite (abs_total_sx t t' ht), (abs_total_sx b b' hb).
  apply (rrel_bind pr2); [apply simplify_loop_sx; assumption|]. intros p q [k1 k2]. apply common_sx; assumption.
Qed.

(** ** The pipeline *)
Lemma tail_sx ct cb t t' b b' : hs t t' -> hs b b' -> rrel pr2 (reduce_tail ct cb t b) (reduce_tail ct cb t' b').
Proof.
  intros ht hb. unfold reduce_tail. apply (rrel_bind pr2); [apply deconstruct_sx; assumption|]. intros [x1 x2] [y1 y2] [k1 k2]. cbn [fst snd] in *.
  assert (j1 : hs (if ct then combine_units x1 else x1) (if ct then combine_units y1 else y1)) by (destruct ct; [apply combine_sx|]; exact k1).
  assert (j2 : hs (if cb then combine_units x2 else x2) (if cb then combine_units y2 else y2)) by (destruct cb; [apply combine_sx|]; exact k2).
  pose proof (cancel_sx _ _ _ _ j1 j2) as c.
  assert (g : forall p q, pr2 p q -> rrel pr2 (let '(t, b) := p in simplify_units t b) (let '(t, b) := q in simplify_units t b)).
  { intros [z1 z2] [z3 z4] [c1 c2]. apply simplify_sx; assumption. }
  apply g. exact c.
Qed.
Lemma reduce_sx {T} `{Num T} ct cb t t' b b' : hs t t' -> hs b b' -> rrel (@pr3 T) (reduce ct cb t b) (reduce ct cb t' b').
Proof.
  intros ht hb. unfold reduce. apply (rrel_bind (@pr3 T)); [apply prefixes_sx; assumption|]. intros [[x1 x2] f] [[y1 y2] g] [[k1 k2] k3]. cbn [fst snd] in *. subst g.
  apply (rrel_bind pr2); [apply tail_sx; assumption|]. intros p q [j1 j2]. split; [split; assumption|reflexivity].
Qed.
