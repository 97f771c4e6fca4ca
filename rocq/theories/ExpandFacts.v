(** * ExpandFacts: expansion of derived units terminates, is exact and complete *)
From Coq Require Import String Ascii List ZArith QArith Qcanon Bool Reals Qreals Lia Lra.
From Verif Require Import Py Num UnitsData UnitsStruct Units NumFacts Spec StructFacts.
Import ListNotations.
Local Open Scope string_scope.
Local Open Scope list_scope.
Local Open Scope R_scope.

Lemma py_float_2 : py_float "2" = Ok (qc 2).
Proof. cbv -[Q2Qc inject_Z pow10 Z.opp Qmult Z.of_nat qc]. try (f_equal; apply Qc_is_canon); reflexivity. Qed.
Lemma py_float_3 : py_float "3" = Ok (qc 3).
Proof. cbv -[Q2Qc inject_Z pow10 Z.opp Qmult Z.of_nat qc]. try (f_equal; apply Qc_is_canon); reflexivity. Qed.

Ltac parse_lit :=
  cbv -[py_float qc eflt]; rewrite ?py_float_2, ?py_float_3; cbv -[py_float qc eflt];
  rewrite ?py_float_2, ?py_float_3; cbv -[py_float qc eflt]; reflexivity.

Definition f1 : expo := eflt (qc 1).
Definition f2 : expo := eflt (qc 2).
Definition f3 : expo := eflt (qc 3).

Lemma parse_Pa : parse_units "kg/m*s^2" = Ok ([BU "kg" f1], [BU "m" f1; BU "s" f2]).
Proof. parse_lit. Qed.
Lemma parse_J : parse_units "kg*m^2/s^2" = Ok ([BU "kg" f1; BU "m" f2], [BU "s" f2]).
Proof. parse_lit. Qed.
Lemma parse_W : parse_units "J/s" = Ok ([BU "J" f1], [BU "s" f1]).
Proof. parse_lit. Qed.
Lemma parse_psi : parse_units "lbf/in^2" = Ok ([BU "lbf" f1], [BU "in" f2]).
Proof. parse_lit. Qed.
Lemma parse_cP : parse_units "g/m*s" = Ok ([BU "g" f1], [BU "m" f1; BU "s" f1]).
Proof. parse_lit. Qed.
Lemma parse_C : parse_units "A*s" = Ok ([BU "A" f1; BU "s" f1], nil).
Proof. parse_lit. Qed.
Lemma parse_V : parse_units "kg*m^2/s^3*A" = Ok ([BU "kg" f1; BU "m" f2], [BU "s" f3; BU "A" f1]).
Proof. parse_lit. Qed.

(** The definition of each derived unit, as lists. *)
Definition defn (n : string) : option (half * half) :=
  if String.eqb n "Pa" then Some ([BU "kg" f1], [BU "m" f1; BU "s" f2])
  else if String.eqb n "J" then Some ([BU "kg" f1; BU "m" f2], [BU "s" f2])
  else if String.eqb n "W" then Some ([BU "J" f1], [BU "s" f1])
  else if String.eqb n "psi" then Some ([BU "lbf" f1], [BU "in" f2])
  else if String.eqb n "cP" then Some ([BU "g" f1], [BU "m" f1; BU "s" f1])
  else if String.eqb n "C" then Some ([BU "A" f1; BU "s" f1], nil)
  else if String.eqb n "V" then Some ([BU "kg" f1; BU "m" f2], [BU "s" f3; BU "A" f1])
  else None.

Lemma decon_get n : dict_get DECONSTRUCTABLE_UNITS n =
  if String.eqb "V" n then Some "kg*m^2/s^3*A" else if String.eqb "C" n then Some "A*s"
  else if String.eqb "cP" n then Some "g/m*s" else if String.eqb "psi" n then Some "lbf/in^2"
  else if String.eqb "W" n then Some "J/s" else if String.eqb "J" n then Some "kg*m^2/s^2"
  else if String.eqb "Pa" n then Some "kg/m*s^2" else None.
Proof.
  unfold DECONSTRUCTABLE_UNITS, dict_get.
  destruct (String.eqb "V" n), (String.eqb "C" n), (String.eqb "cP" n), (String.eqb "psi" n),
    (String.eqb "W" n), (String.eqb "J" n), (String.eqb "Pa" n); reflexivity.
Qed.

(** Case analysis on a name among the derived units. *)
Lemma derived_cases n :
  (In n derived_names /\ exists d p, dict_get DECONSTRUCTABLE_UNITS n = Some d /\ parse_units d = Ok p /\ defn n = Some p)
  \/ (~ In n derived_names /\ dict_get DECONSTRUCTABLE_UNITS n = None /\ defn n = None).
Proof.
  destruct (in_dec string_dec n derived_names) as [h|h].
  - left. split; auto. cbn in h. destruct h as [<-|[<-|[<-|[<-|[<-|[<-|[<-|[]]]]]]]].
    all: eexists; eexists; split; [reflexivity|split; [|reflexivity]].
    + apply parse_Pa. + apply parse_J. + apply parse_W. + apply parse_psi.
    + apply parse_cP. + apply parse_C. + apply parse_V.
  - right. split; auto. rewrite decon_get. unfold defn. cbn in h.
    repeat (rewrite (proj2 (String.eqb_neq _ _)) by (intro; subst; intuition)). auto.
Qed.

Definition scaled (e : expo) (l : half) : half := map (fun x => BU (bname x) (emul (bexp x) e)) l.
Lemma lin_scaled phi e l : lin phi (scaled e l) = QcR (ev e) * lin phi l.
Proof.
  induction l as [|x l IH]; [cbn; lra|]. unfold scaled in *. cbn [map lin bname bexp].
  rewrite IH. cbn [emul ev]. rewrite QcR_mult. lra.
Qed.
Lemma expand_eq d p e : parse_units d = Ok p -> expand d e = Ok (scaled e (fst p), scaled e (snd p)).
Proof. intro h. unfold expand. rewrite h. reflexivity. Qed.

(** A functional is compatible when it respects all definitions. *)
Definition compat (phi : string -> R) : Prop :=
  forall n p, defn n = Some p -> phi n = lin phi (fst p) - lin phi (snd p).

Lemma expand_loop_lin phi fuel pre rest other hit t o h' :
  compat phi -> expand_loop fuel pre rest other hit = Ok (t, o, h') ->
  lin phi t - lin phi o = lin phi pre + lin phi rest - lin phi other.
Proof.
  intro hc. revert pre rest other hit. induction fuel as [|fuel IH]; intros pre rest other hit h;
    destruct rest as [|x rest']; cbn [expand_loop] in h; try discriminate.
  - injection h as <- <- <-. cbn. lra.
  - injection h as <- <- <-. cbn. lra.
  - destruct (derived_cases (bname x)) as [[hd [d [p [h1 [h2 h3]]]]]|[hd [h1 h3]]]; rewrite h1 in h.
    + rewrite (expand_eq d p (bexp x) h2) in h. cbn [bind fst snd] in h.
      pose proof (hc _ _ h3) as hx. pose proof (lin_scaled phi (bexp x) (fst p)) as s1.
      pose proof (lin_scaled phi (bexp x) (snd p)) as s2.
      destruct (rest' ++ scaled (bexp x) (fst p)) as [|y ys] eqn:hr.
      * injection h as <- <- <-. assert (hl : lin phi (rest' ++ scaled (bexp x) (fst p)) = 0) by (rewrite hr; reflexivity).
        rewrite lin_app in hl. rewrite lin_app. cbn [lin]. rewrite hx, s2. rewrite s1 in hl. lra.
      * apply IH in h. rewrite h. assert (hl : lin phi (rest' ++ scaled (bexp x) (fst p)) = lin phi (y :: ys)) by (rewrite hr; reflexivity).
        rewrite lin_app in hl. rewrite !lin_app. cbn [lin] in *. rewrite hx, s2. rewrite s1 in hl. lra.
    + apply IH in h. rewrite h. rewrite lin_app. cbn [lin]. lra.
Qed.

(** ** Termination of the inner loop *)
Lemma weights_app l1 l2 : weights (l1 ++ l2) = (weights l1 + weights l2)%nat.
Proof. unfold weights. rewrite map_app, list_sum_app. reflexivity. Qed.
Lemma weights_cons x l : weights (x :: l) = (weight (bname x) + weights l)%nat.
Proof. reflexivity. Qed.
Lemma weight_pos n : (1 <= weight n)%nat.
Proof. unfold weight. repeat destruct (_ : bool); lia. Qed.
Lemma weights_scaled e l : weights (scaled e l) = weights l.
Proof. induction l as [|x l IH]; cbn [scaled map]; auto. rewrite !weights_cons. cbn [bname]. f_equal. exact IH. Qed.
Lemma weights_defn n p : defn n = Some p -> (S (weights (fst p)) <= weight n)%nat.
Proof.
  unfold defn.
  repeat match goal with
  | |- context [String.eqb n ?s] =>
      let E := fresh "E" in destruct (String.eqb n s) eqn:E; [apply String.eqb_eq in E; subst n; intro h; injection h as <-; cbn; lia|]
  | _ => discriminate
  end.
Qed.

Lemma expand_loop_ok fuel pre rest other hit :
  (weights rest <= fuel)%nat -> exists t o h, expand_loop fuel pre rest other hit = Ok (t, o, h).
Proof.
  revert pre rest other hit. induction fuel as [|fuel IH]; intros pre rest other hit hw;
    destruct rest as [|x rest']; cbn [expand_loop]; try (eexists; eexists; eexists; reflexivity).
  - rewrite weights_cons in hw. pose proof (weight_pos (bname x)). lia.
  - rewrite weights_cons in hw. pose proof (weight_pos (bname x)) as wp.
    destruct (derived_cases (bname x)) as [[hd [d [p [h1 [h2 h3]]]]]|[hd [h1 h3]]]; rewrite h1.
    + rewrite (expand_eq d p (bexp x) h2). cbn [bind fst snd].
      pose proof (weights_defn _ _ h3) as wd.
      destruct (rest' ++ scaled (bexp x) (fst p)) as [|y ys] eqn:hr; [eexists; eexists; eexists; reflexivity|].
      apply IH. assert (hl : weights (rest' ++ scaled (bexp x) (fst p)) = weights (y :: ys)) by (rewrite hr; reflexivity).
      rewrite weights_app, weights_scaled, weights_cons in hl. pose proof (weight_pos (bname y)). lia.
    + apply IH. lia.
Qed.

(** ** The outer loop: depth of derived units *)
Definition depth (n : string) : nat :=
  if String.eqb n "W" then 2 else if mem_str n derived_names then 1 else 0.
Definition depths (l : half) : nat := list_sum (map (fun x => depth (bname x)) l).
Lemma depths_app l1 l2 : depths (l1 ++ l2) = (depths l1 + depths l2)%nat.
Proof. unfold depths. rewrite map_app, list_sum_app. reflexivity. Qed.
Lemma depths_cons x l : depths (x :: l) = (depth (bname x) + depths l)%nat.
Proof. reflexivity. Qed.
Lemma depths_scaled e l : depths (scaled e l) = depths l.
Proof. induction l as [|x l IH]; cbn [scaled map]; auto. rewrite !depths_cons. cbn [bname]. f_equal. exact IH. Qed.
Lemma depths_defn n p : defn n = Some p -> (S (depths (fst p) + depths (snd p)) <= depth n)%nat.
Proof.
  unfold defn.
  repeat match goal with
  | |- context [String.eqb n ?s] =>
      let E := fresh "E" in destruct (String.eqb n s) eqn:E; [apply String.eqb_eq in E; subst n; intro h; injection h as <-; cbn; lia|]
  | _ => discriminate
  end.
Qed.
Lemma depth_weight n : (depth n <= weight n)%nat.
Proof.
  unfold depth, weight, mem_str, derived_names. cbn [existsb].
  destruct (String.eqb n "W"); [lia|]. repeat (destruct (String.eqb n _); cbn; try lia).
Qed.
Lemma depths_weights l : (depths l <= weights l)%nat.
Proof.
  induction l as [|x l IH]; [cbn; lia|]. rewrite depths_cons, weights_cons.
  pose proof (depth_weight (bname x)). lia.
Qed.
Lemma depth_0 n : depth n = 0%nat <-> ~ In n derived_names.
Proof.
  unfold depth. destruct (String.eqb n "W") eqn:e.
  - apply String.eqb_eq in e. subst. cbn. split; [discriminate|]. intro h. exfalso. apply h. auto.
  - destruct (mem_str n derived_names) eqn:m; split; auto; try discriminate.
    + intro h. exfalso. apply h. unfold mem_str in m. apply existsb_exists in m.
      destruct m as [x [hx hx']]. apply String.eqb_eq in hx'. subst. exact hx.
    + intros _ h. unfold mem_str in m. assert (existsb (String.eqb n) derived_names = true); [|congruence].
      apply existsb_exists. exists n. split; auto. apply String.eqb_refl.
Qed.

(** One pass of the inner loop never increases the depth; if it expanded a unit
    it decreases it, and if it did not, the list contains no derived unit. *)
Lemma expand_loop_depth fuel pre rest other hit t o h' :
  expand_loop fuel pre rest other hit = Ok (t, o, h') ->
  (depths t + depths o <= depths pre + depths rest + depths other)%nat /\
  (hit = true -> h' = true) /\
  (hit = false -> h' = true -> (depths t + depths o < depths pre + depths rest + depths other)%nat) /\
  (h' = false -> t = pre ++ rest /\ o = other /\ depths rest = 0%nat).
Proof.
  revert pre rest other hit. induction fuel as [|fuel IH]; intros pre rest other hit h;
    destruct rest as [|x rest']; cbn [expand_loop] in h; try discriminate.
  - injection h as <- <- <-. rewrite app_nil_r. cbn. repeat split; auto; try lia; congruence.
  - injection h as <- <- <-. rewrite app_nil_r. cbn. repeat split; auto; try lia; congruence.
  - destruct (derived_cases (bname x)) as [[hd [d [p [h1 [h2 h3]]]]]|[hd [h1 h3]]]; rewrite h1 in h.
    + rewrite (expand_eq d p (bexp x) h2) in h. cbn [bind fst snd] in h.
      pose proof (depths_defn _ _ h3) as dd. rewrite depths_cons.
      destruct (rest' ++ scaled (bexp x) (fst p)) as [|y ys] eqn:hr.
      * injection h as <- <- <-. rewrite depths_app, depths_scaled.
        repeat split; auto; try lia; congruence.
      * apply IH in h. destruct h as [i1 [i2 [i3 i4]]].
        assert (hl : depths (rest' ++ scaled (bexp x) (fst p)) = depths (y :: ys)) by (rewrite hr; reflexivity).
        rewrite depths_app, depths_scaled, depths_cons in hl.
        rewrite !depths_app, depths_scaled in i1. rewrite depths_cons in i1. cbn [depths map list_sum] in i1.
        change (depths nil) with 0%nat in i1.
        specialize (i2 eq_refl). subst h'. repeat split; auto; try lia; try congruence.
    + apply IH in h. destruct h as [i1 [i2 [i3 i4]]].
      apply depth_0 in hd. rewrite depths_app, depths_cons in i1, i3. change (depths nil) with 0%nat in i1, i3.
      rewrite depths_cons. repeat split; auto; try lia.
      * intros a b. specialize (i3 a b). lia.
      * destruct (i4 H) as [-> _]. rewrite <- app_assoc. reflexivity.
      * destruct (i4 H) as [_ [-> _]]. reflexivity.
      * destruct (i4 H) as [_ [_ ->]]. lia.
Qed.

Lemma round_ok top bot : exists t b h, deconstruct_round top bot = Ok (t, b, h) /\
  (depths t + depths b <= depths top + depths bot)%nat /\
  (h = true -> (depths t + depths b < depths top + depths bot)%nat) /\
  (h = false -> t = top /\ b = bot /\ depths top = 0%nat /\ depths bot = 0%nat) /\
  (forall phi, compat phi -> lin phi t - lin phi b = lin phi top - lin phi bot).
Proof.
  unfold deconstruct_round.
  destruct (expand_loop_ok (weights top) nil top bot false (le_n _)) as [t1 [b1 [h1 e1]]]. rewrite e1. cbn [bind].
  destruct (expand_loop_ok (weights b1) nil b1 t1 false (le_n _)) as [b2 [t2 [h2 e2]]]. rewrite e2. cbn [bind].
  exists t2, b2, (h1 || h2). split; [reflexivity|].
  destruct (expand_loop_depth _ _ _ _ _ _ _ _ e1) as [i1 [i2 [i3 i4]]].
  destruct (expand_loop_depth _ _ _ _ _ _ _ _ e2) as [j1 [j2 [j3 j4]]].
  change (depths nil) with 0%nat in *. repeat split.
  - lia.
  - intro h. apply orb_true_iff in h. destruct h as [h|h].
    + specialize (i3 eq_refl h). lia.
    + specialize (j3 eq_refl h). lia.
  - intros. apply orb_false_iff in H. destruct H as [ha hb].
    destruct (i4 ha) as [-> [-> _]]. destruct (j4 hb) as [-> [-> _]]. reflexivity.
  - apply orb_false_iff in H. destruct H as [ha hb].
    destruct (i4 ha) as [-> [-> _]]. destruct (j4 hb) as [-> [-> _]]. reflexivity.
  - apply orb_false_iff in H. destruct H as [ha hb]. destruct (i4 ha) as [-> [-> ->]]. reflexivity.
  - apply orb_false_iff in H. destruct H as [ha hb]. destruct (i4 ha) as [-> [-> _]].
    destruct (j4 hb) as [_ [_ ->]]. reflexivity.
  - intros phi hc. pose proof (expand_loop_lin phi _ _ _ _ _ _ _ _ hc e1) as l1.
    pose proof (expand_loop_lin phi _ _ _ _ _ _ _ _ hc e2) as l2. cbn [lin] in *. lra.
Qed.

Lemma depths_0_in l : depths l = 0%nat -> forall x, In x l -> ~ In (bname x) derived_names.
Proof.
  induction l as [|y l IH]; [intros _ x []|]. rewrite depths_cons. intros h x [<-|hx].
  - apply depth_0. lia.
  - apply IH; auto. lia.
Qed.

Lemma deconstruct_loop_ok fuel one top bot : (depths top + depths bot < fuel)%nat ->
  exists t b, deconstruct_loop fuel one top bot = Ok (t, b) /\
   (forall phi, compat phi -> lin phi t - lin phi b = lin phi top - lin phi bot) /\
   (one = false -> depths t = 0%nat /\ depths b = 0%nat).
Proof.
  revert top bot. induction fuel as [|fuel IH]; intros top bot hf; [lia|].
  cbn [deconstruct_loop]. destruct (round_ok top bot) as [t [b [h [e [r1 [r2 [r3 r4]]]]]]]. rewrite e. cbn [bind].
  destruct (h && negb one) eqn:c.
  - apply andb_true_iff in c. destruct c as [-> c]. apply negb_true_iff in c. subst one.
    specialize (r2 eq_refl). destruct (IH t b ltac:(lia)) as [t' [b' [e' [l' d']]]].
    exists t', b'. repeat split; auto; try (apply d'; reflexivity).
    intros phi hc. rewrite l', r4 by auto. reflexivity.
  - exists t, b. split; [reflexivity|]. split; [exact r4|]. intros ->. rewrite andb_true_r in c.
    destruct (r3 c) as [-> [-> [d1 d2]]]. auto.
Qed.

Lemma deconstruct_ok one top bot : exists t b, deconstruct_units one top bot = Ok (t, b) /\
   (forall phi, compat phi -> lin phi t - lin phi b = lin phi top - lin phi bot) /\
   (one = false -> forall x, In x (t ++ b) -> ~ In (bname x) derived_names).
Proof.
  unfold deconstruct_units.
  destruct (deconstruct_loop_ok (S (weights top + weights bot)) one top bot) as [t [b [e [l d]]]].
  - pose proof (depths_weights top). pose proof (depths_weights bot). lia.
  - exists t, b. split; [exact e|]. split; [exact l|]. intros ho x hx. destruct (d ho) as [d1 d2].
    apply in_app_or in hx. destruct hx as [hx|hx]; [exact (depths_0_in t d1 x hx)|exact (depths_0_in b d2 x hx)].
Qed.

(** Coherent systems give compatible functionals. *)
Lemma ln_pow_pos x n : 0 < x -> ln (x ^ n) = INR n * ln x.
Proof.
  intro h. induction n as [|n IH]; [cbn; rewrite ln_1; lra|].
  cbn [pow]. rewrite ln_mult by (auto; apply pow_lt; auto). rewrite IH, S_INR. lra.
Qed.
Lemma ln_div x y : 0 < x -> 0 < y -> ln (x / y) = ln x - ln y.
Proof. intros hx hy. unfold Rdiv. rewrite ln_mult, ln_Rinv; auto. apply Rinv_0_lt_compat. exact hy. Qed.
Ltac posR hp := repeat first [apply hp | apply pow_lt | apply Rmult_lt_0_compat | apply Rinv_0_lt_compat | apply Rdiv_lt_0_compat].
Ltac ln_norm hp :=
  repeat (first [rewrite ln_div by posR hp | rewrite ln_mult by posR hp | rewrite ln_pow_pos by posR hp]).
Lemma coherent_compat w : coherent w -> compat (fun n => ln (w n)).
Proof.
  intros [hp _ hPa hJ hW hpsi hcP hC hV] n p. unfold defn.
  assert (E1 : QcR (ev f1) = 1) by apply QcR_qc.
  assert (E2 : QcR (ev f2) = 2) by apply QcR_qc.
  assert (E3 : QcR (ev f3) = 3) by apply QcR_qc.
  repeat match goal with
  | |- context [String.eqb n ?s] =>
      let E := fresh "E" in destruct (String.eqb n s) eqn:E; [apply String.eqb_eq in E; subst n; intro h; injection h as <-;
        cbn [lin fst snd bname bexp]; rewrite ?E1, ?E2, ?E3|]
  | _ => discriminate
  end.
  - rewrite hPa. ln_norm hp. cbn [INR]. lra.
  - rewrite hJ. ln_norm hp. cbn [INR]. lra.
  - rewrite hW. ln_norm hp. cbn [INR]. lra.
  - rewrite hpsi. ln_norm hp. cbn [INR]. lra.
  - rewrite hcP. ln_norm hp. cbn [INR]. lra.
  - rewrite hC. ln_norm hp. cbn [INR]. lra.
  - rewrite hV. ln_norm hp. cbn [INR]. lra.
Qed.
