(** * FloatSimplify: simplification with rounded exponents *)
From Coq Require Import String Ascii List ZArith QArith Qcanon Bool Reals Qreals Lia Lra Psatz.
From Verif Require Import Py Num UnitsData UnitsStruct Units NumFacts Spec StructFacts ExpandFacts SimplifyFacts FloatExp FloatRound FloatFacts.
Import ListNotations.
Local Open Scope string_scope.
Local Open Scope list_scope.
Local Open Scope R_scope.

Lemma Rabs_le_inv' x a : Rabs x <= a -> - a <= x <= a.
Proof. intro h. pose proof (Rle_abs x). pose proof (Rle_abs (- x)) as h'. rewrite Rabs_Ropp in h'. lra. Qed.

(** Rounding does not leave [1, oo). *)
Lemma fl_ge1 q : 1 <= QcR q -> 1 <= QcR (fl q).
Proof.
  intro h. destruct (fl_cases q) as [[-> e]|[(hp & e & v & hn)|(hp & _)]]; [rewrite QcR_qc in h; lra| |lra].
  set (n := Qnum (this q)) in *. set (d := Zpos (Qden (this q))) in *. assert (hd : (0 < d)%Z) by reflexivity. assert (rd : 0 < IZR d) by (apply IZR_lt; exact hd).
  destruct (fl_pos_value n d hn hd) as (m & hm & ha & _). rewrite e, hm. clear e hm.
  assert (dn : IZR d <= IZR n) by (rewrite v in h; apply Rmult_le_compat_r with (r := IZR d) in h; [|lra]; unfold Rdiv in h; rewrite Rmult_assoc, Rinv_l in h by lra; lra).
  pose proof (proj2 (last_bit_low n d hn hd) (last_bit_high n d hn hd dn)) as l. rewrite <- v in ha. set (x := QcR q) in *. set (k := last_bit n d) in *.
  pose proof (p2_gt k) as pk. assert (lx : p2 (52 + k) <= x) by (rewrite v; apply Rmult_le_reg_r with (IZR d); [exact rd|]; unfold Rdiv; rewrite Rmult_assoc, Rinv_l by lra; lra).
  apply Rabs_le_inv' in ha. destruct (Z_le_gt_dec k 0) as [c|c].
  - assert (mk : (2 ^ (- k) <= m)%Z).
    { destruct (Z_le_gt_dec (2 ^ (- k)) m) as [|c']; [assumption|]. assert (c2 : (m <= 2 ^ (- k) - 1)%Z) by lia. apply IZR_le in c2. rewrite minus_IZR, <- p2_nonneg, p2_opp in c2 by lia.
      assert (/ p2 k <= x / p2 k) by (unfold Rdiv; rewrite <- (Rmult_1_l (/ p2 k)) at 1; apply Rmult_le_compat_r; [left; apply Rinv_0_lt_compat; exact pk|exact h]). lra. }
    apply IZR_le in mk. rewrite <- p2_nonneg, p2_opp in mk by lia. apply Rmult_le_compat_r with (r := p2 k) in mk; [|lra]. rewrite Rinv_l in mk by lra. exact mk.
  - assert (1 <= p2 k) by (change 1 with (p2 0); apply p2_le; lia).
    assert (p2 52 <= x / p2 k) by (rewrite p2_add in lx; apply Rmult_le_reg_r with (p2 k); [exact pk|]; unfold Rdiv; rewrite Rmult_assoc, Rinv_l by lra; lra).
    assert (p2 1 <= p2 52) by (apply p2_le; lia). change (p2 1) with (2 * 1) in *. assert (1 <= IZR m) by lra. nra.
Qed.

(** ** Counting matches in any arithmetic *)
Section Count.
Variable E : eops.
Definition step_ (d : bu) (n : expo) (u : bu) : expo :=
  if String.eqb (bname d) (bname u) then let m := e_div E (bexp u) (bexp d) in if eltb m n then m else n else n.
Lemma inner_ d l n : let r := fold_left (step_ d) l n in
  QcR (ev r) <= QcR (ev n) /\ (forall u, In u l -> bname d = bname u -> QcR (ev r) <= QcR (ev (e_div E (bexp u) (bexp d)))) /\
  (r = n \/ exists u, In u l /\ bname d = bname u /\ r = e_div E (bexp u) (bexp d)).
Proof.
  revert n. induction l as [|u l IH]; intro n; cbn [fold_left].
  - split; [cbn; lra|]. split; [intros u []|auto].
  - cbn zeta in IH. destruct (IH (step_ d n u)) as (i1 & i2 & i3). cbn zeta.
    assert (s : QcR (ev (step_ d n u)) <= QcR (ev n) /\ (bname d = bname u -> QcR (ev (step_ d n u)) <= QcR (ev (e_div E (bexp u) (bexp d)))) /\
      (step_ d n u = n \/ bname d = bname u /\ step_ d n u = e_div E (bexp u) (bexp d))).
    { unfold step_. destruct (String.eqb (bname d) (bname u)) eqn:e.
      - apply String.eqb_eq in e. cbv zeta. destruct (eltb (e_div E (bexp u) (bexp d)) n) eqn:c.
        + apply eltb_lt in c. split; [lra|]. split; [intros _; lra|]. right. auto.
        + apply eltb_ge in c. split; [lra|]. split; [intros _; lra|]. left. reflexivity.
      - apply String.eqb_neq in e. split; [lra|]. split; [tauto|]. left. reflexivity. }
    destruct s as (s1 & s2 & s3). split; [lra|]. split.
    + intros v [<-|hv] hn; [specialize (s2 hn); lra|exact (i2 v hv hn)].
    + destruct i3 as [i3|(v & hv & hn & i3)]; [|right; exists v; cbn [In]; auto]. rewrite i3. destruct s3 as [s3|[hn s3]]; [left; exact s3|]. right. exists u. cbn [In]. auto.
Qed.
Lemma count_any defn l n : let r := g_count_matches E defn l n in
  QcR (ev r) <= QcR (ev n) /\ (forall d u, In d defn -> In u l -> bname d = bname u -> QcR (ev r) <= QcR (ev (e_div E (bexp u) (bexp d)))) /\
  (r = n \/ exists d u, In d defn /\ In u l /\ bname d = bname u /\ r = e_div E (bexp u) (bexp d)).
Proof.
  unfold g_count_matches. change (fun n u1 => fold_left _ l n) with (fun n d => fold_left (step_ d) l n). revert n.
  induction defn as [|d defn IH]; intro n; cbn [fold_left].
  - split; [cbn; lra|]. split; [intros d u []|auto].
  - cbn zeta in IH. destruct (IH (fold_left (step_ d) l n)) as (i1 & i2 & i3). destruct (inner_ d l n) as (j1 & j2 & j3). cbn zeta. split; [lra|]. split.
    + intros x u [<-|hx] hu hn; [specialize (j2 u hu hn); lra|exact (i2 x u hx hu hn)].
    + destruct i3 as [i3|(x & u & hx & hu & hn & i3)]; [|right; exists x, u; cbn [In]; auto]. rewrite i3.
      destruct j3 as [j3|(u & hu & hn & j3)]; [left; exact j3|]. right. exists d, u. cbn [In]. auto.
Qed.
End Count.

(** Two arithmetics that divide alike count alike. *)
Lemma count_same (E F : eops) defn l n : (forall d u, In d defn -> In u l -> bname d = bname u -> e_div E (bexp u) (bexp d) = e_div F (bexp u) (bexp d)) ->
  g_count_matches E defn l n = g_count_matches F defn l n.
Proof.
  intro h. unfold g_count_matches. revert n. induction defn as [|d defn IH]; intro n; cbn [fold_left]; [reflexivity|].
  assert (e : forall l' n, (forall u, In u l' -> In u l) ->
    fold_left (fun n u2 => if String.eqb (bname d) (bname u2) then let m := e_div E (bexp u2) (bexp d) in if eltb m n then m else n else n) l' n =
    fold_left (fun n u2 => if String.eqb (bname d) (bname u2) then let m := e_div F (bexp u2) (bexp d) in if eltb m n then m else n else n) l' n).
  { induction l' as [|u l' IHl]; intros m hl; cbn [fold_left]; [reflexivity|]. destruct (String.eqb (bname d) (bname u)) eqn:c.
    - apply String.eqb_eq in c. rewrite (h d u (or_introl eq_refl) (hl u (or_introl eq_refl)) c). apply IHl. intros; apply hl; right; assumption.
    - apply IHl. intros; apply hl; right; assumption. }
  etransitivity; [apply f_equal, (e l n (fun u hu => hu))|]. apply IH. intros; apply h; auto. right. assumption.
Qed.

Definition unitary (x : bu) : Prop := bexp x = f1 \/ bexp x = f2.
Lemma div_same g B u d : room (g + 1) B -> (0 <= g)%Z -> 2 <= B -> grid g (ev (bexp u)) -> Rabs (rexp u) <= B -> unitary d ->
  float_div (bexp u) (bexp d) = ediv (bexp u) (bexp d) /\ grid (g + 1) (ev (ediv (bexp u) (bexp d))).
Proof.
  intros hr h0 h2 gu bu hd. assert (fd : isf (bexp d) = true) by (destruct hd as [-> | ->]; reflexivity).
  unfold float_div. rewrite fd, orb_true_r. assert (tu : tof (bexp u) = ev (bexp u)) by (apply (room_tof (g + 1) B); auto; apply (grid_finer g); [lia|exact gu]).
  assert (td : tof (bexp d) = ev (bexp d)) by (unfold tof; rewrite fd; reflexivity). rewrite tu, td.
  assert (hg : grid (g + 1) (ev (bexp u) / ev (bexp d))%Qc /\ Rabs (QcR (ev (bexp u) / ev (bexp d))%Qc) <= B).
  { destruct hd as [-> | ->].
    - assert (e : (ev (bexp u) / ev f1)%Qc = ev (bexp u)).
      { apply QcR_inj. rewrite QcR_div by (rewrite R1; lra). rewrite R1. field. }
      rewrite e. split; [apply (grid_finer g); [lia|exact gu]|exact bu].
    - assert (e : QcR (ev (bexp u) / ev f2)%Qc = rexp u / 2) by (rewrite QcR_div by (rewrite R2; lra); rewrite R2; reflexivity).
      split; [apply (grid_half g _ _ gu e)|]. rewrite e. unfold Rdiv. rewrite Rabs_mult, (Rabs_pos_eq (/ 2)) by lra. pose proof (Rabs_pos (rexp u)). lra. }
  destruct hg as [g1 g2]. split; [|exact g1]. rewrite (room_fl (g + 1) B _ hr g1 g2). reflexivity.
Qed.

(** ** One round *)
Definition six : list (string * string) :=
  [("Pa", "kg/m*s^2"); ("J", "kg*m^2/s^2"); ("W", "J/s"); ("psi", "lbf/in^2"); ("cP", "g/m*s"); ("C", "A*s")].
Lemma six_split : DECONSTRUCTABLE_UNITS = six ++ [("V", "kg*m^2/s^3*A")]. Proof. reflexivity. Qed.
Lemma six_unitary kd p : In kd six -> parse_units (snd kd) = Ok p -> forall d, In d (fst p ++ snd p) -> unitary d.
Proof.
  intros h. unfold six in h. cbn [In] in h. unfold unitary.
  destruct h as [<-|[<-|[<-|[<-|[<-|[<-|[]]]]]]]; cbn [snd]; rewrite ?parse_Pa, ?parse_J, ?parse_W, ?parse_psi, ?parse_cP, ?parse_C; intro e; injection e as <-;
    intros d hd; cbn in hd; repeat (destruct hd as [<-|hd]; [cbn [bexp]; auto|]); destruct hd.
Qed.

Section Round.
Variables (g : Z) (B : R) (top bot : half).
Hypotheses (hr : room (g + 1) (8 * B)) (hg0 : (0 <= g)%Z) (hB : 3 <= B) (gt : good g top) (gb : good g bot) (hb : tot top + tot bot <= B).

Lemma roomB : room (g + 1) B. Proof. apply (room_le _ (8 * B)); [lra|exact hr]. Qed.
Lemma in_top u : In u top -> grid g (ev (bexp u)) /\ Rabs (rexp u) <= B.
Proof. intro h. split; [apply gt, h|]. apply tot_in in h. pose proof (tot_pos bot). lra. Qed.
Lemma in_bot u : In u bot -> grid g (ev (bexp u)) /\ Rabs (rexp u) <= B.
Proof. intro h. split; [apply gb, h|]. apply tot_in in h. pose proof (tot_pos top). lra. Qed.

Lemma match_six kd : In kd six -> g_match_one fo top bot kd = match_one top bot kd.
Proof.
  intro h. assert (hi : In kd DECONSTRUCTABLE_UNITS) by (rewrite six_split; apply in_or_app; auto).
  unfold g_match_one, match_one. rewrite (fparse_defs (snd kd)) by (apply in_map, hi).
  destruct (parse_units (snd kd)) as [[dt db]|] eqn:e; [|reflexivity]. cbn [bind].
  destruct (names_sub dt top && names_sub db bot && exps_ok dt top && exps_ok db bot); [|reflexivity].
  assert (hu : forall d, In d (dt ++ db) -> unitary d) by exact (six_unitary kd _ h e).
  rewrite (count_same fo exact_ops dt top).
  - rewrite (count_same fo exact_ops db bot); [reflexivity|]. intros d u hd hb' hn. destruct (in_bot u hb') as [h1 h2]. apply (div_same g B); auto using roomB; try lra. apply hu, in_or_app. auto.
  - intros d u hd hb' hn. destruct (in_top u hb') as [h1 h2]. apply (div_same g B); auto using roomB; try lra. apply hu, in_or_app. auto.
Qed.
(** The multiplicity of a match: a multiple of 2^-(g+1). *)
Lemma match_grid kd u k : In kd six -> match_one top bot kd = Ok (Some (u, k)) -> grid (g + 1) (ev k).
Proof.
  intros h. unfold match_one. destruct (parse_units (snd kd)) as [[dt db]|] eqn:e; [|discriminate]. cbn [bind].
  destruct (names_sub dt top && names_sub db bot && exps_ok dt top && exps_ok db bot); [|discriminate]. intro x. injection x as _ <-.
  assert (hu : forall d, In d (dt ++ db) -> unitary d) by exact (six_unitary kd _ h e).
  change count_matches with (g_count_matches exact_ops). destruct (count_any exact_ops db bot (g_count_matches exact_ops dt top (eint 100))) as (_ & _ & [->|(d & v & hd & hv & hn & ->)]).
  - destruct (count_any exact_ops dt top (eint 100)) as (_ & _ & [->|(d & v & hd & hv & hn & ->)]).
    + apply grid_qc. lia.
    + destruct (in_top v hv) as [h1 h2]. apply (div_same g B); auto using roomB; try lra. apply hu, in_or_app. auto.
  - destruct (in_bot v hv) as [h1 h2]. apply (div_same g B); auto using roomB; try lra. apply hu, in_or_app. auto.
Qed.

Lemma mapM_app_ {A C} (f : A -> res C) l1 l2 : mapM f (l1 ++ l2) = (let* a := mapM f l1 in let* b := mapM f l2 in Ok (a ++ b)).
Proof.
  induction l1 as [|x l IH]; cbn [app mapM bind]; [destruct (mapM f l2); reflexivity|]. destruct (f x); [|reflexivity]. cbn [bind]. rewrite IH.
  destruct (mapM f l); [|reflexivity]. cbn [bind]. destruct (mapM f l2); reflexivity.
Qed.
Lemma somes_app {A} (l1 l2 : list (option A)) : somes (l1 ++ l2) = somes l1 ++ somes l2.
Proof. induction l1 as [|[x|] l IH]; cbn [app somes]; [reflexivity| |]; rewrite IH; reflexivity. Qed.
Lemma best_ge l cur x : In x (cur :: l) -> QcR (ev (snd x)) <= QcR (ev (snd (best l cur))).
Proof.
  revert cur x. induction l as [|y l IH]; intros cur x h; cbn [best]; [destruct h as [<-|[]]; lra|].
  destruct (eltb (snd cur) (snd y)) eqn:c.
  - apply eltb_lt in c. destruct h as [<-|h]; [|apply IH; exact h]. pose proof (IH y y (or_introl eq_refl)). lra.
  - apply eltb_ge in c. destruct h as [<-|[<-|h]]; [apply IH; left; reflexivity| |apply IH; right; exact h]. pose proof (IH cur cur (or_introl eq_refl)). lra.
Qed.
Lemma best_snoc l cur x : QcR (ev (snd x)) <= QcR (ev (snd (best l cur))) -> best (l ++ [x]) cur = best l cur.
Proof.
  revert cur. induction l as [|y l IH]; intros cur h; cbn [best app] in *; [|apply IH; exact h].
  replace (eltb (snd cur) (snd x)) with false; [reflexivity|]. symmetry. apply eltb_ge. exact h.
Qed.

(** The volt needs everything a joule needs, at least as often. *)
Lemma volt_under E dt db kJ : (forall u d, In u (top ++ bot) -> unitary d -> QcR (ev (e_div E (bexp u) (bexp d))) <= QcR (ev (ediv (bexp u) (bexp d)))) ->
  (forall u, In u bot -> 3 <= rexp u -> QcR (ev (e_div E (bexp u) f3)) <= QcR (ev (ediv (bexp u) f2))) ->
  defn "V" = Some (dt, db) -> names_sub dt top && names_sub db bot && exps_ok dt top && exps_ok db bot = true ->
  match_one top bot ("J", "kg*m^2/s^2") = Ok (Some ("J", kJ)) ->
  QcR (ev (g_count_matches E db bot (g_count_matches E dt top (eint 100)))) <= QcR (ev kJ).
Proof.
  intros h2 h3 e c. injection e as <- <-. apply andb_true_iff in c. destruct c as [c c4]. apply andb_true_iff in c. destruct c as [c c3].
  unfold match_one. cbn [snd fst]. rewrite parse_J. cbn [bind]. destruct (names_sub _ _ && _ && _ && _); [|discriminate]. intro x.
  assert (x' : kJ = g_count_matches exact_ops [BU "s" f2] bot (g_count_matches exact_ops [BU "kg" f1; BU "m" f2] top (eint 100))).
  { pose (pr := fun o : res (option (string * expo)) => match o with Ok (Some (_, k)) => k | _ => eint 0 end). symmetry. exact (f_equal pr x). }
  rewrite x'. clear x x'. set (dt := [BU "kg" f1; BU "m" f2]) in *. set (db := [BU "s" f3; BU "A" f1]) in *.
  destruct (count_any E db bot (g_count_matches E dt top (eint 100))) as (a1 & a2 & _). destruct (count_any E dt top (eint 100)) as (b1 & b2 & _).
  destruct (count_any exact_ops [BU "s" f2] bot (g_count_matches exact_ops dt top (eint 100))) as (_ & _ & [->|(d & v & hd & hv & hn & ->)]).
  - destruct (count_any exact_ops dt top (eint 100)) as (_ & _ & [->|(d & v & hd & hv & hn & ->)]); [lra|].
    specialize (b2 d v hd hv hn). assert (ud : unitary d) by (unfold unitary; destruct hd as [<-|[<-|[]]]; cbn [bexp]; auto).
    specialize (h2 v d (in_or_app _ _ _ (or_introl hv)) ud). cbn [exact_ops e_div]. lra.
  - destruct hd as [<-|[]]. cbn [bname] in hn. specialize (a2 (BU "s" f3) v (or_introl eq_refl) hv hn). cbn [bexp] in a2.
    assert (3 <= rexp v) by (rewrite <- R3; apply (exps_ok_spec db bot c4 (BU "s" f3) v (or_introl eq_refl) hv hn)).
    specialize (h3 v hv H). cbn [exact_ops e_div bexp]. lra.
Qed.
Lemma div23 u : 3 <= rexp u -> QcR (ev (ediv (bexp u) f3)) = rexp u / 3 /\ QcR (ev (ediv (bexp u) f2)) = rexp u / 2.
Proof.
  intro h. cbn [ediv ev]. split; rewrite QcR_div by (rewrite ?R2, ?R3; lra); rewrite ?R2, ?R3; reflexivity.
Qed.
Lemma float_third u : grid g (ev (bexp u)) -> Rabs (rexp u) <= B -> 3 <= rexp u ->
  1 <= QcR (ev (float_div (bexp u) f3)) /\ QcR (ev (float_div (bexp u) f3)) <= QcR (ev (ediv (bexp u) f2)).
Proof.
  intros gu bu h. destruct (div23 u h) as [e3 e2]. unfold float_div. cbn [isf f3 eflt]. rewrite orb_true_r.
  rewrite (room_tof (g + 1) B) by first [exact roomB|exact bu|apply (grid_finer g); [lia|exact gu]]. change (tof f3) with (ev f3). cbn [ev].
  rewrite e2. cbn [ediv ev] in e3. assert (h1 : 1 <= QcR (ev (bexp u) / ev f3)%Qc) by (rewrite e3; lra). change (eflt (qc 3)) with f3. split; [apply fl_ge1, h1|].
  pose proof (fl_near _ h1) as n. apply Rabs_le_inv' in n. rewrite e3 in n. pose proof (Rle_pow 2 1 53 ltac:(lra) ltac:(lia)) as h2. rewrite pow_1 in h2.
  assert (H : / 2 ^ 53 <= / 2) by (apply Rinv_le_contravar; [lra|exact h2]). set (c := / 2 ^ 53) in *. clearbody c. cbn [ediv ev]. change (eflt (qc 2)) with f2. change (QcR (fl (ev (bexp u) / ev f3)) <= rexp u / 2). assert (rexp u / 3 * c <= rexp u / 3 * / 2) by (apply Rmult_le_compat_l; lra). lra.
Qed.
Lemma volt_match :
  (g_match_one fo top bot ("V", "kg*m^2/s^3*A") = Ok None /\ match_one top bot ("V", "kg*m^2/s^3*A") = Ok None) \/
  (exists kf ke kJ, g_match_one fo top bot ("V", "kg*m^2/s^3*A") = Ok (Some ("V", kf)) /\ match_one top bot ("V", "kg*m^2/s^3*A") = Ok (Some ("V", ke)) /\
    match_one top bot ("J", "kg*m^2/s^2") = Ok (Some ("J", kJ)) /\ 1 <= QcR (ev kf) /\ QcR (ev kf) <= QcR (ev kJ) /\ QcR (ev ke) <= QcR (ev kJ)).
Proof.
  assert (pv : g_parse_units fo "kg*m^2/s^3*A" = Ok ([BU "kg" f1; BU "m" f2], [BU "s" f3; BU "A" f1])) by (rewrite fparse_defs by (cbn; auto 9); apply parse_V).
  unfold g_match_one at 1 2. unfold match_one at 1 2. cbn [snd fst]. rewrite pv, parse_V. cbn [bind].
  destruct (names_sub _ _ && _ && _ && _) eqn:c; [right|left; auto].
  destruct (match_one_ok top bot ("J", "kg*m^2/s^2")) as (r & e & _); [cbn; auto|].
  assert (exists kJ, match_one top bot ("J", "kg*m^2/s^2") = Ok (Some ("J", kJ))) as (kJ & hJ).
  { clear r e. unfold match_one. cbn [snd fst]. rewrite parse_J. cbn [bind]. pose proof c as c'. apply andb_true_iff in c'. destruct c' as [c' c4].
    apply andb_true_iff in c'. destruct c' as [c' c3]. apply andb_true_iff in c'. destruct c' as [c1 c2].
    assert (d2 : names_sub [BU "s" f2] bot = true) by (unfold names_sub in *; cbn [forallb bname] in *; apply andb_true_iff in c2; rewrite (proj1 c2); reflexivity).
    assert (d4 : exps_ok [BU "s" f2] bot = true).
    { unfold exps_ok. cbn [forallb]. rewrite andb_true_r. apply forallb_forall. intros u hu. pose proof (exps_ok_spec _ _ c4 (BU "s" f3) u (or_introl eq_refl) hu) as q. cbn [bname bexp] in *.
      destruct (String.eqb "s" (bname u)) eqn:n; [|reflexivity]. apply String.eqb_eq in n. specialize (q n). rewrite R3 in q. cbn [negb orb]. apply negb_true_iff, eltb_ge. rewrite R2. lra. }
    rewrite c1, d2, c3, d4. cbn [andb]. eexists. reflexivity. }
  eexists _, _, kJ. split; [reflexivity|]. split; [reflexivity|]. split; [exact hJ|]. split; [|split].
  - apply andb_true_iff in c. destruct c as [c c4]. apply andb_true_iff in c. destruct c as [c c3].
    assert (un : forall d u, unitary d -> In u (top ++ bot) -> rexp d <= rexp u -> 1 <= QcR (ev (float_div (bexp u) (bexp d)))).
    { intros d u hd hu hl. assert (hg : grid g (ev (bexp u)) /\ Rabs (rexp u) <= B) by (apply in_app_or in hu; destruct hu; [apply in_top|apply in_bot]; assumption).
      destruct hg as [h1 h2]. rewrite (proj1 (div_same g B u d roomB hg0 ltac:(lra) h1 h2 hd)). cbn [ediv ev].
      destruct hd as [hd|hd]; rewrite hd in *; rewrite QcR_div by (rewrite ?R1, ?R2; lra); rewrite ?R1, ?R2 in *; lra. }
    destruct (count_any fo [BU "s" f3; BU "A" f1] bot (g_count_matches fo [BU "kg" f1; BU "m" f2] top (eint 100))) as (_ & _ & [->|(d & v & hd & hv & hn & ->)]).
    + destruct (count_any fo [BU "kg" f1; BU "m" f2] top (eint 100)) as (_ & _ & [->|(d & v & hd & hv & hn & ->)]); [rewrite ev_eint; lra|].
      apply un; [unfold unitary; destruct hd as [<-|[<-|[]]]; cbn [bexp]; auto|apply in_or_app; auto|]. exact (exps_ok_spec _ _ c3 d v hd hv hn).
    + pose proof (exps_ok_spec _ _ c4 d v hd hv hn) as q. destruct hd as [<-|[<-|[]]]; cbn [bexp fo e_div] in *.
      * rewrite R3 in q. destruct (in_bot v hv) as [h1 h2]. apply (float_third v h1 h2 q).
      * apply (un (BU "A" f1)); [left; reflexivity|apply in_or_app; auto|exact q].
  - apply (volt_under fo _ _ kJ); auto.
    + intros u d hu hd. assert (hg : grid g (ev (bexp u)) /\ Rabs (rexp u) <= B) by (apply in_app_or in hu; destruct hu; [apply in_top|apply in_bot]; assumption).
      destruct hg as [h1 h2]. cbn [fo e_div]. rewrite (proj1 (div_same g B u d roomB hg0 ltac:(lra) h1 h2 hd)). lra.
    + intros u hu q. destruct (in_bot u hu) as [h1 h2]. apply (float_third u h1 h2 q).
  - change count_matches with (g_count_matches exact_ops). apply (volt_under exact_ops _ _ kJ); auto.
    + intros. cbn [exact_ops e_div]. lra.
    + intros u hu q. destruct (div23 u q) as [e3 e2]. cbn [exact_ops e_div]. rewrite e3, e2. lra.
Qed.

Lemma sum_pos l : l <> nil -> (forall x, In x l -> 1 <= QcR (ev (snd x))) -> e_is (g_sum_matches fo l) 0 = false.
Proof.
  intros hn h. assert (s : forall (l : list (string * expo)) a, (forall x, In x l -> 1 <= QcR (ev (snd x))) -> 1 <= QcR (ev a) -> 1 <= QcR (ev (fold_left (fun a x => e_add fo a (snd x)) l a))).
  { clear l hn h. assert (tf : forall e, 1 <= QcR (ev e) -> 1 <= QcR (tof e)) by (intros e he; unfold tof; destruct (isf e); [exact he|apply fl_ge1, he]).
    induction l as [|x l IH]; intros a h ha; cbn [fold_left]; [exact ha|]. apply IH; [intros; apply h; right; assumption|]. specialize (h x (or_introl eq_refl)). cbn [fo float_ops e_add].
    unfold float_op. destruct (isf a || isf (snd x)); cbn [ev]; [apply fl_ge1|]; rewrite QcR_plus; [|lra]. pose proof (tf _ ha). pose proof (tf _ h). lra. }
  destruct l as [|x l]; [congruence|]. unfold g_sum_matches. cbn [fold_left]. assert (hx : 1 <= QcR (ev (snd x))) by (apply h; left; reflexivity).
  assert (h1 : 1 <= QcR (ev (e_add fo (eint 0) (snd x)))).
  { cbn [fo float_ops e_add]. unfold float_op. cbn [isf eint orb]. destruct (isf (snd x)) eqn:i; cbn [ev eint]; [|rewrite QcR_plus, QcR_qc; lra].
    apply fl_ge1. rewrite QcR_plus. unfold tof. rewrite i. cbn [isf eint ev]. rewrite fl_small by (cbn; lia). rewrite QcR_qc. lra. }
  specialize (s l _ (fun y hy => h y (or_intror hy)) h1). unfold e_is. destruct (Qc_eq_bool _ _) eqn:z; [|reflexivity]. exfalso.
  apply Qc_eq_bool_correct in z. rewrite z, QcR_qc in s. lra.
Qed.
Lemma sum_pos_exact l : l <> nil -> (forall x, In x l -> 1 <= QcR (ev (snd x))) -> Qc_eq_bool (sum_matches l) (qc 0) = false.
Proof.
  intros hn h. destruct l as [|[u k] l]; [congruence|]. assert (0 <= QcR (sum_matches l)) by (apply sum_ge; intros a b hi; apply (h (a, b)); right; exact hi).
  destruct (Qc_eq_bool _ _) eqn:z; [|reflexivity]. exfalso. apply Qc_eq_bool_correct in z. apply (f_equal QcR) in z. cbn [sum_matches fold_right snd] in z. rewrite QcR_plus, QcR_qc in z.
  pose proof (h (u, k) (or_introl eq_refl)). cbn [snd] in *. unfold sum_matches in H. lra.
Qed.

(** The matches of the six units, in both arithmetics, and the best of all. *)
Lemma mapM_six : mapM (g_match_one fo top bot) six = mapM (match_one top bot) six.
Proof.
  assert (e : forall l, (forall kd, In kd l -> In kd six) -> mapM (g_match_one fo top bot) l = mapM (match_one top bot) l).
  { induction l as [|kd l IH]; intro h; cbn [mapM]; [reflexivity|]. rewrite (match_six kd) by (apply h; left; reflexivity). rewrite IH by (intros; apply h; right; assumption). reflexivity. }
  apply e. auto.
Qed.
Lemma mapM_in {A C} (f : A -> res C) l r y : mapM f l = Ok r -> In y r -> exists x, In x l /\ f x = Ok y.
Proof.
  revert r. induction l as [|x l IH]; intros r h hy; cbn [mapM] in h; [injection h as <-; destruct hy|].
  destruct (f x) as [z|] eqn:e; [|discriminate]. cbn [bind] in h. destruct (mapM f l) as [zs|] eqn:e2; [|discriminate]. injection h as <-.
  destruct hy as [<-|hy]; [exists x; cbn [In]; auto|]. destruct (IH zs eq_refl hy) as (w & hw & ew). exists w. cbn [In]. auto.
Qed.
Lemma mapM_out {A C} (f : A -> res C) l r x y : mapM f l = Ok r -> In x l -> f x = Ok y -> In y r.
Proof.
  revert r. induction l as [|z l IH]; intros r h hx e; cbn [mapM] in h; [destruct hx|].
  destruct (f z) as [w|] eqn:e1; [|discriminate]. cbn [bind] in h. destruct (mapM f l) as [zs|] eqn:e2; [|discriminate]. injection h as <-.
  destruct hx as [<-|hx]; [left; congruence|]. right. apply IH; auto.
Qed.
Lemma somes_in {A} (l : list (option A)) x : In x (somes l) <-> In (Some x) l.
Proof.
  induction l as [|[y|] l IH]; cbn [somes In]; [tauto| |]; rewrite IH; intuition congruence.
Qed.

Lemma pick : exists ms, mapM (match_one top bot) six = Ok ms /\
  (forall u k, In (u, k) (somes ms) -> exists d, In (u, d) six /\ grid (g + 1) (ev k) /\ exists p, matched top bot u k p) /\
  exists vf ve, mapM (g_match_one fo top bot) DECONSTRUCTABLE_UNITS = Ok (ms ++ [vf]) /\ mapM (match_one top bot) DECONSTRUCTABLE_UNITS = Ok (ms ++ [ve]) /\
   ((vf = None /\ ve = None) \/ exists kf ke kJ, vf = Some ("V", kf) /\ ve = Some ("V", ke) /\ In ("J", kJ) (somes ms) /\
      1 <= QcR (ev kf) /\ 1 <= QcR (ev ke) /\ QcR (ev kf) <= QcR (ev kJ) /\ QcR (ev ke) <= QcR (ev kJ)).
Proof.
  destruct (mapM_match top bot six) as [ms [e hm]]; [intros kd h; rewrite six_split; apply in_or_app; auto|]. exists ms. split; [exact e|]. split.
  - intros u k h. apply somes_in in h. destruct (mapM_in _ _ _ _ e h) as (kd & hk & ek). destruct (match_one_ok top bot kd) as (r & er & q).
    { rewrite six_split; apply in_or_app; auto. } rewrite ek in er. injection er as <-. destruct (q _ _ eq_refl) as (p & -> & hp).
    exists (snd kd). split; [destruct kd; exact hk|]. split; [exact (match_grid kd _ k hk ek)|]. exists p. exact hp.
  - rewrite six_split, !mapM_app_, mapM_six, e. cbn [bind mapM].
    destruct volt_match as [[-> ->]|(kf & ke & kJ & -> & e2 & eJ & h1 & h2 & h3)]; [exists None, None; cbn [bind]; auto|].
    rewrite e2. exists (Some ("V", kf)), (Some ("V", ke)). cbn [bind]. split; [reflexivity|]. split; [reflexivity|]. right. exists kf, ke, kJ. repeat split; auto.
    + apply somes_in. apply (mapM_out _ _ _ ("J", "kg*m^2/s^2") _ e); [cbn; auto|exact eJ].
    + destruct (match_one_ok top bot ("V", "kg*m^2/s^3*A")) as (r & er & q); [cbn; auto 9|]. rewrite e2 in er. injection er as <-. destruct (q _ _ eq_refl) as (p & _ & hp). exact (ma_k _ _ _ _ _ hp).
Qed.

Lemma round_same : g_simplify_round fo top bot = simplify_round top bot /\
  forall t b, simplify_round top bot = Ok (Some (t, b)) -> good (g + 1) t /\ good (g + 1) b /\ tot t + tot b <= 8 * B.
Proof.
  destruct pick as (ms & e & hms & vf & ve & ef & ee & hv). unfold g_simplify_round, simplify_round. rewrite ef, ee. cbn [bind]. rewrite !somes_app.
  assert (h1 : forall x, In x (somes ms) -> 1 <= QcR (ev (snd x))).
  { intros [u k] hx. destruct (hms u k hx) as (d & _ & _ & p & hp). exact (ma_k _ _ _ _ _ hp). }
  destruct (somes ms) as [|m ms'] eqn:es.
  { destruct hv as [[-> ->]|(kf & ke & kJ & _ & _ & [] & _)]. cbn [somes app]. split; [reflexivity|discriminate]. }
  assert (bb : exists lf le, (m :: ms') ++ somes [vf] = m :: lf /\ (m :: ms') ++ somes [ve] = m :: le /\ best lf m = best ms' m /\ best le m = best ms' m /\
    (forall x, In x (m :: lf) -> 1 <= QcR (ev (snd x))) /\ (forall x, In x (m :: le) -> 1 <= QcR (ev (snd x)))).
  { destruct hv as [[-> ->]|(kf & ke & kJ & -> & -> & hJ & k1 & k2 & k3 & k4)]; cbn [somes].
    - exists ms', ms'. rewrite app_nil_r. auto 9.
    - exists (ms' ++ [("V", kf)]), (ms' ++ [("V", ke)]). pose proof (best_ge ms' m _ hJ) as bj. cbn [snd] in bj. split; [reflexivity|]. split; [reflexivity|].
      split; [apply best_snoc; cbn [snd]; lra|]. split; [apply best_snoc; cbn [snd]; lra|].
      split; intros x hx; change (m :: ms' ++ ?z) with ((m :: ms') ++ z) in hx; apply in_app_or in hx; destruct hx as [hx|[<-|[]]]; cbn [snd]; auto. }
  destruct bb as (lf & le & -> & -> & bf & be & of & oe). rewrite sum_pos by (auto; discriminate). rewrite sum_pos_exact by (auto; discriminate). rewrite bf, be.
  destruct (best ms' m) as [u k] eqn:eb. pose proof (best_in ms' m) as hb'. rewrite eb in hb'. destruct (hms u k hb') as (d & hd & gk & p & mp).
  destruct (derived_cases u) as [[_ [d' [p' [q1 [q2 q3]]]]]|[_ [q1 q3]]]; [|pose proof (ma_defn _ _ _ _ _ mp); congruence].
  assert (p' = p) by (pose proof (ma_defn _ _ _ _ _ mp); congruence). subst p'. rewrite q1.
  assert (kb : QcR (ev k) <= B).
  { assert (x : exists y, In y (fst p) /\ 1 <= rexp y).
    { destruct (defn_key u p q3) as (y & hy & ey & _). exists y. split; [exact hy|lra]. }
    destruct x as (y & hy & ly). destruct (ma_top _ _ _ _ _ mp y hy) as (z & hz & nz). pose proof (ma_tople _ _ _ _ _ mp y z hy hz nz) as l.
    pose proof (ma_k _ _ _ _ _ mp). destruct (in_top z hz) as [_ bz]. pose proof (Rle_abs (rexp z)). nra. }
  pose proof (ma_k _ _ _ _ _ mp) as k1.
  assert (su : size u <= 6).
  { unfold six in hd. cbn [In] in hd. repeat (destruct hd as [hd|hd]; [injection hd as <- <-; cbv [size String.eqb Ascii.eqb Bool.eqb]; lra|]). destruct hd. }
  destruct (expand_same (g + 1) (8 * B) (BU u k) d' p hr) as (x1 & x2 & x3 & x4); cbn [bname bexp]; auto; [lra|rewrite (Rabs_pos_eq (QcR (ev k))) by lra; nra|].
  cbn [bexp] in *. rewrite x1, x2. cbn [bind fst snd].
  pose proof (proj2 size_shrinks _ _ q3) as hs. pose proof (wt_tot (fst p)) as t1. pose proof (wt_tot (snd p)) as t2.
  assert (ht : tot (top ++ scaled k (snd p)) + tot (bot ++ scaled k (fst p)) <= 7 * B).
  { rewrite !wt_app, !wt_scaled, (Rabs_pos_eq (QcR (ev k))) by lra.
    assert (QcR (ev k) * (wt one_ (fst p) + wt one_ (snd p)) <= B * 6) by (apply Rmult_le_compat; try lra; pose proof (wt_pos one_ (fst p) one_pos); pose proof (wt_pos one_ (snd p) one_pos); lra). lra. }
  destruct (cancel_same (g + 1) (8 * B) (top ++ scaled k (snd p)) (bot ++ scaled k (fst p))) as [c1 c2]; auto.
  { apply good_app. split; [apply (good_finer g); [lia|exact gt]|exact x4]. }
  { apply good_app. split; [apply (good_finer g); [lia|exact gb]|exact x3]. } { lra. }
  rewrite c1. destruct (cancel_units _ _) as [t b] eqn:ec. split; [reflexivity|]. intros t' b' x. injection x as <- <-.
  destruct (c2 _ _ eq_refl) as (y1 & y2 & y3). split; [apply good_app; split; [exact y1|apply good_cons; split; [exact gk|apply good_nil]]|]. split; [exact y2|].
  specialize (y3 one_ one_pos). rewrite wt_app. cbn [wt bexp bname]. rewrite (Rabs_pos_eq (QcR (ev k))) by lra. unfold one_ at 2. lra.
Qed.
End Round.

(** ** The whole loop: every round costs one unit of measure *)
Lemma simplify_loop_same (n fuel : nat) (g : Z) B top bot : (0 <= g)%Z -> (g + Z.of_nat n + 1 <= 1073)%Z -> 3 <= B -> 16 ^ (n + 1) * (B * p2 g) <= p2 53 ->
  good g top -> good g bot -> tot top + tot bot <= B -> measure top bot < INR n + 1 ->
  g_simplify_loop fo fuel top bot = simplify_loop fuel top bot.
Proof.
  revert fuel g B top bot. induction n as [|n IH]; intros fuel g B top bot h0 hz h3 hp gt gb hb hm; (destruct fuel as [|fuel]; [reflexivity|]); cbn [g_simplify_loop simplify_loop].
  - assert (hr : room (g + 1) (8 * B)) by (split; [lia|]; rewrite p2_add; change (p2 1) with (2 * 1); cbn [pow Nat.add] in hp; lra).
    destruct (round_same g B top bot hr h0 h3 gt gb hb) as [e _]. rewrite e. destruct (round_simpl_ok top bot) as [q|(t & b & q & m & _)]; rewrite q; cbn [bind]; [reflexivity|].
    exfalso. unfold measure in m at 1. pose proof (plin_ge t). pose proof (nlin_ge b). cbn [INR] in hm. lra.
  - pose proof (p2_gt g) as pg. assert (p16 : 1 <= 16 ^ (n + 1)) by (apply pow_R1_Rle; lra). cbn [Nat.add pow] in hp.
    assert (hr : room (g + 1) (8 * B)) by (split; [lia|]; rewrite p2_add; change (p2 1) with (2 * 1); assert (0 <= B * p2 g) by (apply Rmult_le_pos; lra); nra).
    destruct (round_same g B top bot hr h0 h3 gt gb hb) as [e k]. rewrite e. destruct (round_simpl_ok top bot) as [q|(t & b & q & m & _)]; rewrite q; cbn [bind]; [reflexivity|].
    destruct (k _ _ q) as (g1 & g2 & w). apply (IH fuel (g + 1)%Z (8 * B) t b); auto; try lia; try lra.
    + rewrite p2_add. change (p2 1) with (2 * 1). nra.
    + rewrite S_INR in hm. lra.
Qed.
