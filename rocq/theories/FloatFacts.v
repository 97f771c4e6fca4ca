(** * FloatFacts: where rounded exponents are exact

    Every step of the pipeline gives the same result with rounded exponents when
    the exponents are multiples of 2^-g that add up to at most B and B * 2^g stays
    within 53 bits. *)
From Coq Require Import String Ascii List ZArith QArith Qcanon Bool Reals Qreals Lia Lra Psatz.
From Verif Require Import Py Num UnitsData UnitsStruct Units NumFacts Spec StructFacts ExpandFacts SimplifyFacts FloatExp FloatRound.
Import ListNotations.
Local Open Scope string_scope.
Local Open Scope list_scope.
Local Open Scope R_scope.

Notation fo := float_ops.

(** ** Multiples of 2^-g *)
Lemma grid_plus g a b : grid g a -> grid g b -> grid g (a + b)%Qc.
Proof. intros [m hm] [n hn]. exists (m + n)%Z. rewrite QcR_plus, plus_IZR, <- hm, <- hn. ring. Qed.
Lemma grid_minus g a b : grid g a -> grid g b -> grid g (a - b)%Qc.
Proof. intros [m hm] [n hn]. exists (m - n)%Z. rewrite QcR_minus, minus_IZR, <- hm, <- hn. ring. Qed.
Lemma grid_opp g a : grid g a -> grid g (- a)%Qc.
Proof. intros [m hm]. exists (- m)%Z. rewrite QcR_opp, opp_IZR, <- hm. ring. Qed.
Lemma grid_qc g z : (0 <= g)%Z -> grid g (qc z).
Proof. intro h. exists (z * 2 ^ g)%Z. rewrite QcR_qc, mult_IZR, <- p2_nonneg by exact h. reflexivity. Qed.
Lemma grid_mulz g z a : grid g a -> grid g (qc z * a)%Qc.
Proof. intros [m hm]. exists (z * m)%Z. rewrite QcR_mult, QcR_qc, mult_IZR, <- hm. ring. Qed.
Lemma grid_mult g h a b : grid g a -> grid h b -> grid (g + h) (a * b)%Qc.
Proof. intros [m hm] [n hn]. exists (m * n)%Z. rewrite QcR_mult, mult_IZR, <- hm, <- hn, p2_add. ring. Qed.
Lemma grid_finer g h a : (g <= h)%Z -> grid g a -> grid h a.
Proof.
  intros hl [m hm]. exists (m * 2 ^ (h - g))%Z. rewrite mult_IZR, <- hm, <- p2_nonneg by lia.
  replace h with (g + (h - g))%Z at 1 by lia. rewrite p2_add. ring.
Qed.
Lemma grid_half g a b : grid g a -> QcR b = QcR a / 2 -> grid (g + 1) b.
Proof. intros [m hm] e. exists m. rewrite e, p2_add, <- hm. change (p2 1) with (2 * 1). field. Qed.

(** Room for numbers up to B. *)
Definition room (g : Z) (B : R) : Prop := (0 <= g <= 1073)%Z /\ B * p2 g <= p2 53.
Lemma room_fl g B q : room g B -> grid g q -> Rabs (QcR q) <= B -> fl q = q.
Proof.
  intros [hg hb] h hq. apply (fl_grid g); [exact hg|exact h|]. apply Rle_trans with (B * p2 g); [|exact hb].
  apply Rmult_le_compat_r; [left; apply p2_gt|exact hq].
Qed.
Lemma room_le g B B' : B' <= B -> room g B -> room g B'.
Proof. intros h [h1 h2]. split; [exact h1|]. pose proof (p2_gt g). nra. Qed.
Lemma room_tof g B e : room g B -> grid g (ev e) -> Rabs (QcR (ev e)) <= B -> tof e = ev e.
Proof. intros hr h hb. unfold tof. destruct (isf e); [reflexivity|]. exact (room_fl _ _ _ hr h hb). Qed.
Lemma op_same g B op a b : room g B -> grid g (ev a) -> grid g (ev b) -> Rabs (QcR (ev a)) <= B -> Rabs (QcR (ev b)) <= B ->
  grid g (op (ev a) (ev b)) -> Rabs (QcR (op (ev a) (ev b))) <= B -> float_op op a b = Ex (isf a || isf b) (op (ev a) (ev b)).
Proof.
  intros hr ga gb ba bb gr br. unfold float_op. rewrite (room_tof g B a hr ga ba), (room_tof g B b hr gb bb).
  destruct (isf a || isf b); [|reflexivity]. rewrite (room_fl g B _ hr gr br). reflexivity.
Qed.
Lemma add_same g B a b : room g B -> grid g (ev a) -> grid g (ev b) -> Rabs (QcR (ev a)) + Rabs (QcR (ev b)) <= B ->
  float_op Qcplus a b = eadd a b.
Proof.
  intros hr ga gb hb. pose proof (Rabs_pos (QcR (ev a))). pose proof (Rabs_pos (QcR (ev b))). apply (op_same g B); auto; try lra.
  - apply grid_plus; assumption.
  - rewrite QcR_plus. pose proof (Rabs_triang (QcR (ev a)) (QcR (ev b))). lra.
Qed.
Lemma sub_same g B a b : room g B -> grid g (ev a) -> grid g (ev b) -> Rabs (QcR (ev a)) + Rabs (QcR (ev b)) <= B ->
  float_op Qcminus a b = esub a b.
Proof.
  intros hr ga gb hb. pose proof (Rabs_pos (QcR (ev a))). pose proof (Rabs_pos (QcR (ev b))). apply (op_same g B); auto; try lra.
  - apply grid_minus; assumption.
  - rewrite QcR_minus. pose proof (Rabs_triang (QcR (ev a)) (- QcR (ev b))) as t. rewrite Rabs_Ropp in t. unfold Rminus. lra.
Qed.
(** The exponents of the definitions are 1, 2 and 3. *)
Lemma mul_same g B z e : room g B -> grid g (ev e) -> (1 <= z)%Z -> IZR z <= B -> IZR z * Rabs (QcR (ev e)) <= B ->
  float_op Qcmult (eflt (qc z)) e = emul (eflt (qc z)) e.
Proof.
  intros hr ge hz hB hb. assert (h1 : 1 <= IZR z) by (apply (IZR_le 1); exact hz). pose proof (Rabs_pos (QcR (ev e))). pose proof (grid_qc g z (proj1 (proj1 hr))) as gz.
  apply (op_same g B); auto; cbn [ev eflt].
  - rewrite QcR_qc, Rabs_pos_eq; lra.
  - nra.
  - apply grid_mulz. exact ge.
  - rewrite QcR_mult, QcR_qc, Rabs_mult, (Rabs_pos_eq (IZR z)) by lra. exact hb.
Qed.

(** ** Totals *)
Fixpoint wt (mu : string -> R) (l : half) : R :=
  match l with nil => 0 | x :: l' => Rabs (rexp x) * mu (bname x) + wt mu l' end.
Definition one_ (n : string) : R := 1.
Notation tot := (wt one_).
Definition good (g : Z) (l : half) : Prop := forall x, In x l -> grid g (ev (bexp x)).

Lemma wt_app mu l1 l2 : wt mu (l1 ++ l2) = wt mu l1 + wt mu l2.
Proof. induction l1 as [|x l IH]; cbn [app wt]; [lra|]. rewrite IH. lra. Qed.
Lemma wt_pos mu l : (forall n, 0 <= mu n) -> 0 <= wt mu l.
Proof. intro h. induction l as [|x l IH]; cbn [wt]; [lra|]. pose proof (Rmult_le_pos _ _ (Rabs_pos (rexp x)) (h (bname x))). lra. Qed.
Lemma tot_pos l : 0 <= tot l.
Proof. apply wt_pos. intro. unfold one_. lra. Qed.
Lemma tot_cons x l : tot (x :: l) = Rabs (rexp x) + tot l.
Proof. cbn [wt]. unfold one_. lra. Qed.
Lemma tot_in x l : In x l -> Rabs (rexp x) <= tot l.
Proof.
  induction l as [|y l IH]; [intros []|]. rewrite tot_cons. intros [->|h]; [pose proof (tot_pos l); lra|].
  specialize (IH h). pose proof (Rabs_pos (rexp y)). lra.
Qed.
Lemma good_app g l1 l2 : good g (l1 ++ l2) <-> good g l1 /\ good g l2.
Proof.
  split; [intro h; split; intros x hx; apply h, in_or_app; auto|]. intros [h1 h2] x hx. apply in_app_or in hx. destruct hx; auto.
Qed.
Lemma good_cons g x l : good g (x :: l) <-> grid g (ev (bexp x)) /\ good g l.
Proof.
  split; [intro h; split; [apply h; left; reflexivity|intros y hy; apply h; right; exact hy]|]. intros [h1 h2] y [<-|hy]; auto.
Qed.
Lemma good_nil g : good g nil. Proof. intros x []. Qed.
Lemma good_finer g h l : (g <= h)%Z -> good g l -> good h l.
Proof. intros hl hg x hx. apply (grid_finer g); auto. Qed.
Lemma rexp0 n : rexp (BU n (eint 0)) = 0. Proof. apply QcR_qc. Qed.

(** ** Cancelling *)
Lemma absorb_same g B u bots : room g B -> good g (u :: bots) -> tot (u :: bots) <= B ->
  g_absorb fo u bots = absorb u bots /\
  forall u' b, absorb u bots = (u', b) -> good g (u' :: b) /\ (forall mu, (forall n, 0 <= mu n) -> bname u' = bname u /\ wt mu (u' :: b) <= wt mu (u :: bots)).
Proof.
  intro hr. revert u. induction bots as [|x bs IH]; intros u hg hb.
  - split; [reflexivity|]. cbn [absorb]. intros u' b h. injection h as <- <-. split; [exact hg|]. intros mu hm. split; [reflexivity|lra].
  - rewrite !tot_cons in hb. apply good_cons in hg. destruct hg as [gu hg]. apply good_cons in hg. destruct hg as [gx gb].
    pose proof (Rabs_pos (rexp u)). pose proof (Rabs_pos (rexp x)). pose proof (tot_pos bs).
    cbn [absorb g_absorb]. destruct (String.eqb (bname u) (bname x) && negb (e_is (bexp u) 0)) eqn:c.
    + cbn [fo e_sub]. assert (e : float_op Qcminus (bexp u) (bexp x) = esub (bexp u) (bexp x)) by (apply (sub_same g B); auto; lra). rewrite e.
      assert (t : Rabs (rexp (BU (bname u) (esub (bexp u) (bexp x)))) <= Rabs (rexp u) + Rabs (rexp x)).
      { cbn [bexp esub ev]. rewrite QcR_minus. pose proof (Rabs_triang (rexp u) (- rexp x)) as t. rewrite Rabs_Ropp in t. unfold Rminus. lra. }
      destruct (IH (BU (bname u) (esub (bexp u) (bexp x)))) as [i1 i2].
      * apply good_cons. split; [apply grid_minus; assumption|exact gb].
      * rewrite tot_cons. lra.
      * rewrite i1. destruct (absorb (BU (bname u) (esub (bexp u) (bexp x))) bs) as [u1 b1] eqn:r. split; [reflexivity|].
        intros u' b h. injection h as <- <-. destruct (i2 _ _ eq_refl) as [j1 j2]. apply good_cons in j1. destruct j1 as [j0 j1]. split.
        -- apply good_cons. split; [exact j0|]. apply good_cons. split; [apply grid_qc; exact (proj1 (proj1 hr))|exact j1].
        -- intros mu hm. destruct (j2 mu hm) as [k1 k2]. split; [exact k1|]. cbn [wt] in *. rewrite rexp0, Rabs_R0. cbn [bname] in *.
           apply andb_prop in c. destruct c as [c _]. apply String.eqb_eq in c. rewrite <- c. pose proof (hm (bname u)). nra.
    + destruct (IH u) as [i1 i2]; [apply good_cons; auto|rewrite tot_cons; lra|]. rewrite i1. destruct (absorb u bs) as [u1 b1] eqn:r. split; [reflexivity|].
      intros u' b h. injection h as <- <-. destruct (i2 _ _ eq_refl) as [j1 j2]. apply good_cons in j1. destruct j1 as [j0 j1]. split.
      -- apply good_cons. split; [exact j0|]. apply good_cons. auto.
      -- intros mu hm. destruct (j2 mu hm) as [k1 k2]. split; [exact k1|]. cbn [wt] in *. lra.
Qed.
Lemma one_pos n : 0 <= one_ n. Proof. unfold one_. lra. Qed.
Lemma cancel_loop_same g B top bot : room g B -> good g top -> good g bot -> tot top + tot bot <= B ->
  g_cancel_loop fo top bot = cancel_loop top bot /\
  forall t b, cancel_loop top bot = (t, b) -> good g t /\ good g b /\ forall mu, (forall n, 0 <= mu n) -> wt mu t + wt mu b <= wt mu top + wt mu bot.
Proof.
  intro hr. revert bot. induction top as [|u ts IH]; intros bot gt gb hb.
  - split; [reflexivity|]. cbn [cancel_loop]. intros t b h. injection h as <- <-. split; [exact gt|]. split; [exact gb|]. intros; lra.
  - apply good_cons in gt. destruct gt as [gu gt]. rewrite tot_cons in hb. pose proof (tot_pos ts).
    destruct (absorb_same g B u bot hr) as [a1 a2]; [apply good_cons; auto|rewrite tot_cons; lra|].
    cbn [cancel_loop g_cancel_loop]. rewrite a1. destruct (absorb u bot) as [u1 b1] eqn:r. destruct (a2 _ _ eq_refl) as [j1 j2].
    apply good_cons in j1. destruct j1 as [j0 j1]. pose proof (proj2 (j2 one_ one_pos)) as jt. rewrite !tot_cons in jt. pose proof (Rabs_pos (rexp u1)).
    destruct (IH b1 gt j1) as [i1 i2]; [lra|]. rewrite i1. destruct (cancel_loop ts b1) as [ts' b2] eqn:r2. split; [reflexivity|].
    intros t b h. injection h as <- <-. destruct (i2 _ _ eq_refl) as (k1 & k2 & k3). split; [apply good_cons; auto|]. split; [exact k2|].
    intros mu hm. specialize (k3 mu hm). destruct (j2 mu hm) as [_ j3]. cbn [wt] in *. lra.
Qed.
Lemma wt_filter mu p l : (forall n, 0 <= mu n) -> wt mu (filter p l) <= wt mu l.
Proof.
  intro hm. induction l as [|x l IH]; cbn [filter wt]; [lra|]. pose proof (Rmult_le_pos _ _ (Rabs_pos (rexp x)) (hm (bname x))).
  destruct (p x); cbn [wt]; lra.
Qed.
Lemma wt_split mu l : (forall n, 0 <= mu n) ->
  wt mu (filter (fun u => eltb (eint 0) (bexp u)) l) + wt mu (map (fun u => BU (bname u) (eopp (bexp u))) (filter (fun u => eltb (bexp u) (eint 0)) l)) <= wt mu l.
Proof.
  intro hm. induction l as [|x l IH]; cbn [filter wt map]; [lra|]. pose proof (Rmult_le_pos _ _ (Rabs_pos (rexp x)) (hm (bname x))).
  destruct (eltb (eint 0) (bexp x)) eqn:e1, (eltb (bexp x) (eint 0)) eqn:e2; cbn [wt map bname bexp eopp ev]; rewrite ?QcR_opp, ?Rabs_Ropp; try lra.
  apply eltb_lt in e1, e2. lra.
Qed.
Lemma cancel_same g B top bot : room g B -> good g top -> good g bot -> tot top + tot bot <= B ->
  g_cancel_units fo top bot = cancel_units top bot /\
  forall t b, cancel_units top bot = (t, b) -> good g t /\ good g b /\ forall mu, (forall n, 0 <= mu n) -> wt mu t + wt mu b <= wt mu top + wt mu bot.
Proof.
  intros hr gt gb hb. destruct (cancel_loop_same g B top bot hr gt gb hb) as [h1 h2]. unfold g_cancel_units, cancel_units. rewrite h1.
  destruct (cancel_loop top bot) as [t0 b0] eqn:r. split; [reflexivity|]. intros t b h. injection h as <- <-. destruct (h2 _ _ eq_refl) as (k1 & k2 & k3).
  split; [intros x hx; apply filter_In in hx; apply k1, hx|]. split.
  - apply good_app. split; [|intros x hx; apply filter_In in hx; apply k2, hx]. intros x hx. apply in_map_iff in hx. destruct hx as [y [<- hy]].
    apply filter_In in hy. apply grid_opp, k1, hy.
  - intros mu hm. specialize (k3 mu hm). rewrite wt_app. pose proof (wt_split mu t0 hm). pose proof (wt_filter mu (fun u => negb (e_is (bexp u) 0)) b0 hm). lra.
Qed.

(** ** Combining *)
Lemma wt_set mu l n x y : nth_error l n = Some y -> wt mu (set_nth n x l) = wt mu l - Rabs (rexp y) * mu (bname y) + Rabs (rexp x) * mu (bname x).
Proof.
  revert n. induction l as [|z l IH]; intros [|n] h; cbn in h; try discriminate; cbn [set_nth wt].
  - injection h as ->. lra.
  - rewrite (IH _ h). lra.
Qed.
Lemma good_set g l n x : good g l -> grid g (ev (bexp x)) -> good g (set_nth n x l).
Proof.
  revert n. induction l as [|z l IH]; intros [|n] hl hx; cbn [set_nth]; auto.
  - apply good_cons in hl. apply good_cons. tauto.
  - apply good_cons in hl. apply good_cons. split; [tauto|]. apply IH; tauto.
Qed.
Lemma tot_two l i j a b : i <> j -> nth_error l i = Some a -> nth_error l j = Some b -> Rabs (rexp a) + Rabs (rexp b) <= tot l.
Proof.
  intros hn hi hj. assert (h1 : wt one_ (set_nth i (BU "" (eint 0)) l) = tot l - Rabs (rexp a)).
  { rewrite (wt_set one_ l i _ a hi). rewrite rexp0, Rabs_R0. unfold one_. lra. }
  assert (h2 : In b (set_nth i (BU "" (eint 0)) l)).
  { apply (nth_error_In _ j). rewrite nth_set_nth_neq by exact hn. exact hj. }
  apply tot_in in h2. lra.
Qed.
Lemma combine_step_same g B i j l : room g B -> good g l -> tot l <= B ->
  g_combine_step fo i j l = combine_step i j l /\ good g (combine_step i j l) /\
  forall mu, (forall n, 0 <= mu n) -> wt mu (combine_step i j l) <= wt mu l.
Proof.
  intros hr hg hb. unfold g_combine_step, combine_step.
  destruct (nth_error l i) as [u1|] eqn:hi; [|split; [reflexivity|split; [exact hg|intros; lra]]].
  destruct (nth_error l j) as [u2|] eqn:hj; [|split; [reflexivity|split; [exact hg|intros; lra]]].
  destruct (String.eqb (bname u1) (bname u2) && negb (Nat.eqb i j)) eqn:c; [|split; [reflexivity|split; [exact hg|intros; lra]]].
  apply andb_prop in c. destruct c as [c1 c2]. apply String.eqb_eq in c1. apply negb_true_iff, Nat.eqb_neq in c2.
  pose proof (nth_error_In _ _ hi) as in1. pose proof (nth_error_In _ _ hj) as in2. pose proof (tot_two l i j u1 u2 c2 hi hj) as ht.
  cbn [fo e_add]. rewrite (add_same g B) by (auto; lra). split; [reflexivity|]. split.
  - apply good_set; [|apply grid_qc; exact (proj1 (proj1 hr))]. apply good_set; [exact hg|]. apply grid_plus; auto.
  - intros mu hm. rewrite (wt_set mu _ j _ u2) by (rewrite nth_set_nth_neq by exact c2; exact hj). rewrite (wt_set mu _ i _ u1 hi).
    rewrite rexp0, Rabs_R0. cbn [bname bexp eadd ev]. rewrite QcR_plus. pose proof (Rabs_triang (rexp u1) (rexp u2)). rewrite <- c1. pose proof (hm (bname u1)). nra.
Qed.
Lemma combine_same g B l : room g B -> good g l -> tot l <= B ->
  g_combine_units fo l = combine_units l /\ good g (combine_units l) /\
  forall mu, (forall n, 0 <= mu n) -> wt mu (combine_units l) <= wt mu l.
Proof.
  intros hr hg hb. unfold g_combine_units, combine_units. cbv zeta. revert hg hb.
  cut (forall is js l, good g l -> tot l <= B ->
    let a := fold_left (fun l i => fold_left (fun l j => g_combine_step fo i j l) is l) js l in
    let b := fold_left (fun l i => fold_left (fun l j => combine_step i j l) is l) js l in
    a = b /\ good g b /\ forall mu, (forall n, 0 <= mu n) -> wt mu b <= wt mu l); [intros h hg hb; exact (h _ _ l hg hb)|]. clear l.
  intros is js.
  assert (inner : forall i l, good g l -> tot l <= B ->
    let a := fold_left (fun l j => g_combine_step fo i j l) is l in let b := fold_left (fun l j => combine_step i j l) is l in
    a = b /\ good g b /\ forall mu, (forall n, 0 <= mu n) -> wt mu b <= wt mu l).
  { intros i. induction is as [|j is IH]; intros l hg hb; cbn [fold_left].
    - split; [reflexivity|]. split; [exact hg|]. intros; lra.
    - destruct (combine_step_same g B i j l hr hg hb) as (h1 & h2 & h3). rewrite h1. pose proof (h3 one_ one_pos).
      destruct (IH (combine_step i j l) h2) as (k1 & k2 & k3); [lra|]. split; [exact k1|]. split; [exact k2|]. intros mu hm. specialize (k3 mu hm). specialize (h3 mu hm). lra. }
  induction js as [|i js IH]; intros l hg hb; cbn [fold_left].
  - split; [reflexivity|]. split; [exact hg|]. intros; lra.
  - destruct (inner i l hg hb) as (h1 & h2 & h3). cbn zeta in h1. rewrite h1. pose proof (h3 one_ one_pos).
    destruct (IH _ h2) as (k1 & k2 & k3); [lra|]. split; [exact k1|]. split; [exact k2|]. intros mu hm. specialize (k3 mu hm). specialize (h3 mu hm). lra.
Qed.

(** ** The definitions *)
Lemma fl_small z : (Z.abs z <= 2 ^ 53)%Z -> fl (qc z) = qc z.
Proof.
  intro h. apply (fl_grid 0); [lia|apply grid_qc; lia|]. rewrite QcR_qc. change (p2 0) with 1. rewrite Rmult_1_r, <- abs_IZR, p2_nonneg by lia. apply IZR_le. exact h.
Qed.
Lemma fl1 : fl (qc 1) = qc 1. Proof. apply fl_small. discriminate. Qed.
Lemma fl2 : fl (qc 2) = qc 2. Proof. apply fl_small. discriminate. Qed.
Lemma fl3 : fl (qc 3) = qc 3. Proof. apply fl_small. discriminate. Qed.
Ltac fparse :=
  cbv -[py_float qc eflt fl]; rewrite ?py_float_2, ?py_float_3; cbv -[py_float qc eflt fl];
  rewrite ?py_float_2, ?py_float_3; cbv -[py_float qc eflt fl]; rewrite ?fl2, ?fl3; reflexivity.
Lemma fparse_defs d : In d (map snd DECONSTRUCTABLE_UNITS) -> g_parse_units fo d = parse_units d.
Proof.
  intro h. cbn in h. destruct h as [<-|[<-|[<-|[<-|[<-|[<-|[<-|[]]]]]]]].
  - rewrite parse_Pa. fparse.
  - rewrite parse_J. fparse.
  - rewrite parse_W. fparse.
  - rewrite parse_psi. fparse.
  - rewrite parse_cP. fparse.
  - rewrite parse_C. fparse.
  - rewrite parse_V. fparse.
Qed.
Lemma fparse_s1 : g_parse_units fo "kg/s^3*K" = parse_units "kg/s^3*K". Proof. rewrite parse_s1. fparse. Qed.
Lemma fparse_s2 : g_parse_units fo "kg/K*s^3" = parse_units "kg/K*s^3". Proof. rewrite parse_s2. fparse. Qed.
Lemma fparse_s3 : g_parse_units fo "kg/s^3" = parse_units "kg/s^3". Proof. rewrite parse_s3. fparse. Qed.
Lemma fparse_r1 : g_parse_units fo "W/m^2*K" = parse_units "W/m^2*K". Proof. rewrite parse_r1. fparse. Qed.
Lemma fparse_r2 : g_parse_units fo "W/m^2" = parse_units "W/m^2". Proof. rewrite parse_r2. fparse. Qed.
Lemma common_same top bot : g_common_simpl fo UNIT_SIMPLIFICATIONS top bot = do_common_simplifications top bot.
Proof.
  unfold do_common_simplifications, UNIT_SIMPLIFICATIONS. cbn [g_common_simpl common_simpl]. rewrite fparse_s1, fparse_s2, fparse_s3, fparse_r1, fparse_r2. reflexivity.
Qed.
Lemma dict_def n d : dict_get DECONSTRUCTABLE_UNITS n = Some d -> In d (map snd DECONSTRUCTABLE_UNITS).
Proof.
  rewrite decon_get. repeat match goal with |- context [if ?b then _ else _] => destruct b; [intro h; injection h as <-; cbn; tauto|] end. discriminate.
Qed.

(** The exponents in the definitions. *)
Definition defexp (x : bu) : Prop := exists z, (1 <= z <= 3)%Z /\ bexp x = eflt (qc z).
Lemma defn_exps n p : defn n = Some p -> forall d, In d (fst p ++ snd p) -> defexp d.
Proof.
  unfold defn. intro h.
  repeat match type of h with
  | context [if String.eqb n ?s then _ else _] => destruct (String.eqb n s);
      [injection h as <-; intros d hd; cbn in hd;
       repeat (destruct hd as [<-|hd]; [first [exists 1%Z; split; [lia|reflexivity] | exists 2%Z; split; [lia|reflexivity] | exists 3%Z; split; [lia|reflexivity]]|]); destruct hd|]
  | _ => discriminate h
  end.
Qed.
(** Weights that do not grow when a unit is expanded. *)
Definition shrinks (mu : string -> R) : Prop := (forall n, 0 <= mu n) /\ forall n p, defn n = Some p -> wt mu (fst p) + wt mu (snd p) <= mu n.
Lemma wt_scaled mu e l : wt mu (scaled e l) = Rabs (QcR (ev e)) * wt mu l.
Proof.
  induction l as [|x l IH]; cbn [scaled map wt]; [lra|]. unfold scaled in IH. rewrite IH. cbn [bname bexp emul ev]. rewrite QcR_mult, Rabs_mult. lra.
Qed.
Lemma scaled_same g B e l : room g B -> grid g (ev e) -> 3 <= B -> Rabs (QcR (ev e)) * tot l <= B -> (forall d, In d l -> defexp d) ->
  map (fun x => BU (bname x) (float_op Qcmult (bexp x) e)) l = scaled e l /\ good g (scaled e l).
Proof.
  intros hr ge h3 hb hd. induction l as [|x l IH]; [split; [reflexivity|apply good_nil]|]. rewrite tot_cons in hb.
  pose proof (tot_pos l). pose proof (Rabs_pos (rexp x)). pose proof (Rabs_pos (QcR (ev e))). cbn [map scaled]. unfold scaled in IH.
  destruct IH as [i1 i2]; [nra|intros; apply hd; right; assumption|]. rewrite i1. destruct (hd x (or_introl eq_refl)) as [z [hz ez]].
  assert (rz : rexp x = IZR z) by (rewrite ez; apply QcR_qc). assert (z3 : IZR z <= 3) by (apply (IZR_le z 3); lia).
  assert (z1 : 1 <= IZR z) by (apply (IZR_le 1); lia). rewrite rz, (Rabs_pos_eq (IZR z)) in hb by lra.
  rewrite ez. rewrite (mul_same g B) by (auto; try lia; try lra; nra). split; [reflexivity|]. apply good_cons. split; [|exact i2].
  cbn [bexp emul ev eflt]. apply grid_mulz. exact ge.
Qed.

(** ** Expanding *)
Definition size (n : string) : R :=
  if String.eqb n "V" then 7 else if String.eqb n "W" then 6 else if String.eqb n "J" then 5 else if String.eqb n "Pa" then 4
  else if String.eqb n "psi" then 3 else if String.eqb n "cP" then 3 else if String.eqb n "C" then 2 else 1.
Definition mass (n : string) : R :=
  if String.eqb n "V" then 2
  else if mem_str n ["W"; "J"; "Pa"; "psi"; "cP"; "C"; "kg"; "g"; "A"; "lbf"] then 1 else 0.
Ltac defn_each := let h := fresh "h" in unfold defn; intro h;
  repeat match type of h with
  | context [if String.eqb ?n ?s then _ else _] => let E := fresh "E" in destruct (String.eqb n s) eqn:E;
      [apply String.eqb_eq in E; subst n; injection h as <-|]
  | _ => discriminate h
  end.
Lemma R1 : QcR (ev f1) = 1. Proof. apply QcR_qc. Qed.
Lemma R2 : QcR (ev f2) = 2. Proof. apply QcR_qc. Qed.
Lemma R3 : QcR (ev f3) = 3. Proof. apply QcR_qc. Qed.
Lemma A1 : Rabs 1 = 1. Proof. apply Rabs_pos_eq. lra. Qed.
Lemma A2 : Rabs 2 = 2. Proof. apply Rabs_pos_eq. lra. Qed.
Lemma A3 : Rabs 3 = 3. Proof. apply Rabs_pos_eq. lra. Qed.
Ltac wts := cbn [fst snd wt bexp bname]; rewrite ?R1, ?R2, ?R3, ?A1, ?A2, ?A3.
Lemma size_ge n : 1 <= size n.
Proof. unfold size. repeat destruct (String.eqb _ _); lra. Qed.
Lemma size_shrinks : shrinks size.
Proof.
  split; [intro n; pose proof (size_ge n); lra|]. intros n p. defn_each; wts; cbv [size String.eqb Ascii.eqb Bool.eqb]; lra.
Qed.
Lemma mass_shrinks : shrinks mass.
Proof.
  split; [intro n; unfold mass; destruct (String.eqb n "V"); [lra|]; destruct (mem_str _ _); lra|].
  intros n p. defn_each; wts; cbv [mass mem_str existsb String.eqb Ascii.eqb Bool.eqb orb]; lra.
Qed.
Lemma wt_tot l : tot l <= wt size l.
Proof. induction l as [|x l IH]; [cbn; lra|]. rewrite tot_cons. cbn [wt]. pose proof (size_ge (bname x)). pose proof (Rabs_pos (rexp x)). nra. Qed.

Lemma expand_same g B x d p : room g B -> 3 <= B -> grid g (ev (bexp x)) -> Rabs (rexp x) * size (bname x) <= B ->
  dict_get DECONSTRUCTABLE_UNITS (bname x) = Some d -> parse_units d = Ok p -> defn (bname x) = Some p ->
  g_expand fo d (bexp x) = expand d (bexp x) /\ expand d (bexp x) = Ok (scaled (bexp x) (fst p), scaled (bexp x) (snd p)) /\
  good g (scaled (bexp x) (fst p)) /\ good g (scaled (bexp x) (snd p)).
Proof.
  intros hr h3 gx hb hd hp hn. pose proof (proj2 size_shrinks _ _ hn) as hs. pose proof (wt_tot (fst p)) as t1. pose proof (wt_tot (snd p)) as t2.
  pose proof (tot_pos (fst p)). pose proof (tot_pos (snd p)). pose proof (Rabs_pos (rexp x)) as ax.
  destruct (scaled_same g B (bexp x) (fst p) hr gx h3) as [a1 a2]; [nra|intros; apply (defn_exps _ _ hn), in_or_app; auto|].
  destruct (scaled_same g B (bexp x) (snd p) hr gx h3) as [b1 b2]; [nra|intros; apply (defn_exps _ _ hn), in_or_app; auto|].
  rewrite (expand_eq _ _ (bexp x) hp). unfold g_expand. rewrite (fparse_defs _ (dict_def _ _ hd)), hp. cbn [bind fo e_mul]. rewrite a1, b1. auto.
Qed.
Lemma expand_loop_same g B fuel pre rest other hit : room g B -> 3 <= B -> good g pre -> good g rest -> good g other ->
  wt size pre + wt size rest + wt size other <= B ->
  g_expand_loop fo fuel pre rest other hit = expand_loop fuel pre rest other hit /\
  forall t o h, expand_loop fuel pre rest other hit = Ok (t, o, h) -> good g t /\ good g o /\
    forall mu, shrinks mu -> wt mu t + wt mu o <= wt mu pre + wt mu rest + wt mu other.
Proof.
  intros hr h3. assert (sp : forall l, 0 <= wt size l) by (intro l; apply wt_pos, size_shrinks).
  revert pre rest other hit. induction fuel as [|fuel IH]; intros pre rest other hit gp gr go hb; destruct rest as [|x rest']; cbn [g_expand_loop expand_loop].
  - split; [reflexivity|]. intros t o h e. injection e as <- <- <-. split; [exact gp|]. split; [exact go|]. intros mu hm. cbn [wt]. lra.
  - split; [reflexivity|discriminate].
  - split; [reflexivity|]. intros t o h e. injection e as <- <- <-. split; [exact gp|]. split; [exact go|]. intros mu hm. cbn [wt]. lra.
  - apply good_cons in gr. destruct gr as [gx gr]. cbn [wt] in hb.
    destruct (derived_cases (bname x)) as [[_ [d [p [h1 [h2 hd]]]]]|[_ [h1 _]]]; rewrite h1.
    + destruct (expand_same g B x d p hr h3 gx) as (e1 & e2 & e3 & e4); auto.
      { pose proof (sp pre). pose proof (sp rest'). pose proof (sp other). lra. }
      rewrite e1, e2. cbn [bind fst snd].
      assert (hw : forall mu, shrinks mu -> wt mu (scaled (bexp x) (fst p)) + wt mu (scaled (bexp x) (snd p)) <= Rabs (rexp x) * mu (bname x)).
      { intros mu hm. rewrite !wt_scaled. pose proof (proj2 hm _ _ hd). pose proof (Rabs_pos (rexp x)). nra. }
      destruct (rest' ++ scaled (bexp x) (fst p)) as [|y ys] eqn:hrs.
      * split; [reflexivity|]. intros t o h e. injection e as <- <- <-. split; [exact gp|]. split; [apply good_app; auto|].
        intros mu hm. specialize (hw mu hm). rewrite wt_app. cbn [wt]. assert (0 <= wt mu rest') by (apply wt_pos, hm). assert (0 <= wt mu (scaled (bexp x) (fst p))) by (apply wt_pos, hm). lra.
      * assert (hl : forall mu, wt mu rest' + wt mu (scaled (bexp x) (fst p)) = Rabs (rexp y) * mu (bname y) + wt mu ys) by (intro mu; rewrite <- wt_app, hrs; reflexivity).
        assert (gl : good g (y :: ys)) by (rewrite <- hrs; apply good_app; auto). apply good_cons in gl. destruct gl as [gy gys].
        destruct (IH (pre ++ [y]) ys (other ++ scaled (bexp x) (snd p)) true) as [i1 i2].
        -- apply good_app. split; [exact gp|]. apply good_cons. split; [exact gy|apply good_nil].
        -- exact gys.
        -- apply good_app; auto.
        -- specialize (hl size). specialize (hw size size_shrinks). rewrite !wt_app. cbn [wt]. lra.
        -- split; [exact i1|]. intros t o h e. destruct (i2 _ _ _ e) as (k1 & k2 & k3). split; [exact k1|]. split; [exact k2|].
           intros mu hm. specialize (k3 mu hm). specialize (hl mu). specialize (hw mu hm). rewrite !wt_app in k3. cbn [wt] in *. lra.
    + destruct (IH (pre ++ [x]) rest' other hit) as [i1 i2].
      * apply good_app. split; [exact gp|]. apply good_cons. split; [exact gx|apply good_nil].
      * exact gr.
      * exact go.
      * rewrite wt_app. cbn [wt]. lra.
      * split; [exact i1|]. intros t o h e. destruct (i2 _ _ _ e) as (k1 & k2 & k3). split; [exact k1|]. split; [exact k2|].
        intros mu hm. specialize (k3 mu hm). rewrite wt_app in k3. cbn [wt] in *. lra.
Qed.
Lemma deconstruct_round_same g B top bot : room g B -> 3 <= B -> good g top -> good g bot -> wt size top + wt size bot <= B ->
  g_deconstruct_round fo top bot = deconstruct_round top bot /\
  forall t b h, deconstruct_round top bot = Ok (t, b, h) -> good g t /\ good g b /\
    forall mu, shrinks mu -> wt mu t + wt mu b <= wt mu top + wt mu bot.
Proof.
  intros hr h3 gt gb hb. unfold g_deconstruct_round, deconstruct_round.
  destruct (expand_loop_same g B (weights top) nil top bot false hr h3 (good_nil g) gt gb) as [e1 k1]; [cbn [wt]; lra|].
  destruct (expand_loop_ok (weights top) nil top bot false (le_n _)) as [t1 [b1 [h1 x1]]]. rewrite e1, x1. cbn [bind].
  destruct (k1 _ _ _ x1) as (g1 & g2 & w1). pose proof (w1 size size_shrinks) as s1. cbn [wt] in s1.
  destruct (expand_loop_same g B (weights b1) nil b1 t1 false hr h3 (good_nil g) g2 g1) as [e2 k2]; [cbn [wt]; lra|].
  destruct (expand_loop_ok (weights b1) nil b1 t1 false (le_n _)) as [b2 [t2 [h2 x2]]]. rewrite e2, x2. cbn [bind].
  split; [reflexivity|]. intros t b h e. injection e as <- <- <-. destruct (k2 _ _ _ x2) as (g3 & g4 & w2).
  split; [exact g4|]. split; [exact g3|]. intros mu hm. specialize (w1 mu hm). specialize (w2 mu hm). cbn [wt] in *. lra.
Qed.
Lemma deconstruct_same g B one top bot : room g B -> 3 <= B -> good g top -> good g bot -> wt size top + wt size bot <= B ->
  g_deconstruct_units fo one top bot = deconstruct_units one top bot /\
  forall t b, deconstruct_units one top bot = Ok (t, b) -> good g t /\ good g b /\
    forall mu, shrinks mu -> wt mu t + wt mu b <= wt mu top + wt mu bot.
Proof.
  intros hr h3. unfold g_deconstruct_units, deconstruct_units. generalize (S (weights top + weights bot)). intro fuel. revert top bot.
  induction fuel as [|fuel IH]; intros top bot gt gb hb; cbn [g_deconstruct_loop deconstruct_loop]; [split; [reflexivity|discriminate]|].
  destruct (deconstruct_round_same g B top bot hr h3 gt gb hb) as [e k]. rewrite e.
  destruct (deconstruct_round top bot) as [[[t b] h]|] eqn:r; [|split; [reflexivity|discriminate]]. cbn [bind].
  destruct (k _ _ _ eq_refl) as (g1 & g2 & w). destruct (h && negb one).
  - destruct (IH t b g1 g2) as [i1 i2]; [pose proof (w size size_shrinks); lra|]. split; [exact i1|]. intros t' b' x. destruct (i2 _ _ x) as (j1 & j2 & j3).
    split; [exact j1|]. split; [exact j2|]. intros mu hm. specialize (j3 mu hm). specialize (w mu hm). lra.
  - split; [reflexivity|]. intros t' b' x. injection x as <- <-. auto.
Qed.
