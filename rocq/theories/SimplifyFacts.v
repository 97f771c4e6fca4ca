(** * SimplifyFacts: reassembling derived units terminates and is exact *)
From Coq Require Import String Ascii List ZArith QArith Qcanon Qround Bool Reals Qreals Lia Lra.
From Verif Require Import Py Num UnitsData UnitsStruct Units NumFacts Spec StructFacts CancelFacts ExpandFacts.
Import ListNotations.
Local Open Scope string_scope.
Local Open Scope list_scope.
Local Open Scope R_scope.

Notation rexp u := (QcR (ev (bexp u))).

(** ** Positive parts of the top, negative parts of the bottom

    Their weighted sum never grows under cancelling; it pays for termination. *)
Definition pos (x : R) : R := Rmax 0 x.
Lemma pos_ge x : 0 <= pos x. Proof. apply Rmax_l. Qed.
Lemma pos_cases x : (0 <= x /\ pos x = x) \/ (x <= 0 /\ pos x = 0).
Proof. unfold pos. destruct (Rle_dec 0 x); [left|right]; split; try lra; [apply Rmax_right|apply Rmax_left]; lra. Qed.
Lemma pos_sub x y : pos (x - y) <= pos x + pos (- y).
Proof. destruct (pos_cases (x - y)), (pos_cases x), (pos_cases (- y)); lra. Qed.

Fixpoint plin (mu : string -> R) (l : half) : R :=
  match l with nil => 0 | x :: l' => pos (rexp x) * mu (bname x) + plin mu l' end.
Fixpoint nlin (mu : string -> R) (l : half) : R :=
  match l with nil => 0 | x :: l' => pos (- rexp x) * mu (bname x) + nlin mu l' end.

Lemma pos_zero : pos (- QcR (ev (eint 0))) = 0.
Proof. rewrite ev_eint, Ropp_0. destruct (pos_cases 0); lra. Qed.

Lemma absorb_le mu u bots u' b : (forall n, 0 <= mu n) -> absorb u bots = (u', b) ->
  pos (rexp u') * mu (bname u) + nlin mu b <= pos (rexp u) * mu (bname u) + nlin mu bots.
Proof.
  intro hm. revert u u' b. induction bots as [|x bs IH]; intros u u' b h; cbn in h.
  - injection h as <- <-. cbn. lra.
  - destruct (String.eqb (bname u) (bname x) && negb (e_is (bexp u) 0)) eqn:c.
    + destruct (absorb (BU (bname u) (esub (bexp u) (bexp x))) bs) as [u1 b1] eqn:r. injection h as <- <-.
      apply IH in r. cbn [bname bexp esub ev] in r. rewrite QcR_minus in r.
      apply andb_true_iff in c. destruct c as [c _]. apply String.eqb_eq in c.
      cbn [nlin bname bexp]. rewrite pos_zero, <- c.
      pose proof (Rmult_le_compat_r _ _ _ (hm (bname u)) (pos_sub (rexp u) (rexp x))). lra.
    + destruct (absorb u bs) as [u1 b1] eqn:r. injection h as <- <-. apply IH in r. cbn [nlin]. lra.
Qed.

Lemma absorb_drop mu u bots u' b v : (forall n, 0 <= mu n) -> absorb u bots = (u', b) ->
  In v bots -> bname v = bname u -> 0 <= rexp v ->
  pos (rexp u') * mu (bname u) + nlin mu b <= pos (rexp u - rexp v) * mu (bname u) + nlin mu bots.
Proof.
  intro hm. revert u u' b. induction bots as [|x bs IH]; intros u u' b h hv hvn v0; [destruct hv|]. cbn in h.
  destruct (String.eqb (bname u) (bname x) && negb (e_is (bexp u) 0)) eqn:c.
  - destruct (absorb (BU (bname u) (esub (bexp u) (bexp x))) bs) as [u1 b1] eqn:r. injection h as <- <-.
    apply andb_true_iff in c. destruct c as [c _]. apply String.eqb_eq in c.
    cbn [nlin bname bexp]. rewrite pos_zero, <- c.
    destruct hv as [<-|hv].
    + apply (absorb_le mu) in r; [|exact hm]. cbn [bname bexp esub ev] in r. rewrite QcR_minus in r.
      pose proof (Rmult_le_pos _ _ (pos_ge (- rexp x)) (hm (bname u))). lra.
    + apply (IH _ _ _ r) in hv; auto. cbn [bname bexp esub ev] in hv. rewrite QcR_minus in hv.
      replace (rexp u - rexp x - rexp v) with ((rexp u - rexp v) - rexp x) in hv by lra.
      pose proof (Rmult_le_compat_r _ _ _ (hm (bname u)) (pos_sub (rexp u - rexp v) (rexp x))). lra.
  - destruct (absorb u bs) as [u1 b1] eqn:r. injection h as <- <-. cbn [nlin].
    destruct hv as [<-|hv]; [|apply (IH _ _ _ r) in hv; auto; lra].
    rewrite hvn, String.eqb_refl in c. cbn in c. apply negb_false_iff in c. apply expo_z in c.
    rewrite (absorb_zero u bs) in r by (apply nz_false; exact c). injection r as <- <-.
    rewrite c. pose proof (Rmult_le_pos _ _ (pos_ge (0 - rexp x)) (hm (bname u))).
    destruct (pos_cases 0) as [[_ ->]|[_ ->]]; lra.
Qed.

Lemma absorb_other u bots u' b v : absorb u bots = (u', b) -> In v bots -> bname v <> bname u -> In v b.
Proof.
  revert u u' b. induction bots as [|x bs IH]; intros u u' b h hv hn; [destruct hv|]. cbn in h.
  destruct (String.eqb (bname u) (bname x) && negb (e_is (bexp u) 0)) eqn:c.
  - destruct (absorb (BU (bname u) (esub (bexp u) (bexp x))) bs) as [u1 b1] eqn:r. injection h as <- <-.
    apply andb_true_iff in c. destruct c as [c _]. apply String.eqb_eq in c.
    destruct hv as [<-|hv]; [congruence|]. right. eapply IH; eauto.
  - destruct (absorb u bs) as [u1 b1] eqn:r. injection h as <- <-.
    destruct hv as [<-|hv]; [left; reflexivity|]. right. eapply IH; eauto.
Qed.

Lemma cancel_loop_le mu tops bots t b : (forall n, 0 <= mu n) -> cancel_loop tops bots = (t, b) ->
  plin mu t + nlin mu b <= plin mu tops + nlin mu bots.
Proof.
  intro hm. revert bots t b. induction tops as [|u ts IH]; intros bots t b h; cbn in h.
  - injection h as <- <-. cbn. lra.
  - destruct (absorb u bots) as [u' b1] eqn:r. destruct (cancel_loop ts b1) as [t2 b2] eqn:r2. injection h as <- <-.
    apply IH in r2. pose proof (absorb_name _ _ _ _ r) as hn. apply (absorb_le mu) in r; [|exact hm].
    cbn [plin]. rewrite hn. lra.
Qed.

Lemma cancel_loop_drop mu tops bots t b v : (forall n, 0 <= mu n) -> cancel_loop tops bots = (t, b) ->
  In v bots -> 0 <= rexp v -> (exists u, In u tops /\ bname u = bname v) ->
  (forall u, In u tops -> bname u = bname v -> rexp v <= rexp u) ->
  plin mu t + nlin mu b <= plin mu tops + nlin mu bots - rexp v * mu (bname v).
Proof.
  intro hm. revert bots t b. induction tops as [|u ts IH]; intros bots t b h hv v0 [x [hx hxn]] hall; [destruct hx|].
  cbn in h. destruct (absorb u bots) as [u' b1] eqn:r. destruct (cancel_loop ts b1) as [t2 b2] eqn:r2. injection h as <- <-.
  cbn [plin]. rewrite (absorb_name _ _ _ _ r).
  destruct (string_dec (bname u) (bname v)) as [e|e].
  - pose proof (cancel_loop_le mu ts b1 t2 b2 hm r2) as rest.
    pose proof (hall u (or_introl eq_refl) e) as le.
    pose proof (absorb_drop mu _ _ _ _ v hm r hv (eq_sym e) v0) as d. rewrite e in *.
    destruct (pos_cases (rexp u - rexp v)) as [[_ p1]|[p0 p1]].
    + rewrite p1 in d. destruct (pos_cases (rexp u)) as [[_ p2]|[p2 _]]; [rewrite p2; lra|].
      assert (rexp u = 0) by lra. assert (rexp v = 0) by lra. rewrite H0, H in *.
      destruct (pos_cases 0) as [[_ p3]|[_ p3]]; rewrite p3; lra.
    + assert (ev0 : rexp u = rexp v) by lra. rewrite p1 in d.
      rewrite ev0. destruct (pos_cases (rexp v)) as [[_ p2]|[p2 p3]]; [rewrite p2; lra|].
      assert (z : rexp v = 0) by lra. rewrite p3, z. lra.
  - assert (plin mu t2 + nlin mu b2 <= plin mu ts + nlin mu b1 - rexp v * mu (bname v)).
    { eapply IH; eauto.
      + eapply absorb_other; eauto.
      + destruct hx as [<-|hx]; [congruence|]. exists x. auto.
      + intros y hy. apply hall. right. exact hy. }
    apply (absorb_le mu) in r; [|exact hm]. lra.
Qed.

(** After sorting the signs. *)
Lemma plin_app mu l1 l2 : plin mu (l1 ++ l2) = plin mu l1 + plin mu l2.
Proof. induction l1 as [|x l IH]; cbn [app plin]; [lra|]. rewrite IH. lra. Qed.
Lemma nlin_app mu l1 l2 : nlin mu (l1 ++ l2) = nlin mu l1 + nlin mu l2.
Proof. induction l1 as [|x l IH]; cbn [app nlin]; [lra|]. rewrite IH. lra. Qed.
Lemma plin_filter mu l : plin mu (filter (fun u => eltb (eint 0) (bexp u)) l) = plin mu l.
Proof.
  induction l as [|u l IH]; cbn [plin filter]; [reflexivity|].
  destruct (eltb (eint 0) (bexp u)) eqn:e; cbn [plin]; rewrite IH; [reflexivity|].
  apply eltb_ge in e. rewrite ev_eint in e. destruct (pos_cases (rexp u)) as [[h ->]|[_ ->]]; [|lra].
  replace (rexp u) with 0 by lra. lra.
Qed.
Lemma nlin_nonneg mu l : (forall u, In u l -> 0 <= rexp u) -> nlin mu l = 0.
Proof.
  induction l as [|u l IH]; intro h; cbn [nlin]; [reflexivity|]. rewrite IH by (intros; apply h; right; auto).
  pose proof (h u (or_introl eq_refl)). destruct (pos_cases (- rexp u)) as [[h1 ->]|[_ ->]]; [|lra].
  replace (- rexp u) with 0 by lra. lra.
Qed.
Lemma plin_nonneg mu l : (forall u, In u l -> 0 <= rexp u) -> plin mu l = lin mu l.
Proof.
  induction l as [|u l IH]; intro h; cbn [plin lin]; [reflexivity|]. rewrite IH by (intros; apply h; right; auto).
  pose proof (h u (or_introl eq_refl)). destruct (pos_cases (rexp u)) as [[h1 ->]|[h1 ->]]; [reflexivity|].
  replace (rexp u) with 0 by lra. reflexivity.
Qed.
Lemma nlin_filter_nz mu l : nlin mu (filter (fun u => negb (e_is (bexp u) 0)) l) = nlin mu l.
Proof.
  induction l as [|u l IH]; cbn [nlin filter]; [reflexivity|].
  destruct (e_is (bexp u) 0) eqn:e; cbn [negb nlin]; rewrite IH; [|reflexivity].
  apply expo_z in e. rewrite e, Ropp_0. destruct (pos_cases 0) as [[_ ->]|[_ ->]]; lra.
Qed.
Lemma cancel_measure mu top bot t b t0 b0 : cancel_loop top bot = (t0, b0) -> cancel_units top bot = (t, b) ->
  plin mu t + nlin mu b = plin mu t0 + nlin mu b0.
Proof.
  intros h e. unfold cancel_units in e. rewrite h in e. injection e as <- <-.
  rewrite plin_filter, nlin_app, nlin_filter_nz. rewrite (nlin_nonneg mu (map _ _)); [lra|].
  intros u hu. apply in_map_iff in hu. destruct hu as [y [<- hy]]. apply filter_In in hy. destruct hy as [_ hy].
  apply eltb_lt in hy. rewrite ev_eint in hy. cbn [bexp eopp ev]. rewrite QcR_opp. lra.
Qed.

(** ** What a match provides *)
Lemma exps_ok_spec defn l : exps_ok defn l = true ->
  forall d u, In d defn -> In u l -> bname d = bname u -> rexp d <= rexp u.
Proof.
  unfold exps_ok. intros h d u hd hu hn. rewrite forallb_forall in h. specialize (h d hd).
  rewrite forallb_forall in h. specialize (h u hu). rewrite hn, String.eqb_refl in h. cbn in h.
  apply negb_true_iff in h. apply eltb_ge in h. exact h.
Qed.
Lemma names_sub_spec a b : names_sub a b = true -> forall x, In x a -> exists y, In y b /\ bname x = bname y.
Proof.
  unfold names_sub. intros h x hx. rewrite forallb_forall in h. specialize (h x hx).
  apply existsb_exists in h. destruct h as [y [hy e]]. apply String.eqb_eq in e. eauto.
Qed.

Lemma QcR_div a b : QcR b <> 0 -> QcR (a / b)%Qc = QcR a / QcR b.
Proof.
  intro h. unfold Qcdiv. rewrite QcR_mult. unfold Rdiv. f_equal.
  unfold Qcinv. rewrite QcR_Q2Qc. apply Q2R_inv. intro e. apply h. unfold QcR.
  rewrite (Qeq_eqR _ _ e). unfold Q2R. cbn. field.
Qed.

Lemma count_spec defn l n :
  (forall d, In d defn -> 0 < rexp d) ->
  (forall d u, In d defn -> In u l -> bname d = bname u -> rexp d <= rexp u) ->
  1 <= QcR (ev n) ->
  1 <= QcR (ev (count_matches defn l n)) /\
  QcR (ev (count_matches defn l n)) <= QcR (ev n) /\
  (forall d u, In d defn -> In u l -> bname d = bname u -> QcR (ev (count_matches defn l n)) * rexp d <= rexp u).
Proof.
  intros hd hle. unfold count_matches.
  assert (inner : forall d l' n, 0 < rexp d -> (forall u, In u l' -> bname d = bname u -> rexp d <= rexp u) -> 1 <= QcR (ev n) ->
    let r := fold_left (fun n u2 => if String.eqb (bname d) (bname u2) then
       let m := ediv (bexp u2) (bexp d) in if eltb m n then m else n else n) l' n in
    1 <= QcR (ev r) /\ QcR (ev r) <= QcR (ev n) /\
    (forall u, In u l' -> bname d = bname u -> QcR (ev r) * rexp d <= rexp u)).
  { intros d l' m0 d0. revert m0. induction l' as [|u l' IH]; intros m0 hu h1; cbn.
    - repeat split; try lra; auto. intros u [].
    - set (m1 := if String.eqb (bname d) (bname u) then _ else m0).
      assert (k1 : 1 <= QcR (ev m1) /\ QcR (ev m1) <= QcR (ev m0) /\ (bname d = bname u -> QcR (ev m1) * rexp d <= rexp u)).
      { unfold m1. destruct (String.eqb (bname d) (bname u)) eqn:e.
        - apply String.eqb_eq in e. pose proof (hu u (or_introl eq_refl) e) as hh.
          assert (dv : QcR (ev (ediv (bexp u) (bexp d))) = rexp u / rexp d) by (cbn [ediv ev]; apply QcR_div; lra).
          assert (1 <= rexp u / rexp d) by (apply Rmult_le_reg_r with (rexp d); [lra|]; unfold Rdiv; rewrite Rmult_assoc, Rinv_l; lra).
          assert (ex : rexp u / rexp d * rexp d = rexp u) by (field; lra).
          destruct (eltb (ediv (bexp u) (bexp d)) m0) eqn:lt.
          + apply eltb_lt in lt. rewrite dv in *. repeat split; try lra.
          + apply eltb_ge in lt. rewrite dv in lt. repeat split; try lra. intros _.
            pose proof (Rmult_le_compat_r (rexp d) _ _ (Rlt_le _ _ d0) lt). lra.
        - apply String.eqb_neq in e. repeat split; try lra; tauto. }
      destruct k1 as [k1 [k2 k3]].
      destruct (IH m1) as [j1 [j2 j3]]; [intros; apply hu; auto; right; auto|exact k1|].
      repeat split; auto; try lra. intros v [<-|hv] e; [|apply j3; auto].
      pose proof (Rmult_le_compat_r (rexp d) _ _ (Rlt_le _ _ d0) j2). specialize (k3 e). lra. }
  revert n. induction defn as [|d defn IH]; intros n h1; cbn.
  - repeat split; try lra. intros d u [].
  - destruct (inner d l n) as [i1 [i2 i3]]; [apply hd; left; auto|intros; apply hle; auto; left; auto|exact h1|].
    set (n1 := fold_left _ l n) in *.
    destruct (IH (fun x hx => hd x (or_intror hx)) (fun x u hx => hle x u (or_intror hx)) n1 i1) as [j1 [j2 j3]].
    repeat split; auto; try lra. intros x u [<-|hx] hu e; [|apply j3; auto].
    pose proof (Rmult_le_compat_r (rexp d) _ _ (Rlt_le _ _ (hd d (or_introl eq_refl))) j2).
    specialize (i3 u hu e). lra.
Qed.

Lemma defn_pos n p : defn n = Some p -> forall d, In d (fst p ++ snd p) -> 0 < rexp d.
Proof.
  assert (E1 : QcR (ev f1) = 1) by apply QcR_qc.
  assert (E2 : QcR (ev f2) = 2) by apply QcR_qc.
  assert (E3 : QcR (ev f3) = 3) by apply QcR_qc.
  unfold defn.
  repeat match goal with
  | |- context [String.eqb n ?s] => destruct (String.eqb n s);
      [intro h; injection h as <-; intros d hd; cbn in hd;
       repeat (destruct hd as [<-|hd]; [cbn [bexp]; rewrite ?E1, ?E2, ?E3; lra|]); destruct hd|]
  | _ => discriminate
  end.
Qed.

(** A match of the derived unit [u] with multiplicity [k]. *)
Record matched (top bot : half) (u : string) (k : expo) (p : half * half) : Prop := {
  ma_defn : defn u = Some p;
  ma_k : 1 <= QcR (ev k);
  ma_top : forall d, In d (fst p) -> exists y, In y top /\ bname d = bname y;
  ma_bot : forall d, In d (snd p) -> exists y, In y bot /\ bname d = bname y;
  ma_tople : forall d y, In d (fst p) -> In y top -> bname d = bname y -> QcR (ev k) * rexp d <= rexp y;
  ma_botle : forall d y, In d (snd p) -> In y bot -> bname d = bname y -> QcR (ev k) * rexp d <= rexp y
}.

Lemma decon_in kd : In kd DECONSTRUCTABLE_UNITS ->
  exists p, parse_units (snd kd) = Ok p /\ defn (fst kd) = Some p /\ dict_get DECONSTRUCTABLE_UNITS (fst kd) = Some (snd kd).
Proof.
  intro h. cbn in h. destruct h as [<-|[<-|[<-|[<-|[<-|[<-|[<-|[]]]]]]]]; cbn [fst snd]; eexists.
  - split; [apply parse_Pa|split; reflexivity].
  - split; [apply parse_J|split; reflexivity].
  - split; [apply parse_W|split; reflexivity].
  - split; [apply parse_psi|split; reflexivity].
  - split; [apply parse_cP|split; reflexivity].
  - split; [apply parse_C|split; reflexivity].
  - split; [apply parse_V|split; reflexivity].
Qed.

Lemma match_one_ok top bot kd : In kd DECONSTRUCTABLE_UNITS ->
  exists r, match_one top bot kd = Ok r /\
  (forall u k, r = Some (u, k) -> exists p, u = fst kd /\ matched top bot u k p).
Proof.
  intro h. destruct (decon_in kd h) as [[dt db] [e1 [e2 e3]]]. unfold match_one. rewrite e1. cbn [bind].
  destruct (names_sub dt top && names_sub db bot && exps_ok dt top && exps_ok db bot) eqn:c.
  2:{ eexists. split; [reflexivity|]. discriminate. }
  apply andb_true_iff in c. destruct c as [c c4]. apply andb_true_iff in c. destruct c as [c c3].
  apply andb_true_iff in c. destruct c as [c1 c2].
  eexists. split; [reflexivity|]. intros u k hr. injection hr as <- <-. exists (dt, db). split; [reflexivity|].
  pose proof (defn_pos _ _ e2) as dp. cbn [fst snd] in dp.
  destruct (count_spec dt top (eint 100)) as [a1 [a2 a3]].
  { intros d hd. apply dp. apply in_or_app. auto. } { apply exps_ok_spec. exact c3. } { rewrite ev_eint. lra. }
  destruct (count_spec db bot (count_matches dt top (eint 100))) as [b1 [b2 b3]].
  { intros d hd. apply dp. apply in_or_app. auto. } { apply exps_ok_spec. exact c4. } { exact a1. }
  constructor; cbn [fst snd]; auto.
  - apply names_sub_spec. exact c1.
  - apply names_sub_spec. exact c2.
  - intros d y hd hy hn. specialize (a3 d y hd hy hn).
    assert (0 < rexp d) by (apply dp; apply in_or_app; auto).
    pose proof (Rmult_le_compat_r (rexp d) _ _ (Rlt_le _ _ H) b2). lra.
Qed.

Lemma mapM_match top bot l : (forall kd, In kd l -> In kd DECONSTRUCTABLE_UNITS) ->
  exists ms, mapM (match_one top bot) l = Ok ms /\
   (forall u k, In (u, k) (somes ms) -> exists p, matched top bot u k p).
Proof.
  induction l as [|kd l IH]; intro h.
  - exists nil. split; [reflexivity|]. intros u k [].
  - destruct (match_one_ok top bot kd (h kd (or_introl eq_refl))) as [r [e1 e2]].
    destruct IH as [ms [e3 e4]]; [intros; apply h; right; auto|].
    exists (r :: ms). cbn [mapM]. rewrite e1. cbn [bind]. rewrite e3. split; [reflexivity|].
    intros u k hin. cbn in hin. destruct r as [[u0 k0]|]; [|apply e4; exact hin].
    destruct hin as [hin|hin]; [|apply e4; exact hin]. injection hin as -> ->.
    destruct (e2 u k eq_refl) as [p [_ hp]]. eauto.
Qed.

Lemma best_in l cur : In (best l cur) (cur :: l).
Proof.
  revert cur. induction l as [|x l IH]; intro cur; cbn; [auto|].
  destruct (IH (if eltb (snd cur) (snd x) then x else cur)) as [h|h]; [|auto].
  rewrite <- h. destruct (eltb (snd cur) (snd x)); auto.
Qed.

Lemma sum_ge l : (forall u k, In (u, k) l -> 1 <= QcR (ev k)) -> 0 <= QcR (sum_matches l).
Proof.
  induction l as [|[u k] l IH]; intro h; cbn [sum_matches fold_right]; [rewrite QcR_qc; lra|].
  cbn [snd]. rewrite QcR_plus. pose proof (h u k (or_introl eq_refl)).
  assert (0 <= QcR (sum_matches l)) by (apply IH; intros; eapply h; right; eauto). unfold sum_matches in *. lra.
Qed.

(** ** One round *)
Definition mu (n : string) : R :=
  if String.eqb n "kg" then 2
  else if String.eqb n "J" then 1 else if String.eqb n "A" then 1
  else if String.eqb n "lbf" then 1 else if String.eqb n "g" then 1 else 0.
Lemma mu_pos n : 0 <= mu n.
Proof. unfold mu. repeat destruct (String.eqb _ _); lra. Qed.
Lemma mu_le n : mu n <= 2.
Proof. unfold mu. repeat destruct (String.eqb _ _); lra. Qed.

(** The unit of a definition whose weight pays for one round. *)
Lemma defn_key n p : defn n = Some p -> exists d, In d (fst p) /\ rexp d = 1 /\
  mu n + lin mu (snd p) + 1 <= mu (bname d).
Proof.
  assert (E1 : QcR (ev f1) = 1) by apply QcR_qc.
  assert (E2 : QcR (ev f2) = 2) by apply QcR_qc.
  assert (E3 : QcR (ev f3) = 3) by apply QcR_qc.
  unfold defn.
  repeat match goal with
  | |- context [String.eqb n ?s] => let E := fresh "E" in destruct (String.eqb n s) eqn:E;
      [apply String.eqb_eq in E; subst n; intro h; injection h as <-;
       eexists; split; [left; reflexivity|]; split; [exact E1|]; cbn [lin fst snd bname bexp]; rewrite ?E1, ?E2, ?E3;
       unfold mu; cbn; lra|]
  | _ => discriminate
  end.
Qed.

Lemma defn_derived n p : defn n = Some p -> In n derived_names.
Proof.
  intro h. destruct (derived_cases n) as [[hd _]|[_ [_ h']]]; auto. congruence.
Qed.

Lemma scaled_in e l x : In x (scaled e l) -> exists d, In d l /\ bname x = bname d /\ rexp x = rexp d * QcR (ev e).
Proof.
  unfold scaled. rewrite in_map_iff. intros [d [<- h]]. exists d. split; auto. split; [reflexivity|].
  cbn [bexp emul ev]. apply QcR_mult.
Qed.

Definition measure (top bot : half) : R := plin mu top + nlin mu bot.

Lemma round_match top bot u k p t b : matched top bot u k p ->
  cancel_units (top ++ scaled k (snd p)) (bot ++ scaled k (fst p)) = (t, b) ->
  measure (t ++ [BU u k]) b <= measure top bot - 1 /\
  (forall phi, compat phi -> lin phi (t ++ [BU u k]) - lin phi b = lin phi top - lin phi bot).
Proof.
  intros [md mk m1 m2 m3 m4] h.
  pose proof (defn_pos _ _ md) as dp.
  assert (dp1 : forall x, In x (scaled k (fst p)) -> 0 <= rexp x).
  { intros x hx. apply scaled_in in hx. destruct hx as [d [hd [_ ->]]].
    assert (0 < rexp d) by (apply dp; apply in_or_app; auto). apply Rlt_le, Rmult_lt_0_compat; lra. }
  assert (dp2 : forall x, In x (scaled k (snd p)) -> 0 <= rexp x).
  { intros x hx. apply scaled_in in hx. destruct hx as [d [hd [_ ->]]].
    assert (0 < rexp d) by (apply dp; apply in_or_app; auto). apply Rlt_le, Rmult_lt_0_compat; lra. }
  split.
  - destruct (defn_key _ _ md) as [d [hd [d1 hmu]]].
    destruct (cancel_loop (top ++ scaled k (snd p)) (bot ++ scaled k (fst p))) as [t0 b0] eqn:cl.
    pose proof (cancel_measure mu _ _ _ _ _ _ cl h) as cm.
    set (v := BU (bname d) (emul (bexp d) k)).
    assert (hv : In v (scaled k (fst p))) by (unfold scaled; apply in_map_iff; exists d; auto).
    assert (ve : rexp v = QcR (ev k)) by (unfold v; cbn [bexp emul ev]; rewrite QcR_mult, d1; lra).
    assert (drop : plin mu t0 + nlin mu b0 <= plin mu (top ++ scaled k (snd p)) + nlin mu (bot ++ scaled k (fst p)) - rexp v * mu (bname v)).
    { apply (cancel_loop_drop mu _ _ _ _ v mu_pos cl).
      - apply in_or_app. right. exact hv.
      - lra.
      - destruct (m1 d hd) as [y [hy hn]]. exists y. split; [apply in_or_app; auto|]. unfold v. cbn. auto.
      - intros x hx hn. rewrite ve. apply in_app_or in hx. destruct hx as [hx|hx].
        + assert (e : bname d = bname x) by (unfold v in hn; cbn in hn; auto).
          pose proof (m3 d x hd hx e) as hh. rewrite d1 in hh. lra.
        + apply scaled_in in hx. destruct hx as [d' [hd' [hn' ->]]].
          exfalso. assert (e : bname d' = bname d) by (unfold v in hn; cbn in hn; congruence).
          clear -md hd hd' e hmu. revert md.
          unfold defn.
          repeat match goal with
          | |- context [String.eqb u ?s] => let E := fresh "E" in destruct (String.eqb u s) eqn:E;
              [intro h; injection h as <-; cbn in hd, hd';
               repeat (destruct hd as [<-|hd]; [repeat (destruct hd' as [<-|hd']; [discriminate e|]); destruct hd'|]);
               destruct hd|]
          | _ => discriminate
          end. }
    rewrite plin_app, nlin_app, (plin_nonneg mu _ dp2), (nlin_nonneg mu _ dp1), lin_scaled, ve in drop.
    unfold v in drop. cbn [bname] in drop.
    assert (k0 : 0 <= QcR (ev k)) by lra.
    pose proof (Rmult_le_compat_l (QcR (ev k)) _ _ k0 hmu).
    unfold measure. rewrite plin_app. cbn [plin bexp bname].
    destruct (pos_cases (QcR (ev k))) as [[_ pk]|[pk _]]; [rewrite pk|]; lra.
  - intros phi hc. pose proof (cancel_lin phi _ _ _ _ h) as cl. rewrite !lin_app, !lin_scaled in cl.
    rewrite lin_app. cbn [lin bexp bname]. pose proof (hc _ _ md) as hx. rewrite hx. lra.
Qed.

Lemma round_simpl_ok top bot :
  simplify_round top bot = Ok None \/
  exists t b, simplify_round top bot = Ok (Some (t, b)) /\ measure t b <= measure top bot - 1 /\
   (forall phi, compat phi -> lin phi t - lin phi b = lin phi top - lin phi bot).
Proof.
  unfold simplify_round.
  destruct (mapM_match top bot DECONSTRUCTABLE_UNITS (fun _ h => h)) as [ms [e hm]]. rewrite e. cbn [bind].
  destruct (somes ms) as [|m ms'] eqn:es; [auto|].
  destruct (Qc_eq_bool (sum_matches (m :: ms')) (qc 0)) eqn:z; [auto|]. right.
  destruct (best ms' m) as [u k] eqn:eb. pose proof (best_in ms' m) as hb. rewrite eb in hb.
  destruct (hm u k hb) as [p mp].
  destruct (derived_cases u) as [[hd [d [p' [h1 [h2 h3]]]]]|[hd [h1 h3]]].
  2:{ pose proof (ma_defn _ _ _ _ _ mp). congruence. }
  assert (p' = p) by (pose proof (ma_defn _ _ _ _ _ mp); congruence). subst p'.
  rewrite h1, (expand_eq d p k h2). cbn [bind fst snd].
  destruct (cancel_units (top ++ scaled k (snd p)) (bot ++ scaled k (fst p))) as [t b] eqn:c.
  exists (t ++ [BU u k]), b. split; [reflexivity|]. eapply round_match; eauto.
Qed.

Lemma plin_ge l : 0 <= plin mu l.
Proof.
  induction l as [|x l IH]; cbn [plin]; [lra|].
  pose proof (Rmult_le_pos _ _ (pos_ge (rexp x)) (mu_pos (bname x))). lra.
Qed.
Lemma nlin_ge l : 0 <= nlin mu l.
Proof.
  induction l as [|x l IH]; cbn [nlin]; [lra|].
  pose proof (Rmult_le_pos _ _ (pos_ge (- rexp x)) (mu_pos (bname x))). lra.
Qed.

Lemma simplify_loop_ok fuel top bot : measure top bot < INR fuel ->
  exists t b, simplify_loop fuel top bot = Ok (t, b) /\
   (forall phi, compat phi -> lin phi t - lin phi b = lin phi top - lin phi bot) /\
   simplify_round t b = Ok None.
Proof.
  revert top bot. induction fuel as [|fuel IH]; intros top bot hf.
  - unfold measure in hf. pose proof (plin_ge top). pose proof (nlin_ge bot). cbn in hf. lra.
  - cbn [simplify_loop]. destruct (round_simpl_ok top bot) as [e|[t [b [e [hm hl]]]]]; rewrite e; cbn [bind].
    + exists top, bot. repeat split; auto.
    + destruct (IH t b) as [t' [b' [e' [l' r']]]]; [rewrite S_INR in hf; lra|].
      exists t', b'. repeat split; auto. intros phi hc. rewrite l', hl by auto. reflexivity.
Qed.

Lemma QcR_abs q : QcR (Qcabs q) = Rabs (QcR q).
Proof.
  unfold Qcabs. destruct (Qcltb q (qc 0)) eqn:c.
  - apply Qcltb_lt in c. rewrite QcR_qc in c. rewrite QcR_opp, Rabs_left; auto.
  - apply Qcltb_ge in c. rewrite QcR_qc in c. rewrite Rabs_right; lra.
Qed.
Lemma pos_abs x : pos x <= Rabs x /\ pos (- x) <= Rabs x.
Proof.
  pose proof (Rle_abs x). pose proof (Rle_abs (- x)) as h. rewrite Rabs_Ropp in h. pose proof (Rabs_pos x).
  destruct (pos_cases x), (pos_cases (- x)); lra.
Qed.
Lemma plin_abs l : plin mu l <= 2 * QcR (abs_total l) /\ nlin mu l <= 2 * QcR (abs_total l).
Proof.
  induction l as [|x l IH]; cbn [plin nlin abs_total fold_right]; [rewrite QcR_qc; lra|].
  fold (abs_total l). rewrite QcR_plus, QcR_abs.
  destruct (pos_abs (rexp x)) as [p1 p2]. pose proof (mu_le (bname x)) as m2. pose proof (mu_pos (bname x)) as m0.
  pose proof (Rabs_pos (rexp x)) as a0.
  pose proof (Rmult_le_compat _ _ _ _ (pos_ge (rexp x)) m0 p1 m2).
  pose proof (Rmult_le_compat _ _ _ _ (pos_ge (- rexp x)) m0 p2 m2). lra.
Qed.

Lemma Q2R_le_ceiling q : Q2R q <= IZR (Qceiling q).
Proof.
  pose proof (Qle_ceiling q) as h. apply Qle_Rle in h. unfold Q2R at 2 in h. cbn in h. lra.
Qed.

Lemma fuel_enough top bot : measure top bot < INR (simplify_fuel top bot).
Proof.
  destruct (plin_abs top) as [a1 _]. destruct (plin_abs bot) as [_ a2]. unfold simplify_fuel. rewrite S_INR.
  set (s := (abs_total top + abs_total bot)%Qc).
  pose proof (Q2R_le_ceiling (this (s + s)%Qc)) as c.
  fold (QcR (s + s)%Qc) in c. rewrite QcR_plus in c. unfold s at 1 2 in c. rewrite QcR_plus in c.
  set (z := Qceiling _) in *.
  assert (IZR z <= INR (Z.to_nat z)).
  { destruct (Z_le_gt_dec 0 z) as [l|l].
    - rewrite INR_IZR_INZ, Z2Nat.id by lia. lra.
    - pose proof (pos_INR (Z.to_nat z)). assert (IZR z < 0) by (apply IZR_lt; lia). lra. }
  unfold measure. lra.
Qed.

(** ** Common simplifications *)
Lemma parse_s1 : parse_units "kg/s^3*K" = Ok ([BU "kg" f1], [BU "s" f3; BU "K" f1]).
Proof. parse_lit. Qed.
Lemma parse_s2 : parse_units "kg/K*s^3" = Ok ([BU "kg" f1], [BU "K" f1; BU "s" f3]).
Proof. parse_lit. Qed.
Lemma parse_s3 : parse_units "kg/s^3" = Ok ([BU "kg" f1], [BU "s" f3]).
Proof. parse_lit. Qed.
Lemma parse_r1 : parse_units "W/m^2*K" = Ok ([BU "W" f1], [BU "m" f2; BU "K" f1]).
Proof. parse_lit. Qed.
Lemma parse_r2 : parse_units "W/m^2" = Ok ([BU "W" f1], [BU "m" f2]).
Proof. parse_lit. Qed.

Lemma half_eqb_lin phi a b : half_eqb a b = true -> lin phi a = lin phi b.
Proof.
  revert b. induction a as [|x a IH]; intros [|y b] h; cbn in h; try discriminate; [reflexivity|].
  apply andb_true_iff in h. destruct h as [h1 h2]. unfold bu_eqb in h1. apply andb_true_iff in h1.
  destruct h1 as [h0 h1]. apply String.eqb_eq in h0. apply Qceqb_eq in h1. cbn [lin]. rewrite h0, h1, (IH b h2). reflexivity.
Qed.

Lemma common_ok top bot : exists t b, do_common_simplifications top bot = Ok (t, b) /\
  (forall phi, compat phi -> lin phi t - lin phi b = lin phi top - lin phi bot) /\
  ((t = top /\ b = bot) \/ (exists v, In v top /\ bname v = "kg")).
Proof.
  unfold do_common_simplifications, UNIT_SIMPLIFICATIONS. cbn [common_simpl].
  assert (E1 : QcR (ev f1) = 1) by apply QcR_qc.
  assert (E2 : QcR (ev f2) = 2) by apply QcR_qc.
  assert (E3 : QcR (ev f3) = 3) by apply QcR_qc.
  assert (W : forall phi, compat phi -> phi "W" = phi "kg" + 2 * phi "m" - 3 * phi "s").
  { intros phi hc. rewrite (hc "W" _ eq_refl). cbn [lin fst snd bname bexp]. rewrite E1.
    rewrite (hc "J" _ eq_refl). cbn [lin fst snd bname bexp]. rewrite E1, E2. lra. }
  rewrite parse_s1. cbn [bind fst snd].
  destruct (half_eqb [BU "kg" f1] top && half_eqb [BU "s" f3; BU "K" f1] bot) eqn:c1.
  { apply andb_true_iff in c1. destruct c1 as [c1 c2].
    rewrite parse_r1. eexists _, _. split; [reflexivity|]. split.
    - intros phi hc. rewrite <- (half_eqb_lin phi _ _ c1), <- (half_eqb_lin phi _ _ c2).
      cbn [lin bname bexp]. rewrite E1, E2, E3, (W phi hc). lra.
    - right. destruct top as [|v tp]; [discriminate|]. cbn in c1. apply andb_true_iff in c1. destruct c1 as [c1 _].
      unfold bu_eqb in c1. apply andb_true_iff in c1. destruct c1 as [c1 _]. apply String.eqb_eq in c1.
      exists v. split; [left; reflexivity|]. auto. }
  rewrite parse_s2. cbn [bind fst snd].
  destruct (half_eqb [BU "kg" f1] top && half_eqb [BU "K" f1; BU "s" f3] bot) eqn:c2.
  { apply andb_true_iff in c2. destruct c2 as [c2 c3].
    rewrite parse_r1. eexists _, _. split; [reflexivity|]. split.
    - intros phi hc. rewrite <- (half_eqb_lin phi _ _ c2), <- (half_eqb_lin phi _ _ c3).
      cbn [lin bname bexp]. rewrite E1, E2, E3, (W phi hc). lra.
    - right. destruct top as [|v tp]; [discriminate|]. cbn in c2. apply andb_true_iff in c2. destruct c2 as [c2 _].
      unfold bu_eqb in c2. apply andb_true_iff in c2. destruct c2 as [c2 _]. apply String.eqb_eq in c2.
      exists v. split; [left; reflexivity|]. auto. }
  rewrite parse_s3. cbn [bind fst snd].
  destruct (half_eqb [BU "kg" f1] top && half_eqb [BU "s" f3] bot) eqn:c3.
  { apply andb_true_iff in c3. destruct c3 as [c3 c4].
    rewrite parse_r2. eexists _, _. split; [reflexivity|]. split.
    - intros phi hc. rewrite <- (half_eqb_lin phi _ _ c3), <- (half_eqb_lin phi _ _ c4).
      cbn [lin bname bexp]. rewrite E1, E2, E3, (W phi hc). lra.
    - right. destruct top as [|v tp]; [discriminate|]. cbn in c3. apply andb_true_iff in c3. destruct c3 as [c3 _].
      unfold bu_eqb in c3. apply andb_true_iff in c3. destruct c3 as [c3 _]. apply String.eqb_eq in c3.
      exists v. split; [left; reflexivity|]. auto. }
  exists top, bot. split; [reflexivity|]. split; auto.
Qed.

Lemma simplify_ok top bot :
  exists t b, simplify_units top bot = Ok (t, b) /\
   (forall phi, compat phi -> lin phi t - lin phi b = lin phi top - lin phi bot).
Proof.
  unfold simplify_units.
  destruct (simplify_loop_ok (simplify_fuel top bot) top bot (fuel_enough top bot))
    as [t [b [e [hl _]]]]. rewrite e. cbn [bind fst snd].
  destruct (common_ok t b) as [t' [b' [e' [hl' _]]]]. exists t', b'. split; [exact e'|].
  intros phi hc. rewrite hl', hl by auto. reflexivity.
Qed.
