(** * The integral method: proofs *)
From Coq Require Import List ZArith QArith Qcanon Qround Qreals Bool Reals Lia Lra.
From Verif Require Import Py Num NumFacts PrefixFacts Correlations KineticsSpec.
Import ListNotations.
Local Open Scope R_scope.

(** ** Sums *)
Definition ones_ (l : list R) : list R := map (fun _ => 1) l.
Lemma products_shift c d : forall a b, length a = length b ->
  products (map (fun x => x - c) a) (map (fun x => x - d) b) = products a b - d * total a - c * total b + INR (length a) * c * d.
Proof.
  induction a as [|x a ih]; destruct b as [|y b]; intro h; try discriminate; [cbn; lra|].
  injection h as h. cbn [map products total fold_right]. rewrite ih by exact h. fold (total a) (total b).
  replace (length (x :: a)) with (S (length a)) by reflexivity. rewrite S_INR. ring.
Qed.
Lemma sse_sums a b : forall t y, length t = length y ->
  sse t y a b = products y y + a ^ 2 * INR (length t) + b ^ 2 * products t t - 2 * a * total y - 2 * b * products t y + 2 * a * b * total t.
Proof.
  induction t as [|u t ih]; destruct y as [|v y]; intro h; try discriminate; [cbn; lra|].
  injection h as h. unfold sse in *. cbn [combine fold_right fst snd products total]. rewrite ih by exact h. fold (total t) (total y).
  replace (length (u :: t)) with (S (length t)) by reflexivity. rewrite S_INR. ring.
Qed.
Lemma products_comm : forall a b, products a b = products b a.
Proof. induction a as [|x a ih]; destruct b as [|y b]; cbn; try reflexivity. rewrite ih. ring. Qed.
Lemma products_nonneg : forall a, 0 <= products a a.
Proof. induction a as [|x a ih]; cbn; [lra|]. pose proof (Rle_0_sqr x) as h. unfold Rsqr in h. lra. Qed.
(** The sum of squares around the means. *)
Lemma sse_centred t y a b : length t = length y -> length t <> 0%nat ->
  sse t y a b = products (centred y) (centred y) - 2 * b * products (centred t) (centred y) + b ^ 2 * products (centred t) (centred t)
    + INR (length t) * (mean y - a - b * mean t) ^ 2.
Proof.
  intros h n. rewrite sse_sums by exact h. unfold centred. rewrite !products_shift by (auto; congruence). unfold mean. rewrite <- h.
  assert (INR (length t) <> 0) by (apply not_0_INR; exact n). field. exact H.
Qed.
Lemma length_centred l : length (centred l) = length l. Proof. apply map_length. Qed.
Lemma best_line t y : length t = length y -> products (centred t) (centred t) <> 0 -> products (centred y) (centred y) <> 0 ->
  determines t y (products (centred t) (centred y) ^ 2 / (products (centred t) (centred t) * products (centred y) (centred y))).
Proof.
  intros h ht hy. set (A := products (centred t) (centred t)) in *. set (B := products (centred y) (centred y)) in *. set (C := products (centred t) (centred y)).
  assert (pa : 0 < A) by (pose proof (products_nonneg (centred t)); fold A in H; lra).
  assert (pb : 0 < B) by (pose proof (products_nonneg (centred y)); fold B in H; lra).
  assert (n : length t <> 0%nat). { intro e. destruct t; [|discriminate]. apply ht. reflexivity. }
  assert (pn : 0 <= INR (length t)) by apply pos_INR.
  assert (key : forall a b, sse t y a b = B - C ^ 2 / A + A * (b - C / A) ^ 2 + INR (length t) * (mean y - a - b * mean t) ^ 2).
  { intros a b. rewrite sse_centred by assumption. fold A B C. field. exact ht. }
  assert (key0 : forall a, sse t y a 0 = B + INR (length t) * (mean y - a) ^ 2).
  { intro a. rewrite sse_centred by assumption. fold A B C. ring. }
  exists (mean y - C / A * mean t), (C / A), (mean y). repeat split.
  - intros a b. rewrite !key. replace (mean y - (mean y - C / A * mean t) - C / A * mean t) with 0 by ring. replace (C / A - C / A) with 0 by ring.
    assert (0 <= A * (b - C / A) ^ 2) by (apply Rmult_le_pos; [lra|apply pow2_ge_0]).
    assert (0 <= INR (length t) * (mean y - a - b * mean t) ^ 2) by (apply Rmult_le_pos; [exact pn|apply pow2_ge_0]). lra.
  - intro m. rewrite !key0. replace (mean y - mean y) with 0 by ring.
    assert (0 <= INR (length t) * (mean y - m) ^ 2) by (apply Rmult_le_pos; [exact pn|apply pow2_ge_0]). lra.
  - rewrite key0. replace (mean y - mean y) with 0 by ring. lra.
  - rewrite key, key0. replace (mean y - (mean y - C / A * mean t) - C / A * mean t) with 0 by ring. replace (C / A - C / A) with 0 by ring. replace (mean y - mean y) with 0 by ring. field. split; assumption.
Qed.
Lemma sse_nonneg t y a b : 0 <= sse t y a b.
Proof. unfold sse. induction (combine t y) as [|p l ih]; cbn [fold_right]; [lra|]. pose proof (pow2_ge_0 (snd p - (a + b * fst p))). lra. Qed.
Lemma determines_range t y r : determines t y r -> 0 <= r <= 1.
Proof.
  intros [a [b [m [h1 [h2 [h3 h4]]]]]]. pose proof (sse_nonneg t y a b) as p. pose proof (h1 m 0) as q. rewrite h4 in p, q.
  split.
  - assert ((1 - r) * sse t y m 0 <= 1 * sse t y m 0) as k by lra. apply Rmult_le_reg_r in k; lra.
  - assert (0 * sse t y m 0 <= (1 - r) * sse t y m 0) as k by lra. apply Rmult_le_reg_r in k; lra.
Qed.
(** The coefficient is unique. *)
Lemma determines_unique t y r r' : determines t y r -> determines t y r' -> r = r'.
Proof.
  intros [a [b [m [h1 [h2 [h3 h4]]]]]] [a' [b' [m' [k1 [k2 [k3 k4]]]]]].
  assert (e1 : sse t y a b = sse t y a' b') by (apply Rle_antisym; auto). assert (e2 : sse t y m 0 = sse t y m' 0) by (apply Rle_antisym; auto).
  rewrite h4, k4, <- e2 in e1. apply Rmult_eq_reg_r in e1; lra.
Qed.
Lemma numbers_ok : forall d y, numbers d = Some y -> d = map Fin y.
Proof.
  induction d as [|x d ih]; intros y h; cbn in h; [injection h as <-; reflexivity|].
  destruct x as [x| |]; [|discriminate|discriminate]. unfold numbers in ih. destruct (fold_right _ _ d) as [l|] eqn:e; [|discriminate]. injection h as <-. cbn. rewrite (ih l) by reflexivity. reflexivity.
Qed.
Lemma numbers_map y : numbers (map Fin y) = Some y.
Proof. induction y as [|x y ih]; [reflexivity|]. unfold numbers in *. cbn. rewrite ih. reflexivity. Qed.
Lemma r2_determines t d r : get_r_squared t d = Ok (Some r) -> exists y, d = map Fin y /\ length t = length y /\ determines t y r.
Proof.
  unfold get_r_squared. destruct (Nat.eqb_spec (length t) (length d)) as [el|]; [|discriminate]. destruct (numbers d) as [y|] eqn:e; [|discriminate].
  apply numbers_ok in e. subst d. rewrite map_length in el. destruct (Reqb _ 0) eqn:e1; [discriminate|]. destruct (Reqb (products (centred y) _) 0) eqn:e2; [discriminate|]. cbn [orb].
  intro h. injection h as <-. exists y. split; [reflexivity|]. split; [exact el|]. apply best_line; [exact el| |]; apply Reqb_false; assumption.
Qed.
(** ** The loop *)
Lemma loop_best t : forall orders data o b o' b', integral_loop t orders data o b = Ok (o', b') ->
  b <= b' /\ (forall i d r, In (i, d) (seen orders data) -> get_r_squared t d = Ok (Some r) -> r <= b') /\
  ((o' = o /\ b' = b) \/ (exists l1 d l2, seen orders data = l1 ++ (o', d) :: l2 /\ get_r_squared t d = Ok (Some b') /\ b < b' /\
     forall i d r, In (i, d) l1 -> get_r_squared t d = Ok (Some r) -> r < b')).
Proof.
  induction orders as [|i orders ih]; intros data o b o' b' h; cbn [integral_loop seen] in *.
  - injection h as <- <-. split; [lra|]. split; [intros ? ? ? []|left; auto].
  - destruct (transform i data) as [d|] eqn:et; [|discriminate]. cbn [bind] in h. destruct (get_r_squared t d) as [[r|]|] eqn:er; [| |discriminate]; cbn [bind] in h.
    + destruct (Rltb b r) eqn:el.
      * apply Rltb_true in el. destruct (ih _ _ _ _ _ h) as [h1 [h2 h3]]. split; [lra|]. split.
        -- intros j e s [hi|hi] hr; [injection hi as <- <-; rewrite er in hr; injection hr as <-; lra|eauto].
        -- right. destruct h3 as [[-> ->]|[l1 [e [l2 [k1 [k2 [k3 k4]]]]]]].
           ++ exists nil, d, (seen orders d). split; [reflexivity|]. split; [exact er|]. split; [exact el|]. intros ? ? ? [].
           ++ exists ((i, d) :: l1), e, l2. split; [cbn; rewrite k1; reflexivity|]. split; [exact k2|]. split; [lra|].
              intros j f s [hi|hi] hr; [injection hi as <- <-; rewrite er in hr; injection hr as <-; lra|eauto].
      * apply Rltb_false in el. destruct (ih _ _ _ _ _ h) as [h1 [h2 h3]]. split; [lra|]. split.
        -- intros j e s [hi|hi] hr; [injection hi as <- <-; rewrite er in hr; injection hr as <-; lra|eauto].
        -- destruct h3 as [h3|[l1 [e [l2 [k1 [k2 [k3 k4]]]]]]]; [left; exact h3|right].
           exists ((i, d) :: l1), e, l2. split; [cbn; rewrite k1; reflexivity|]. split; [exact k2|]. split; [lra|].
           intros j f s [hi|hi] hr; [injection hi as <- <-; rewrite er in hr; injection hr as <-; lra|eauto].
    + destruct (ih _ _ _ _ _ h) as [h1 [h2 h3]]. split; [exact h1|]. split.
      * intros j e s [hi|hi] hr; [injection hi as <- <-; rewrite er in hr; discriminate|eauto].
      * destruct h3 as [h3|[l1 [e [l2 [k1 [k2 [k3 k4]]]]]]]; [left; exact h3|right].
        exists ((i, d) :: l1), e, l2. split; [cbn; rewrite k1; reflexivity|]. split; [exact k2|]. split; [lra|].
        intros j f s [hi|hi] hr; [injection hi as <- <-; rewrite er in hr; discriminate|eauto].
Qed.
Lemma seen_orders : forall orders data i d, In (i, d) (seen orders data) -> In i orders.
Proof.
  induction orders as [|j orders ih]; intros data i d; cbn [seen]; [intros []|]. destruct (transform j data); [|intros []]. intros [h|h]; [injection h as <- <-; left; reflexivity|right; eauto].
Qed.
Lemma method_best t x start stop step o r : integral_method t x start stop step = Ok (o, r) ->
  exists orders, arange start stop step = Ok orders /\ 0 <= r <= 1 /\
    (forall i d s, In (i, d) (seen orders (map Fin x)) -> get_r_squared t d = Ok (Some s) -> s <= r) /\
    ((o = Q2Qc 0 /\ r = 0) \/
     (exists l1 y l2, seen orders (map Fin x) = l1 ++ (o, map Fin y) :: l2 /\ length t = length y /\ determines t y r /\
       forall i d s, In (i, d) l1 -> get_r_squared t d = Ok (Some s) -> s < r)).
Proof.
  unfold integral_method. destruct (arange start stop step) as [orders|] eqn:ea; [|discriminate]. cbn [bind]. intro h.
  destruct (loop_best _ _ _ _ _ _ _ h) as [h1 [h2 h3]]. exists orders. split; [reflexivity|].
  assert (hr : (o = Q2Qc 0 /\ r = 0) \/
     (exists l1 y l2, seen orders (map Fin x) = l1 ++ (o, map Fin y) :: l2 /\ length t = length y /\ determines t y r /\
       forall i d s, In (i, d) l1 -> get_r_squared t d = Ok (Some s) -> s < r)).
  { destruct h3 as [[-> ->]|[l1 [d [l2 [k1 [k2 [k3 k4]]]]]]]; [left; split; reflexivity|right].
    destruct (r2_determines _ _ _ k2) as [y [-> [el hd]]]. exists l1, y, l2. auto. }
  split; [|split; [exact h2|exact hr]]. destruct hr as [[_ ->]|[l1 [y [l2 [_ [_ [hd _]]]]]]]; [lra|]. eapply determines_range, hd.
Qed.
Lemma method_order t x start stop step o r : integral_method t x start stop step = Ok (o, r) ->
  0 <= r <= 1 /\ (o = Q2Qc 0 \/ exists orders, arange start stop step = Ok orders /\ In o orders).
Proof.
  intro h. destruct (method_best _ _ _ _ _ _ _ h) as [orders [ea [hr [_ h3]]]]. split; [exact hr|]. destruct h3 as [[-> _]|[l1 [y [l2 [k1 _]]]]]; [left; reflexivity|right].
  exists orders. split; [exact ea|]. eapply (seen_orders orders (map Fin x)). rewrite k1. apply in_or_app. right. left. reflexivity.
Qed.
(** ** Data that follow a rate law exactly *)
Lemma products_scale s : forall a b, products a (map (Rmult s) b) = s * products a b.
Proof. induction a as [|x a ih]; destruct b as [|y b]; cbn; try ring. rewrite ih. ring. Qed.
Lemma total_linear c s t : total (map (fun u => c + s * u) t) = INR (length t) * c + s * total t.
Proof. induction t as [|u t ih]; [cbn; ring|]. replace (length (u :: t)) with (S (length t)) by reflexivity. cbn [map total fold_right]. fold (total (map (fun u => c + s * u) t)) (total t). rewrite ih, S_INR. ring. Qed.
Lemma centred_linear c s t : centred (map (fun u => c + s * u) t) = map (Rmult s) (centred t).
Proof.
  destruct t as [|u0 t0]; [reflexivity|]. set (t := u0 :: t0). unfold centred. rewrite !map_map. apply map_ext. intro u. unfold mean. rewrite total_linear, map_length.
  field. apply not_0_INR. discriminate.
Qed.
Lemma products_zero : forall a, products a a = 0 -> forall x, In x a -> x = 0.
Proof.
  induction a as [|y a ih]; cbn; [intros _ ? []|]. intros h x hx. pose proof (products_nonneg a) as p. pose proof (Rle_0_sqr y) as q. unfold Rsqr in q.
  assert (y * y = 0) by lra. assert (y = 0) by (apply Rsqr_0_uniq; exact H). destruct hx as [<-|hx]; [assumption|]. apply ih; [lra|exact hx].
Qed.
Lemma spread_ok t : spread t -> products (centred t) (centred t) <> 0.
Proof.
  intros [a [b [ha [hb n]]]] h. pose proof (products_zero _ h) as k.
  pose proof (k _ (in_map (fun x => x - mean t) _ _ ha)) as ka. pose proof (k _ (in_map (fun x => x - mean t) _ _ hb)) as kb. lra.
Qed.
Lemma linear_r2 c s t : s <> 0 -> spread t -> get_r_squared t (map Fin (map (fun u => c + s * u) t)) = Ok (Some 1).
Proof.
  intros hs ht. pose proof (spread_ok _ ht) as hp. unfold get_r_squared. rewrite !map_length, Nat.eqb_refl, numbers_map, centred_linear. cbv zeta.
  assert (e : products (map (Rmult s) (centred t)) (map (Rmult s) (centred t)) = s * s * products (centred t) (centred t)).
  { rewrite products_scale, products_comm, products_scale. ring. }
  assert (hn : s * s * products (centred t) (centred t) <> 0) by (apply Rmult_integral_contrapositive; split; [apply Rmult_integral_contrapositive; split; assumption|exact hp]).
  rewrite e, (proj2 (Reqb_false _ _) hp), (proj2 (Reqb_false _ _) hn), products_scale. cbn [orb]. do 2 f_equal. field. split; assumption.
Qed.
Lemma linear_list (f : R -> R) c s t x : Forall2 (fun t x => f x = c + s * t) t x -> map f x = map (fun u => c + s * u) t.
Proof. intro h. induction h as [|u v t x h1 h2 ih]; [reflexivity|]. cbn. rewrite h1, ih. reflexivity. Qed.
Lemma mapM_some (f : datum -> res datum) (g : R -> R) x : Forall (fun v => f (Fin v) = Ok (Fin (g v))) x -> mapM f (map Fin x) = Ok (map Fin (map g x)).
Proof. intro h. induction h as [|v x h1 h2 ih]; [reflexivity|]. cbn. rewrite h1. cbn [bind]. rewrite ih. reflexivity. Qed.
Lemma Qc_dec1 n : n <> Q2Qc 1 -> Qc_eq_bool n (qc 1) = false.
Proof. intro h. destruct (Qc_eq_bool n (qc 1)) eqn:e; [|reflexivity]. exfalso. apply h. apply Qc_eq_bool_correct. exact e. Qed.
Lemma QcR1' n : n <> Q2Qc 1 -> QcR n <> 1.
Proof. intros h e. apply h. apply QcR_inj. rewrite e. change (Q2Qc 1) with (qc 1). rewrite QcR_qc. reflexivity. Qed.
Lemma positives t x (P : R -> R -> Prop) : Forall2 (fun t x => 0 < x /\ P t x) t x -> Forall (fun v => 0 < v) x.
Proof. intro h. induction h as [|u v t x [h1 _] h2 ih]; constructor; assumption. Qed.
Lemma Forall2_weaken {A B} (P Q : A -> B -> Prop) a b : (forall x y, P x y -> Q x y) -> Forall2 P a b -> Forall2 Q a b.
Proof. intros k h. induction h; constructor; auto. Qed.
Lemma power_ok i v : 0 < v -> power_point i (Fin v) = Ok (Fin (Rpower v (1 - QcR i) / (1 - QcR i))).
Proof. intro p. unfold power_point. rewrite Rpowq_pos by exact p. rewrite QcR_minus, QcR_qc. reflexivity. Qed.
Lemma inverse_ok i v : 0 < v -> inverse_point i (Fin v) = Ok (Fin (Rpower v (1 - QcR i))).
Proof.
  intro p. unfold inverse_point. rewrite Rpowq_pos by exact p. assert (q : 0 < Rpower v (QcR (i - qc 1))) by apply exp_pos.
  rewrite (proj2 (Reqb_false _ _)) by lra. do 2 f_equal. unfold Rdiv. rewrite Rmult_1_l, <- Rpower_Ropp. f_equal. rewrite QcR_minus, QcR_qc. ring.
Qed.
Lemma log_ok v : 0 < v -> log_point (Fin v) = Ok (Fin (ln v)).
Proof. intro p. unfold log_point. rewrite (proj2 (Rltb_true _ _) p). reflexivity. Qed.
(** The transformation of order n makes data of order n linear. *)
Lemma transform_follows n t x : 0 <= QcR n -> follows n t x -> exists c s, s <> 0 /\ transform n (map Fin x) = Ok (map Fin (map (fun u => c + s * u) t)).
Proof.
  intros hn [c [s [hs h]]]. pose proof (positives _ _ _ h) as hp. unfold transform, law in *. destruct (Qc_eq_dec n (Q2Qc 1)) as [->|n1].
  - exists c, s. split; [exact hs|]. change (Qc_eq_bool (Q2Qc 1) (qc 1)) with true. cbv iota. rewrite (mapM_some _ ln).
    + do 2 f_equal. apply linear_list. eapply Forall2_weaken; [|exact h]. intros ? ? [_ k]. exact k.
    + eapply Forall_impl; [|exact hp]. intros. apply log_ok. assumption.
  - rewrite Qc_dec1 by exact n1. pose proof (QcR1' _ n1) as n1'. destruct (Rlt_le_dec (QcR n) 1) as [l1|l1].
    + rewrite (proj2 (Qcltb_lt n (qc 1))) by (rewrite QcR_qc; exact l1). destruct (Rlt_le_dec 0 (QcR n)) as [l0|l0].
      * rewrite (proj2 (Qcltb_lt (qc 0) n)) by (rewrite QcR_qc; exact l0). cbn [andb]. exists (c / (1 - QcR n)), (s / (1 - QcR n)). split.
        { intro e. apply hs. apply (Rmult_eq_compat_r (1 - QcR n)) in e. unfold Rdiv in e. rewrite Rmult_assoc, Rinv_l, Rmult_1_r, Rmult_0_l in e by lra. exact e. }
        rewrite (mapM_some _ (fun v => Rpower v (1 - QcR n) / (1 - QcR n))).
        -- do 2 f_equal. apply linear_list. eapply Forall2_weaken; [|exact h]. intros u v [_ k]. rewrite k. field. lra.
        -- eapply Forall_impl; [|exact hp]. intros. apply power_ok. assumption.
      * rewrite (proj2 (Qcltb_ge (qc 0) n)) by (rewrite QcR_qc; exact l0). cbn [andb]. exists c, s. split; [exact hs|].
        do 2 f_equal. rewrite <- (map_id x). apply (linear_list (fun v => v)). eapply Forall2_weaken; [|exact h]. intros u v [p k]. rewrite <- k.
        replace (1 - QcR n) with 1 by lra. symmetry. apply Rpower_1. exact p.
    + rewrite (proj2 (Qcltb_ge n (qc 1))) by (rewrite QcR_qc; exact l1). cbn [andb]. exists c, s. split; [exact hs|].
      rewrite (mapM_some _ (fun v => Rpower v (1 - QcR n))).
      * do 2 f_equal. apply linear_list. eapply Forall2_weaken; [|exact h]. intros u v [_ k]. exact k.
      * eapply Forall_impl; [|exact hp]. intros. apply inverse_ok. assumption.
Qed.
Lemma arange_single (n : Q) : arange n (n + 1) 1 = Ok [Q2Qc n].
Proof.
  unfold arange. change (Qeq_bool 1 0) with false. cbv iota. assert (e : ((n + 1 - n) / 1 == inject_Z 1)%Q) by (unfold inject_Z; field).
  rewrite (Qceiling_comp _ _ e), Qceiling_Z. change (Z.to_nat 1) with 1%nat. cbn [List.seq map]. do 2 f_equal. apply Q2Qc_eq_iff. cbn [Z.of_nat]. unfold inject_Z. ring.
Qed.
Lemma method_single n t x : 0 <= Q2R n -> spread t -> follows (Q2Qc n) t x -> integral_method t x n (n + 1) 1 = Ok (Q2Qc n, 1).
Proof.
  intros hn ht hf. unfold integral_method. rewrite arange_single. cbn [bind integral_loop]. rewrite <- QcR_Q2Qc in hn.
  destruct (transform_follows _ _ _ hn hf) as [c [s [hs e]]]. rewrite e. cbn [bind]. rewrite (linear_r2 _ _ _ hs ht). cbn [bind]. rewrite (proj2 (Rltb_true 0 1)) by lra. reflexivity.
Qed.
(** Which round is reported when one of them fits exactly. *)
Lemma app_cases {A} (l1 l2 A1 B1 : list A) p q : l1 ++ p :: l2 = A1 ++ q :: B1 -> In q l1 \/ p = q \/ In p A1.
Proof.
  revert A1. induction l1 as [|x l1 ih]; intros A1 h; destruct A1 as [|y A1]; cbn in h; injection h as h1 h2; subst.
  - right. left. reflexivity.
  - right. right. left. reflexivity.
  - left. left. reflexivity.
  - destruct (ih _ h2) as [k|[k|k]]; [left; right; exact k|right; left; exact k|right; right; right; exact k].
Qed.
Lemma exact_round t x start stop step orders A1 n d B1 o r : integral_method t x start stop step = Ok (o, r) -> arange start stop step = Ok orders ->
  seen orders (map Fin x) = A1 ++ (n, d) :: B1 -> get_r_squared t d = Ok (Some 1) ->
  r = 1 /\ (o = n \/ exists y, In (o, map Fin y) A1 /\ determines t y 1).
Proof.
  intros h ea es hd. destruct (method_best _ _ _ _ _ _ _ h) as [orders' [ea' [hr [hm h3]]]]. rewrite ea in ea'. injection ea' as <-.
  assert (e1 : r = 1). { assert (1 <= r) by (apply (hm n d); [rewrite es; apply in_or_app; right; left; reflexivity|exact hd]). lra. }
  split; [exact e1|]. subst r. destruct h3 as [[_ e]|[l1 [y [l2 [k1 [k2 [k3 k4]]]]]]]; [lra|]. rewrite k1 in es.
  destruct (app_cases _ _ _ _ _ _ es) as [k|[k|k]].
  - pose proof (k4 _ _ _ k hd). lra.
  - left. injection k as k _. exact k.
  - right. exists y. split; assumption.
Qed.
Lemma seen_app : forall pre rest data d, (forall i, In i pre -> transform i data = Ok data) -> d = data -> seen (pre ++ rest) data = map (fun i => (i, data)) pre ++ seen rest d.
Proof.
  induction pre as [|i pre ih]; intros rest data d h ->; [reflexivity|]. cbn [app seen map]. rewrite (h i (or_introl eq_refl)). f_equal. apply ih; [|reflexivity]. intros j hj. apply h. right. exact hj.
Qed.
Lemma transform_nonpos i data : QcR i <= 0 -> transform i data = Ok data.
Proof.
  intro h. unfold transform. rewrite Qc_dec1. 2:{ intros ->. rewrite QcR_Q2Qc in h. unfold Q2R in h. cbn in h. lra. }
  rewrite (proj2 (Qcltb_ge (qc 0) i)) by (rewrite QcR_qc; exact h). rewrite andb_false_r. rewrite (proj2 (Qcltb_lt i (qc 1))) by (rewrite QcR_qc; lra). reflexivity.
Qed.
(** Orders up to zero leave the data alone, so the first positive order is judged fairly. *)
Lemma method_first n t x start stop step pre post o r : arange start stop step = Ok (pre ++ n :: post) -> Forall (fun i => QcR i <= 0) pre -> 0 <= QcR n ->
  spread t -> follows n t x -> integral_method t x start stop step = Ok (o, r) -> r = 1 /\ (o = n \/ In o pre /\ determines t x 1).
Proof.
  intros ea hp hn ht hf h. destruct (transform_follows _ _ _ hn hf) as [c [s [hs e]]].
  assert (es : seen (pre ++ n :: post) (map Fin x) = map (fun i => (i, map Fin x)) pre ++ (n, map Fin (map (fun u => c + s * u) t)) :: seen post (map Fin (map (fun u => c + s * u) t))).
  { rewrite (seen_app pre (n :: post) (map Fin x) (map Fin x)); [|intros i hi; apply transform_nonpos; exact (proj1 (Forall_forall _ _) hp _ hi)|reflexivity]. cbn [seen]. rewrite e. reflexivity. }
  destruct (exact_round _ _ _ _ _ _ _ _ _ _ _ _ h ea es (linear_r2 _ _ _ hs ht)) as [e1 h2]. split; [exact e1|]. destruct h2 as [h2|[y [h2 h3]]]; [left; exact h2|right].
  apply in_map_iff in h2. destruct h2 as [i [k1 k2]]. injection k1 as -> k1. split; [exact k2|].
  assert (x = y) as ->; [|exact h3]. clear - k1. revert y k1. induction x as [|a x ih]; destruct y; intro k; try discriminate; [reflexivity|]. injection k as -> k. f_equal. apply ih. exact k.
Qed.
(** First order: the rounds before it keep the logarithm linear. *)
Definition loglin (t : list R) (d : list datum) : Prop := exists y c s, d = map Fin y /\ s <> 0 /\ Forall2 (fun t v => 0 < v /\ ln v = c + s * t) t y.
Lemma loglin_step i t d : QcR i < 1 -> loglin t d -> exists d', transform i d = Ok d' /\ loglin t d'.
Proof.
  intros hi [y [c [s [-> [hs h]]]]]. destruct (Rlt_le_dec 0 (QcR i)) as [l|l]; [|rewrite transform_nonpos by exact l; eexists; split; [reflexivity|exists y, c, s; auto]].
  unfold transform. rewrite Qc_dec1 by (intros ->; rewrite QcR_Q2Qc in hi; unfold Q2R in hi; cbn in hi; lra).
  rewrite (proj2 (Qcltb_lt i (qc 1))), (proj2 (Qcltb_lt (qc 0) i)) by (rewrite QcR_qc; assumption). cbn [andb].
  rewrite (mapM_some _ (fun v => Rpower v (1 - QcR i) / (1 - QcR i))) by (eapply Forall_impl; [|exact (positives _ _ _ h)]; intros; apply power_ok; assumption).
  eexists. split; [reflexivity|]. exists (map (fun v => Rpower v (1 - QcR i) / (1 - QcR i)) y), ((1 - QcR i) * c - ln (1 - QcR i)), ((1 - QcR i) * s).
  split; [reflexivity|]. split; [apply Rmult_integral_contrapositive; split; [lra|exact hs]|].
  clear hs. induction h as [|u v t y [p k] h ih]; constructor; [|exact ih]. assert (q : 0 < Rpower v (1 - QcR i)) by apply exp_pos. split.
  - apply Rdiv_lt_0_compat; lra.
  - unfold Rdiv. rewrite ln_mult, ln_Rinv by (try apply Rinv_0_lt_compat; lra). unfold Rpower. rewrite ln_exp, k. ring.
Qed.
Lemma loglin_seen t : forall pre post d, Forall (fun i => QcR i < 1) pre -> loglin t d ->
  exists A1 d1 B1, seen (pre ++ Q2Qc 1 :: post) d = A1 ++ (Q2Qc 1, d1) :: B1 /\ map fst A1 = pre /\ exists c s, s <> 0 /\ d1 = map Fin (map (fun u => c + s * u) t).
Proof.
  induction pre as [|i pre ih]; intros post d hp hd.
  - destruct hd as [y [c [s [-> [hs h]]]]]. cbn [app seen].
    destruct (transform_follows (Q2Qc 1) t y) as [c' [s' [hs' e]]]; [rewrite QcR_Q2Qc; unfold Q2R; cbn; lra| |].
    + exists c, s. split; [exact hs|]. eapply Forall2_weaken; [|exact h]. intros u v [p k]. split; [exact p|]. unfold law. destruct (Qc_eq_dec _ _); [exact k|congruence].
    + rewrite e. exists nil. eexists. eexists. split; [reflexivity|]. split; [reflexivity|]. exists c', s'. auto.
  - inversion_clear hp as [|? ? h1 h2]. destruct (loglin_step _ _ _ h1 hd) as [d' [e hd']]. cbn [app seen]. rewrite e. destruct (ih post d' h2 hd') as [A1 [d1 [B1 [k1 [k2 k3]]]]].
    exists ((i, d') :: A1), d1, B1. split; [rewrite k1; reflexivity|]. split; [cbn; rewrite k2; reflexivity|exact k3].
Qed.
Lemma method_log t x start stop step pre post o r : arange start stop step = Ok (pre ++ Q2Qc 1 :: post) -> Forall (fun i => QcR i < 1) pre ->
  spread t -> follows (Q2Qc 1) t x -> integral_method t x start stop step = Ok (o, r) -> r = 1 /\ (o = Q2Qc 1 \/ In o pre).
Proof.
  intros ea hp ht [c [s [hs hf]]] h. assert (hl : loglin t (map Fin x)).
  { exists x, c, s. split; [reflexivity|]. split; [exact hs|]. eapply Forall2_weaken; [|exact hf]. intros u v [p k]. split; [exact p|]. unfold law in k. destruct (Qc_eq_dec _ _); [exact k|congruence]. }
  destruct (loglin_seen t pre post _ hp hl) as [A1 [d1 [B1 [es [ef [c' [s' [hs' ->]]]]]]]].
  destruct (exact_round _ _ _ _ _ _ _ _ _ _ _ _ h ea es (linear_r2 _ _ _ hs' ht)) as [e1 h2]. split; [exact e1|]. destruct h2 as [h2|[y [h2 h3]]]; [left; exact h2|right].
  rewrite <- ef. change o with (fst (o, map Fin y)). apply in_map. exact h2.
Qed.
(** Third-order data reported as second order, with worse r squared. *)
Definition t3 : list R := [1; 4; 9].
Lemma Rpower_nat x k : 0 < x -> Rpower x (IZR (Z.of_nat k)) = x ^ k.
Proof. intro p. rewrite <- INR_IZR_INZ. apply Rpower_pow. exact p. Qed.
Lemma third_follows : follows (Q2Qc 3) t3 [1; 1 / 2; 1 / 3].
Proof.
  exists 0, 1. split; [lra|]. unfold law. destruct (Qc_eq_dec (Q2Qc 3) (Q2Qc 1)) as [e|_]; [discriminate e|].
  replace (1 - QcR (Q2Qc 3)) with (- 2) by (rewrite QcR_Q2Qc; unfold Q2R; cbn; lra).
  assert (k : forall v, 0 < v -> Rpower v (- 2) = / v ^ 2) by (intros v p; change (-2) with (- (2)); rewrite Rpower_Ropp; f_equal; apply (Rpower_nat v 2 p)).
  unfold t3. repeat constructor; try lra; rewrite k by lra; field.
Qed.
Lemma third_spread : spread t3. Proof. exists 1, 4. unfold t3. cbn. split; [auto|]. split; [auto|lra]. Qed.
Lemma second_follows_inv : follows (Q2Qc (-1)) t3 [1; 2; 3].
Proof.
  exists 0, 1. split; [lra|]. unfold law. destruct (Qc_eq_dec (Q2Qc (-1)) (Q2Qc 1)) as [e|_]; [discriminate e|].
  replace (1 - QcR (Q2Qc (-1))) with 2 by (rewrite QcR_Q2Qc; unfold Q2R; cbn; lra).
  assert (k : forall v, 0 < v -> Rpower v 2 = v ^ 2) by (intros v p; apply (Rpower_nat v 2 p)).
  unfold t3. repeat constructor; try lra; rewrite k by lra; field.
Qed.

Lemma transform_big i x : 1 < QcR i -> Forall (fun v => 0 < v) x -> transform i (map Fin x) = Ok (map Fin (map (fun v => Rpower v (1 - QcR i)) x)).
Proof.
  intros h hp. unfold transform. rewrite Qc_dec1. 2:{ intros ->. rewrite QcR_Q2Qc in h. unfold Q2R in h. cbn in h. lra. }
  rewrite (proj2 (Qcltb_ge i (qc 1))) by (rewrite QcR_qc; lra). cbn [andb]. apply mapM_some. eapply Forall_impl; [|exact hp]. intros. apply inverse_ok. assumption.
Qed.
Lemma r2_values t y A B C : length t = length y -> products (centred t) (centred t) = A -> products (centred y) (centred y) = B -> products (centred t) (centred y) = C -> A <> 0 -> B <> 0 ->
  get_r_squared t (map Fin y) = Ok (Some (C ^ 2 / (A * B))).
Proof.
  intros h ea eb ec ha hb. unfold get_r_squared. rewrite map_length, h, Nat.eqb_refl, numbers_map. cbv zeta. rewrite ea, eb, ec, (proj2 (Reqb_false _ _) ha), (proj2 (Reqb_false _ _) hb). reflexivity.
Qed.
Lemma r2_123 : get_r_squared t3 (map Fin [1; 2; 3]) = Ok (Some (48 / 49)).
Proof. rewrite (r2_values t3 [1; 2; 3] (98 / 3) 2 8); [do 2 f_equal; field|reflexivity|unfold centred, mean, t3; cbn; field|unfold centred, mean; cbn; field|unfold centred, mean, t3; cbn; field|lra|lra]. Qed.
Definition y3 : list R := [1; 1 / 4; 1 / 9].
Lemma r2_y3 : exists r, get_r_squared t3 (map Fin y3) = Ok (Some r) /\ r < 48 / 49.
Proof.
  eexists. split; [apply (r2_values t3 y3 (98 / 3) (889 / 1944) (- (181 / 54)))|].
  - reflexivity.
  - unfold centred, mean, t3; cbn; field.
  - unfold centred, mean, y3; cbn. field.
  - unfold centred, mean, y3, t3; cbn. field.
  - lra.
  - lra.
  - lra.
Qed.
Lemma third_reported : integral_method t3 [1; 1 / 2; 1 / 3] 2 4 1 = Ok (Q2Qc 2, 48 / 49).
Proof.
  unfold integral_method. replace (arange 2 4 1) with (Ok [Q2Qc 2; Q2Qc 3] : res (list Qc)) by (vm_compute; reflexivity). cbn [bind integral_loop].
  assert (q2 : QcR (Q2Qc 2) = 2) by (rewrite QcR_Q2Qc; unfold Q2R; cbn; lra). assert (q3 : QcR (Q2Qc 3) = 3) by (rewrite QcR_Q2Qc; unfold Q2R; cbn; lra).
  assert (k1 : forall v, 0 < v -> Rpower v (1 - 2) = / v) by (intros v p; replace (1 - 2) with (- (1)) by lra; rewrite Rpower_Ropp, Rpower_1 by exact p; reflexivity).
  assert (k2 : forall v, 0 < v -> Rpower v (1 - 3) = / v ^ 2) by (intros v p; replace (1 - 3) with (- (2)) by lra; rewrite Rpower_Ropp; f_equal; apply (Rpower_nat v 2 p)).
  rewrite transform_big; [|rewrite q2; lra|repeat constructor; lra]. rewrite q2. cbn [map bind]. rewrite !k1 by lra.
  replace [Fin (/ 1); Fin (/ (1 / 2)); Fin (/ (1 / 3))] with (map Fin [1; 2; 3]) by (cbn [map]; repeat f_equal; field).
  rewrite r2_123. cbn [bind]. rewrite (proj2 (Rltb_true 0 (48 / 49))) by lra. 
  rewrite transform_big; [|rewrite q3; lra|repeat constructor; lra]. rewrite q3. cbn [map bind]. rewrite !k2 by lra.
  replace [Fin (/ 1 ^ 2); Fin (/ 2 ^ 2); Fin (/ 3 ^ 2)] with (map Fin y3) by (unfold y3; cbn [map]; repeat f_equal; field).
  destruct r2_y3 as [r [er hr]]. rewrite er. cbn [bind]. rewrite (proj2 (Rltb_false (48 / 49) r)) by lra. reflexivity.
Qed.
Lemma negative_reported : integral_method t3 [1; 2; 3] (-1) 0 1 = Ok (Q2Qc (-1), 48 / 49).
Proof.
  unfold integral_method. replace (arange (-1) 0 1) with (Ok [Q2Qc (-1)] : res (list Qc)) by (vm_compute; reflexivity). cbn [bind integral_loop].
  rewrite transform_nonpos by (rewrite QcR_Q2Qc; unfold Q2R; cbn; lra). cbn [bind]. rewrite r2_123. cbn [bind]. rewrite (proj2 (Rltb_true 0 (48 / 49))) by lra. reflexivity.
Qed.
(** Some data follow an order that was tried, and another order is reported. *)
Lemma method_wrong : exists t x start stop step n o r orders, spread t /\ follows n t x /\ arange start stop step = Ok orders /\ In n orders /\
  integral_method t x start stop step = Ok (o, r) /\ o <> n /\ r < 1.
Proof.
  exists t3, [1; 1 / 2; 1 / 3], 2%Q, 4%Q, 1%Q, (Q2Qc 3), (Q2Qc 2), (48 / 49), [Q2Qc 2; Q2Qc 3].
  split; [exact third_spread|]. split; [exact third_follows|]. split; [vm_compute; reflexivity|]. split; [right; left; reflexivity|]. split; [exact third_reported|]. split; [intro h; discriminate h|lra].
Qed.
(** A negative order is not recognised even alone: its data are not transformed. *)
Lemma method_negative : exists t x n r, spread t /\ follows (Q2Qc n) t x /\ integral_method t x n (n + 1) 1 = Ok (Q2Qc n, r) /\ r < 1.
Proof.
  exists t3, [1; 2; 3], (-1)%Q, (48 / 49). split; [exact third_spread|]. split; [exact second_follows_inv|]. split; [|lra].
  unfold integral_method. rewrite arange_single. cbn [bind integral_loop].
  rewrite transform_nonpos by (rewrite QcR_Q2Qc; unfold Q2R; cbn; lra). cbn [bind]. rewrite r2_123. cbn [bind]. rewrite (proj2 (Rltb_true 0 (48 / 49))) by lra. reflexivity.
Qed.
