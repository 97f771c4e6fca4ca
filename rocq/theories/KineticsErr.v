(** * When the integral method answers *)
From Coq Require Import List ZArith QArith Qcanon Qround Bool Reals Qreals Lra Lia.
From Coq Require Import Sorting.Sorted.
From Verif Require Import Py Num NumFacts Correlations KineticsSpec KineticsFacts.
Import ListNotations.
Local Open Scope R_scope.

Lemma mapM_rel {A B} (f : A -> res B) (P : A -> B -> Prop) : (forall a, exists b, f a = Ok b /\ P a b) ->
  forall l, exists l', mapM f l = Ok l' /\ Forall2 P l l'.
Proof.
  intros h. induction l as [|a l [l' [e k]]]; [exists nil; split; [reflexivity|constructor]|].
  destruct (h a) as [b [eb pb]]. exists (b :: l'). cbn. rewrite eb. cbn [bind]. rewrite e. split; [reflexivity|constructor; assumption].
Qed.
Lemma int_R q : is_int q = true -> QcR q = IZR (Qnum (this q)).
Proof. intro i. unfold is_int in i. apply Pos.eqb_eq in i. unfold QcR, Q2R. rewrite i. field. Qed.
Lemma Rpowq_0 q : 0 < QcR q -> Rpowq 0 q = Ok 0.
Proof.
  intro h. unfold Rpowq. rewrite (proj2 (Qcltb_ge q (qc 0))) by (rewrite QcR_qc; lra). rewrite andb_false_r, (proj2 (Rltb_false 0 0)) by lra.
  rewrite (proj2 (Reqb_true 0 0) eq_refl). destruct (is_int q) eqn:i; [|reflexivity]. f_equal. rewrite (int_R _ i) in h. apply lt_IZR in h.
  destruct (Qnum (this q)) as [|p|p]; try lia. cbn. apply pow_ne_zero. lia.
Qed.
Lemma Rpowq_frac x q : x < 0 -> 0 < QcR q < 1 -> Rpowq x q = Raise Unmodelled.
Proof.
  intros hx hq. unfold Rpowq. destruct (is_int q) eqn:i.
  - exfalso. rewrite (int_R _ i) in hq. destruct hq as [h1 h2]. apply lt_IZR in h1. apply lt_IZR in h2. lia.
  - rewrite (proj2 (Rltb_false 0 x)) by lra. rewrite (proj2 (Reqb_false x 0)) by lra. reflexivity.
Qed.
Lemma QcR_below i : QcR (qc 1 - i)%Qc = 1 - QcR i.
Proof. rewrite QcR_minus, QcR_qc. reflexivity. Qed.
Lemma QcR_above i : QcR (i - qc 1)%Qc = QcR i - 1.
Proof. rewrite QcR_minus, QcR_qc. reflexivity. Qed.

(** Orders below 1 keep positive numbers positive and zeros zero; the fractional ones
    make negative numbers nan. *)
Definition low (i : Qc) (a b : datum) : Prop :=
  match a with
  | Fin r => (0 < r -> exists s, b = Fin s /\ 0 < s) /\ (r = 0 -> b = Fin 0) /\ (r < 0 -> (0 < QcR i -> b = Nan) /\ (QcR i <= 0 -> b = Fin r))
  | a => b = a
  end.
Lemma low_point i : 0 < QcR i < 1 -> forall a, exists b, power_point i a = Ok b /\ low i a b.
Proof.
  intros hi [r| |]; [|exists Inf; split; reflexivity|exists Nan; split; reflexivity].
  destruct (Rtotal_order r 0) as [h|[->|h]].
  - exists Nan. cbn [power_point]. rewrite Rpowq_frac by (rewrite ?QcR_below; lra). split; [reflexivity|]. cbn. repeat split; intros; try lra; auto.
  - exists (Fin 0). cbn [power_point]. rewrite Rpowq_0 by (rewrite QcR_below; lra). split; [do 2 f_equal; unfold Rdiv; ring|]. cbn. repeat split; intros; try lra; auto.
  - rewrite power_ok by exact h. eexists. split; [reflexivity|]. cbn. split; [intros _; eexists; split; [reflexivity|]|repeat split; intros; lra].
    apply Rdiv_lt_0_compat; [apply exp_pos|lra].
Qed.
Lemma low_id i a : QcR i <= 0 -> low i a a.
Proof. intro h. destruct a as [r| |]; cbn; [|reflexivity|reflexivity]. repeat split; intros; try lra; eauto. subst. reflexivity. Qed.
Lemma low_step i d : QcR i < 1 -> exists d', transform i d = Ok d' /\ Forall2 (low i) d d'.
Proof.
  intro h. destruct (Rlt_le_dec 0 (QcR i)) as [h0|h0].
  - unfold transform. rewrite Qc_dec1. 2:{ intros ->. rewrite QcR_Q2Qc in h. unfold Q2R in h. cbn in h. lra. }
    rewrite (proj2 (Qcltb_lt i (qc 1))) by (rewrite QcR_qc; exact h). rewrite (proj2 (Qcltb_lt (qc 0) i)) by (rewrite QcR_qc; exact h0). cbn [andb].
    apply mapM_rel. apply low_point. lra.
  - exists d. split; [apply transform_nonpos; exact h0|]. induction d; constructor; auto using low_id.
Qed.
Lemma high_point i : 1 < QcR i -> forall a, exists b, inverse_point i a = Ok b /\ True.
Proof.
  intros hi [r| |]; [|eexists; split; [reflexivity|exact I]|eexists; split; [reflexivity|exact I]].
  cbn [inverse_point]. destruct (Rpowq r (i - qc 1)) as [y|e] eqn:ey; [destruct (Reqb y 0); eexists; split; [reflexivity|exact I|reflexivity|exact I]|].
  unfold Rpowq in ey. rewrite (proj2 (Qcltb_ge (i - qc 1) (qc 0))) in ey by (rewrite QcR_qc, QcR_above; lra). rewrite andb_false_r in ey.
  destruct (is_int _); [discriminate|]. destruct (Rltb 0 r); [discriminate|]. destruct (Reqb r 0); [discriminate|]. injection ey as <-. eexists; split; [reflexivity|exact I].
Qed.
Lemma Forall2_len {A B} (P : A -> B -> Prop) l l' : Forall2 P l l' -> length l' = length l.
Proof. intro h. symmetry. induction h; cbn; congruence. Qed.
Lemma step_len i d : i <> Q2Qc 1 -> exists d', transform i d = Ok d' /\ length d' = length d.
Proof.
  intro n. pose proof (QcR1' _ n) as n'. destruct (Rlt_le_dec (QcR i) 1) as [h|h].
  - destruct (low_step i d h) as [d' [e k]]. exists d'. split; [exact e|exact (Forall2_len _ _ _ k)].
  - unfold transform. rewrite Qc_dec1 by exact n. rewrite (proj2 (Qcltb_ge i (qc 1))) by (rewrite QcR_qc; exact h). cbn [andb].
    destruct (mapM_rel (inverse_point i) (fun _ _ => True) (high_point i ltac:(lra)) d) as [d' [e k]]. exists d'. split; [exact e|exact (Forall2_len _ _ _ k)].
Qed.
Lemma r2_total t d : length t = length d -> exists r, get_r_squared t d = Ok r.
Proof. intro h. unfold get_r_squared. rewrite h, Nat.eqb_refl. destruct (numbers d); [|eexists; reflexivity]. cbv zeta. destruct (_ || _); eexists; reflexivity. Qed.
Lemma r2_refused t d : length t <> length d -> get_r_squared t d = Raise EValueError.
Proof. intro h. unfold get_r_squared. rewrite (proj2 (Nat.eqb_neq _ _) h). reflexivity. Qed.

(** A round of another order than 1 on data of the right length. *)
Lemma loop_step t i orders d d' o b : transform i d = Ok d' -> length t = length d' ->
  exists o' b', integral_loop t (i :: orders) d o b = integral_loop t orders d' o' b'.
Proof.
  intros e h. cbn [integral_loop]. rewrite e. cbn [bind]. destruct (r2_total t d' h) as [[r|] er]; rewrite er; cbn [bind]; [destruct (Rltb b r)|]; eauto.
Qed.
Lemma loop_total t : forall orders d o b, ~ In (Q2Qc 1) orders -> length t = length d -> exists o' b', integral_loop t orders d o b = Ok (o', b').
Proof.
  induction orders as [|i orders ih]; intros d o b hn hl; [cbn; eauto|].
  destruct (step_len i d) as [d' [e el]]; [intros ->; apply hn; left; reflexivity|].
  destruct (loop_step t i orders d d' o b e ltac:(congruence)) as [o' [b' ->]]. apply ih; [intro k; apply hn; right; exact k|congruence].
Qed.
(** What the logarithm refuses. *)
Definition refused (d : list datum) : Prop := exists r, In (Fin r) d /\ r <= 0.
Lemma log_refused d : refused d -> mapM log_point d = Raise EValueError.
Proof.
  induction d as [|a d ih]; intros [r [h hr]]; [destruct h|]. cbn. destruct (log_point a) as [b|e] eqn:ea; cbn [bind].
  - destruct h as [->|h]; [cbn in ea; rewrite (proj2 (Rltb_false 0 r)) in ea by lra; discriminate|]. rewrite ih by (exists r; auto). reflexivity.
  - destruct a as [s| |]; cbn in ea; [destruct (Rltb 0 s); congruence|discriminate|discriminate].
Qed.
Lemma log_total d : ~ refused d -> exists d', mapM log_point d = Ok d' /\ length d' = length d.
Proof.
  induction d as [|a d ih]; intro h; [exists nil; split; reflexivity|].
  destruct ih as [d' [e el]]; [intros [r [k hr]]; apply h; exists r; split; [right; exact k|exact hr]|].
  assert (ea : exists b, log_point a = Ok b). { destruct a as [s| |]; cbn; eauto. destruct (Rltb 0 s) eqn:es; eauto. exfalso. apply h. exists s. split; [left; reflexivity|apply Rltb_false in es; lra]. }
  destruct ea as [b eb]. exists (b :: d'). cbn. rewrite eb. cbn [bind]. rewrite e. split; [reflexivity|cbn; congruence].
Qed.
Lemma loop_log t orders d o b : refused d -> integral_loop t (Q2Qc 1 :: orders) d o b = Raise EValueError.
Proof. intro h. cbn [integral_loop]. unfold transform. change (Qc_eq_bool (Q2Qc 1) (qc 1)) with true. cbv iota. rewrite log_refused by exact h. reflexivity. Qed.
Lemma loop_after t orders d o b : ~ refused d -> length t = length d -> ~ In (Q2Qc 1) orders -> exists o' b', integral_loop t (Q2Qc 1 :: orders) d o b = Ok (o', b').
Proof.
  intros h hl hn. destruct (log_total d h) as [d' [e el]]. destruct (loop_step t (Q2Qc 1) orders d d' o b) as [o' [b' ->]]; [exact e|congruence|].
  apply loop_total; [exact hn|congruence].
Qed.

(** What becomes of a number before order 1 is tried. *)
Definition bad (pre : list Qc) (a : datum) : Prop := match a with Fin r => r = 0 \/ (r < 0 /\ Forall (fun i => QcR i <= 0) pre) | _ => False end.
Lemma Forall2_in_l {A B} (P : A -> B -> Prop) l l' a : Forall2 P l l' -> In a l -> exists b, In b l' /\ P a b.
Proof. intros h. induction h as [|x y l l' p h ih]; intros []; [subst; eexists; split; [left; reflexivity|exact p]|]. destruct ih as [b [k q]]; [assumption|]. exists b. split; [right; exact k|exact q]. Qed.
Lemma Forall2_in_r {A B} (P : A -> B -> Prop) l l' b : Forall2 P l l' -> In b l' -> exists a, In a l /\ P a b.
Proof. intros h. induction h as [|x y l l' p h ih]; intros []; [subst; eexists; split; [left; reflexivity|exact p]|]. destruct ih as [a [k q]]; [assumption|]. exists a. split; [right; exact k|exact q]. Qed.
Lemma bad_low i pre a b : low i a b -> (bad (i :: pre) a <-> bad pre b).
Proof.
  intro h. destruct a as [r| |]; [|cbn in h; subst b; reflexivity|cbn in h; subst b; reflexivity].
  destruct h as [h1 [h2 h3]]. destruct (Rtotal_order r 0) as [k|[k|k]].
  - destruct (h3 k) as [h4 h5]. destruct (Rlt_le_dec 0 (QcR i)) as [p|p].
    + rewrite (h4 p). cbn. split; [|intros []]. intros [e|[_ f]]; [lra|]. inversion f. lra.
    + rewrite (h5 p). cbn. split; (intros [e|[e f]]; [left; exact e|right; split; [exact e|]]); [inversion f; assumption|constructor; assumption].
  - rewrite (h2 k). cbn. subst r. split; intros; left; reflexivity.
  - destruct (h1 k) as [s [-> hs]]. cbn. split; intros [e|[e _]]; lra.
Qed.
Lemma bad_nil d : refused d <-> exists a, In a d /\ bad nil a.
Proof.
  split.
  - intros [r [h hr]]. exists (Fin r). split; [exact h|]. cbn. destruct (Req_dec r 0); [left; assumption|right; split; [lra|constructor]].
  - intros [[r| |] [h k]]; cbn in k; [|destruct k|destruct k]. exists r. split; [exact h|]. destruct k as [->|[k _]]; lra.
Qed.
Lemma bad_dec pre d : (exists a, In a d /\ bad pre a) \/ ~ (exists a, In a d /\ bad pre a).
Proof.
  rewrite <- Exists_exists. destruct (Exists_dec (bad pre) d) as [h|h]; [|left; exact h|right; exact h].
  intros [r| |]; [|right; intros []|right; intros []]. cbn. destruct (Req_EM_T r 0) as [e|e]; [left; left; exact e|].
  destruct (Rlt_dec r 0) as [l|l]; [|right; intros [k|[k _]]; contradiction].
  destruct (Forall_dec (fun i => QcR i <= 0) (fun i => Rle_dec (QcR i) 0) pre) as [f|f]; [left; right; auto|right; intros [k|[_ k]]; contradiction].
Qed.
Lemma loop_before t post : forall pre d o b, Forall (fun i => QcR i < 1) pre -> length t = length d -> ~ In (Q2Qc 1) post ->
  ((exists a, In a d /\ bad pre a) -> integral_loop t (pre ++ Q2Qc 1 :: post) d o b = Raise EValueError) /\
  (~ (exists a, In a d /\ bad pre a) -> exists o' b', integral_loop t (pre ++ Q2Qc 1 :: post) d o b = Ok (o', b')).
Proof.
  induction pre as [|i pre ih]; intros d o b hp hl hn; cbn [app].
  - split; intro h; [apply loop_log, bad_nil, h|apply loop_after; [rewrite bad_nil; exact h|exact hl|exact hn]].
  - inversion hp as [|? ? hi hp']; subst. destruct (low_step i d hi) as [d' [e k]]. pose proof (Forall2_len _ _ _ k) as el.
    destruct (loop_step t i (pre ++ Q2Qc 1 :: post) d d' o b e ltac:(congruence)) as [o' [b' ->]].
    assert (q : (exists a, In a d /\ bad (i :: pre) a) <-> (exists a, In a d' /\ bad pre a)).
    { split; intros [a [ha hb]].
      - destruct (Forall2_in_l _ _ _ _ k ha) as [c [hc l]]. exists c. split; [exact hc|]. apply (bad_low _ _ _ _ l). exact hb.
      - destruct (Forall2_in_r _ _ _ _ k ha) as [c [hc l]]. exists c. split; [exact hc|]. apply (bad_low _ _ _ _ l). exact hb. }
    rewrite q. apply ih; [exact hp'|congruence|exact hn].
Qed.

(** The orders ascend for a positive step, and are different for any step. *)
Lemma arange_orders start stop step orders : arange start stop step = Ok orders ->
  exists n, orders = map (fun k => Q2Qc (start + inject_Z (Z.of_nat k) * step)) (List.seq 0 n).
Proof. unfold arange. destruct (Qeq_bool step 0); [discriminate|]. intro h. injection h as <-. eexists. reflexivity. Qed.
Lemma order_R start step k : QcR (Q2Qc (start + inject_Z (Z.of_nat k) * step)) = Q2R start + INR k * Q2R step.
Proof. rewrite QcR_Q2Qc, Q2R_plus, Q2R_mult. do 2 f_equal. rewrite INR_IZR_INZ. unfold Q2R, inject_Z. cbn. field. Qed.
Lemma seq_sorted (f : nat -> Qc) (lt : Qc -> Qc -> Prop) : (forall j k, (j < k)%nat -> lt (f j) (f k)) -> forall n s, StronglySorted lt (map f (List.seq s n)).
Proof.
  intros h. induction n as [|n ih]; intro s; cbn; constructor; [apply ih|]. apply Forall_forall. intros x hx. apply in_map_iff in hx. destruct hx as [k [<- hk]]. apply in_seq in hk. apply h. lia.
Qed.
Lemma sorted_split {A} (lt : A -> A -> Prop) pre x post : StronglySorted lt (pre ++ x :: post) -> Forall (fun y => lt y x) pre /\ Forall (lt x) post.
Proof.
  induction pre as [|y pre ih]; cbn; intro h; inversion h as [|? ? h1 h2]; subst; [split; [constructor|exact h2]|].
  destruct (ih h1) as [k1 k2]. split; [|exact k2]. constructor; [|exact k1]. rewrite Forall_forall in h2. apply h2. apply in_or_app. right. left. reflexivity.
Qed.
Lemma one_R : QcR (Q2Qc 1) = 1.
Proof. rewrite QcR_Q2Qc. unfold Q2R. cbn. lra. Qed.
Lemma step_nz step : ~ (step == 0)%Q -> Q2R step <> 0.
Proof. intros h e. apply h. apply eqR_Qeq. rewrite e. unfold Q2R. cbn. lra. Qed.
Lemma orders_split start stop step orders : 0 < Q2R step -> arange start stop step = Ok orders -> In (Q2Qc 1) orders ->
  exists pre post, orders = pre ++ Q2Qc 1 :: post /\ Forall (fun i => QcR i < 1) pre /\ Forall (fun i => 1 < QcR i) post.
Proof.
  intros hs ha hi. destruct (arange_orders _ _ _ _ ha) as [n en].
  assert (hsort : StronglySorted (fun a b => QcR a < QcR b) orders). { rewrite en. apply seq_sorted. intros j k hjk. rewrite !order_R. apply lt_INR in hjk. nra. }
  destruct (in_split _ _ hi) as [pre [post e]]. rewrite e in hsort. apply sorted_split in hsort. rewrite one_R in hsort. exists pre, post. split; [exact e|exact hsort].
Qed.
Lemma orders_once start stop step orders pre post : ~ (step == 0)%Q -> arange start stop step = Ok orders -> orders = pre ++ Q2Qc 1 :: post -> ~ In (Q2Qc 1) pre /\ ~ In (Q2Qc 1) post.
Proof.
  intros hs ha e. destruct (arange_orders _ _ _ _ ha) as [n en]. apply step_nz in hs.
  assert (hsort : StronglySorted (fun a b => a <> b) orders).
  { rewrite en. apply seq_sorted. intros j k hjk h. apply (f_equal QcR) in h. rewrite !order_R in h. apply lt_INR in hjk. assert (k1 : (INR k - INR j) * Q2R step = 0) by lra.
    apply Rmult_integral in k1. destruct k1; lra. }
  rewrite e in hsort. apply sorted_split in hsort. destruct hsort as [h1 h2]. rewrite Forall_forall in h1, h2. split; intro k; [apply (h1 _ k)|apply (h2 _ k)]; reflexivity.
Qed.

(** ** The whole method *)
Lemma method_step_zero t x start stop step : (step == 0)%Q -> integral_method t x start stop step = Raise EZeroDivisionError.
Proof. intro h. unfold integral_method, arange. rewrite (proj2 (Qeq_bool_iff _ _) h). reflexivity. Qed.
Lemma arange_total start stop step : ~ (step == 0)%Q -> exists orders, arange start stop step = Ok orders.
Proof. intro h. unfold arange. destruct (Qeq_bool step 0) eqn:e; [apply Qeq_bool_iff in e; contradiction|]. eexists. reflexivity. Qed.
Lemma method_loop t x start stop step orders : arange start stop step = Ok orders -> integral_method t x start stop step = integral_loop t orders (map Fin x) (qc 0) 0.
Proof. intro e. unfold integral_method. rewrite e. reflexivity. Qed.
Lemma transform_len i d : (exists d', transform i d = Ok d' /\ length d' = length d) \/ transform i d = Raise EValueError.
Proof.
  destruct (Qc_eq_dec i (Q2Qc 1)) as [->|n]; [|left; apply step_len; exact n]. unfold transform. change (Qc_eq_bool (Q2Qc 1) (qc 1)) with true. cbv iota.
  induction d as [|a d ih]; [left; exists nil; split; reflexivity|]. cbn.
  destruct a as [r| |]; cbn; [destruct (Rltb 0 r)| |]; cbn [bind]; try (right; reflexivity); (destruct ih as [[d' [-> el]]| ->]; cbn [bind]; [left; eexists; split; [reflexivity|cbn; congruence]|right; reflexivity]).
Qed.
Lemma loop_cases t : forall orders d o b, (exists o' b', integral_loop t orders d o b = Ok (o', b')) \/ integral_loop t orders d o b = Raise EValueError.
Proof.
  induction orders as [|i orders ih]; intros d o b; [left; cbn; eauto|]. destruct (transform_len i d) as [[d' [e el]]|e].
  - destruct (Nat.eq_dec (length t) (length d')) as [k|k].
    + destruct (loop_step t i orders d d' o b e k) as [o' [b' ->]]. apply ih.
    + right. cbn [integral_loop]. rewrite e. cbn [bind]. rewrite r2_refused by exact k. reflexivity.
  - right. cbn [integral_loop]. rewrite e. reflexivity.
Qed.
Lemma method_cases t x start stop step : ~ (step == 0)%Q ->
  (exists o r, integral_method t x start stop step = Ok (o, r)) \/ integral_method t x start stop step = Raise EValueError.
Proof. intro h. destruct (arange_total start stop step h) as [orders e]. rewrite (method_loop _ _ _ _ _ _ e). apply loop_cases. Qed.
Lemma method_lengths t x start stop step : length t <> length x -> ~ (step == 0)%Q ->
  (exists i, arange start stop step = Ok nil /\ integral_method t x start stop step = Ok (i, 0)) \/ integral_method t x start stop step = Raise EValueError.
Proof.
  intros hl h. destruct (arange_total start stop step h) as [orders e]. rewrite (method_loop _ _ _ _ _ _ e). rewrite e. destruct orders as [|i orders]; [left; eexists; split; reflexivity|right].
  cbn [integral_loop]. destruct (transform_len i (map Fin x)) as [[d' [-> el]]| ->]; cbn [bind]; [|reflexivity]. rewrite r2_refused by (rewrite el, map_length; exact hl). reflexivity.
Qed.
Lemma method_refused t x start stop step orders : 0 < Q2R step -> length t = length x -> arange start stop step = Ok orders ->
  (integral_method t x start stop step = Raise EValueError <->
   In (Q2Qc 1) orders /\ (In 0 x \/ ((exists v, In v x /\ v < 0) /\ forall i, In i orders -> ~ 0 < QcR i < 1))).
Proof.
  intros hs hl ha. rewrite (method_loop _ _ _ _ _ _ ha). assert (hl' : length t = length (map Fin x)) by (rewrite map_length; exact hl).
  destruct (in_dec Qc_eq_dec (Q2Qc 1) orders) as [hi|hi].
  - destruct (orders_split _ _ _ _ hs ha hi) as [pre [post [-> [hp hq]]]].
    assert (hn : ~ In (Q2Qc 1) post). { intro k. rewrite Forall_forall in hq. apply hq in k. rewrite one_R in k. lra. }
    destruct (loop_before t post pre (map Fin x) (qc 0) 0 hp hl' hn) as [h1 h2].
    assert (q : (exists a, In a (map Fin x) /\ bad pre a) <-> (In 0 x \/ ((exists v, In v x /\ v < 0) /\ forall i, In i (pre ++ Q2Qc 1 :: post) -> ~ 0 < QcR i < 1))).
    { split.
      - intros [a [k l]]. apply in_map_iff in k. destruct k as [v [<- k]]. cbn in l. destruct l as [->|[l f]]; [left; exact k|right]. split; [exists v; auto|].
        intros i hin. apply in_app_or in hin. rewrite Forall_forall in f, hq. destruct hin as [hin|[<-|hin]]; [specialize (f _ hin); lra|rewrite one_R; lra|specialize (hq _ hin); lra].
      - intros [k|[[v [k l]] f]]; [exists (Fin 0)|exists (Fin v)]; (split; [apply in_map; exact k|cbn]); [left; reflexivity|right]. split; [exact l|]. apply Forall_forall. intros i hin.
        rewrite Forall_forall in hp. specialize (hp _ hin). assert (g : ~ 0 < QcR i < 1) by (apply f; apply in_or_app; left; exact hin). lra. }
    rewrite q in h1, h2. split; [|intros [_ k]; apply h1; exact k].
    intro h. split; [exact hi|].
    destruct (bad_dec pre (map Fin x)) as [c|c]; [apply q; exact c|]. rewrite q in c. destruct (h2 c) as [o' [b' k]]. rewrite k in h. discriminate.
  - destruct (loop_total t orders (map Fin x) (qc 0) 0 hi hl') as [o' [b' ->]]. split; [discriminate|intros [k _]; contradiction].
Qed.
(** Positive data of the right length are always answered, whatever the orders. *)
Lemma pos_step i d : QcR i <> 1 -> (exists y, d = map Fin y /\ Forall (fun v => 0 < v) y) -> exists y, transform i d = Ok (map Fin y) /\ Forall (fun v => 0 < v) y /\ length y = length d.
Proof.
  intros h [y [-> hy]]. rewrite map_length. destruct (Rlt_le_dec (QcR i) 1) as [l|l].
  - destruct (low_step i (map Fin y) l) as [d' [e k]]. rewrite e. clear e. revert d' k. induction hy as [|v y hv hy ih]; intros d' k; inversion k as [|? b ? l' kb kl]; subst; [exists nil; repeat split; constructor|].
    destruct kb as [kb _]. destruct (kb hv) as [s [-> hs]]. destruct (ih _ kl) as [z [ez [hz el]]]. injection ez as ->. exists (s :: z). split; [reflexivity|]. split; [constructor; assumption|cbn; congruence].
  - rewrite transform_big by (lra || exact hy). eexists. split; [reflexivity|]. split; [|apply map_length]. apply Forall_forall. intros v hv. apply in_map_iff in hv. destruct hv as [w [<- _]]. apply exp_pos.
Qed.
Lemma pos_before t post : ~ In (Q2Qc 1) post -> forall pre y o b, ~ In (Q2Qc 1) pre -> Forall (fun v => 0 < v) y -> length t = length y ->
  exists o' b', integral_loop t (pre ++ Q2Qc 1 :: post) (map Fin y) o b = Ok (o', b').
Proof.
  intro hn. induction pre as [|i pre ih]; intros y o b hp hy hl; cbn [app].
  - apply loop_after; [|rewrite map_length; exact hl|exact hn]. intros [r [k hr]]. apply in_map_iff in k. destruct k as [v [e k]]. injection e as ->. rewrite Forall_forall in hy. specialize (hy _ k). lra.
  - destruct (pos_step i (map Fin y)) as [z [e [hz el]]]; [apply QcR1'; intros ->; apply hp; left; reflexivity|exists y; auto|]. rewrite map_length in el.
    destruct (loop_step t i (pre ++ Q2Qc 1 :: post) (map Fin y) (map Fin z) o b e) as [o' [b' ->]]; [rewrite map_length; congruence|].
    apply ih; [intro k; apply hp; right; exact k|exact hz|congruence].
Qed.
Lemma method_answers t x start stop step : ~ (step == 0)%Q -> length t = length x -> Forall (fun v => 0 < v) x -> exists o r, integral_method t x start stop step = Ok (o, r).
Proof.
  intros hs hl hx. destruct (arange_total start stop step hs) as [orders ha]. rewrite (method_loop _ _ _ _ _ _ ha). destruct (in_dec Qc_eq_dec (Q2Qc 1) orders) as [hi|hi].
  - destruct (in_split _ _ hi) as [pre [post e]]. destruct (orders_once _ _ _ _ _ _ hs ha e) as [h1 h2]. rewrite e. apply pos_before; assumption.
  - apply loop_total; [exact hi|rewrite map_length; exact hl].
Qed.
(** A zero is lost in one round and back in the next. *)
Lemma zero_back i j : 1 < QcR i -> 1 < QcR j -> inverse_point i (Fin 0) = Ok Inf /\ (let* a := inverse_point i (Fin 0) in inverse_point j a) = Ok (Fin 0).
Proof. intros h k. cbn [inverse_point]. rewrite Rpowq_0 by (rewrite QcR_above; lra). rewrite (proj2 (Reqb_true 0 0) eq_refl). split; reflexivity. Qed.
Lemma zero_round i t x : 1 < QcR i -> In 0 x -> length t = length x -> exists d, transform i (map Fin x) = Ok d /\ get_r_squared t d = Ok None.
Proof.
  intros h hx hl. destruct (step_len i (map Fin x)) as [d [e el]]; [intros ->; rewrite one_R in h; lra|]. exists d. split; [exact e|].
  assert (k : In Inf d).
  { assert (n : i <> Q2Qc 1) by (intros ->; rewrite one_R in h; lra). unfold transform in e. rewrite Qc_dec1 in e by exact n. rewrite (proj2 (Qcltb_ge i (qc 1))) in e by (rewrite QcR_qc; lra). cbn [andb] in e.
    clear el hl. revert d e. induction x as [|v x ih]; intros d e; [destruct hx|]. cbn [map mapM] in e. destruct (inverse_point i (Fin v)) as [b|] eqn:eb; [|discriminate]. cbn [bind] in e.
    destruct (mapM _ _) as [l|] eqn:em; [|discriminate]. cbn [bind] in e. injection e as <-. destruct hx as [->|hx]; [left; pose proof (proj1 (zero_back i i h h)) as z; congruence|right; apply ih; [exact hx|reflexivity]]. }
  unfold get_r_squared. rewrite map_length in el. rewrite el, <- hl, Nat.eqb_refl. destruct (numbers d) as [y|] eqn:en; [|reflexivity].
  exfalso. apply numbers_ok in en. subst d. apply in_map_iff in k. destruct k as [v [k _]]. discriminate.
Qed.
Definition t012 : list R := [0; 1; 2].
Lemma inverse_two v : 0 < v -> inverse_point (Q2Qc 2) (Fin v) = Ok (Fin (/ v)).
Proof.
  intro p. rewrite inverse_ok by exact p. do 2 f_equal. replace (1 - QcR (Q2Qc 2)) with (- (1)) by (rewrite QcR_Q2Qc; unfold Q2R; cbn; lra). rewrite Rpower_Ropp, Rpower_1 by exact p. reflexivity.
Qed.
Lemma inverse_three v : 0 < v -> inverse_point (Q2Qc 3) (Fin v) = Ok (Fin (/ v ^ 2)).
Proof.
  intro p. rewrite inverse_ok by exact p. do 2 f_equal. replace (1 - QcR (Q2Qc 3)) with (- (2)) by (rewrite QcR_Q2Qc; unfold Q2R; cbn; lra). rewrite Rpower_Ropp. f_equal. apply (Rpower_nat v 2 p).
Qed.
Lemma zero_reported : integral_method t012 [2; 1; 0] 2 4 1 = Ok (Q2Qc 3, 12 / 13).
Proof.
  unfold integral_method. replace (arange 2 4 1) with (Ok [Q2Qc 2; Q2Qc 3] : res (list Qc)) by (vm_compute; reflexivity). cbn [bind integral_loop].
  assert (q2 : 1 < QcR (Q2Qc 2)) by (rewrite QcR_Q2Qc; unfold Q2R; cbn; lra).
  change (transform (Q2Qc 2) (map Fin [2; 1; 0])) with (mapM (inverse_point (Q2Qc 2)) [Fin 2; Fin 1; Fin 0]). cbn [mapM].
  rewrite !inverse_two by lra. rewrite (proj1 (zero_back _ _ q2 q2)). cbn [bind].
  change (get_r_squared t012 [Fin (/ 2); Fin (/ 1); Inf]) with (Ok nan : res (option R)). cbn [bind nan].
  change (transform (Q2Qc 3) [Fin (/ 2); Fin (/ 1); Inf]) with (mapM (inverse_point (Q2Qc 3)) [Fin (/ 2); Fin (/ 1); Inf]). cbn [mapM].
  rewrite !inverse_three by lra. cbn [inverse_point bind].
  replace [Fin (/ (/ 2) ^ 2); Fin (/ (/ 1) ^ 2); Fin 0] with (map Fin [4; 1; 0]) by (cbn [map]; repeat f_equal; field).
  rewrite (r2_values t012 [4; 1; 0] 2 (26 / 3) (- 4)); [|reflexivity|unfold centred, mean, t012; cbn; field|unfold centred, mean; cbn; field|unfold centred, mean, t012; cbn; field|lra|lra].
  cbn [bind]. rewrite (proj2 (Rltb_true _ _)) by lra. do 2 f_equal. field.
Qed.
Lemma refused_case : integral_method t012 [2; 1; 0] 0 3 1 = Raise EValueError /\ integral_method t012 [2; 1; -1] 0 3 1 = Raise EValueError /\
  exists o r, integral_method t012 [2; 1; -1] 0 3 (1 # 2) = Ok (o, r).
Proof.
  assert (s1 : 0 < Q2R 1) by (unfold Q2R; cbn; lra). assert (s2 : 0 < Q2R (1 # 2)) by (unfold Q2R; cbn; lra).
  assert (a1 : arange 0 3 1 = Ok [Q2Qc 0; Q2Qc 1; Q2Qc 2]) by (vm_compute; reflexivity).
  assert (a2 : arange 0 3 (1 # 2) = Ok [Q2Qc (0 # 2); Q2Qc (1 # 2); Q2Qc (2 # 2); Q2Qc (3 # 2); Q2Qc (4 # 2); Q2Qc (5 # 2)]) by (vm_compute; reflexivity).
  split; [|split].
  - apply (method_refused t012 [2; 1; 0] 0 3 1 _ s1 eq_refl a1). split; [right; left; reflexivity|left; right; right; left; reflexivity].
  - apply (method_refused t012 [2; 1; -1] 0 3 1 _ s1 eq_refl a1). split; [right; left; reflexivity|right]. split; [exists (-1); split; [right; right; left; reflexivity|lra]|].
    intros i [<-|[<-|[<-|[]]]]; rewrite QcR_Q2Qc; unfold Q2R; cbn; lra.
  - destruct (method_cases t012 [2; 1; -1] 0 3 (1 # 2)) as [h|h]; [intro e; vm_compute in e; discriminate|exact h|exfalso].
    apply (method_refused t012 [2; 1; -1] 0 3 (1 # 2) _ s2 eq_refl a2) in h. destruct h as [_ [[h|[h|[h|[]]]]|[_ h]]]; [lra|lra|lra|].
    apply (h (Q2Qc (1 # 2))); [right; left; reflexivity|]. rewrite QcR_Q2Qc. unfold Q2R. cbn. lra.
Qed.
