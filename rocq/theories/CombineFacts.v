(** * CombineFacts: combine_units leaves one nonzero exponent per name *)
From Coq Require Import String Ascii List ZArith QArith Qcanon Bool Reals Qreals Lia Lra.
From Verif Require Import Py Num UnitsData UnitsStruct Units NumFacts Spec StructFacts.
Import ListNotations.
Local Open Scope string_scope.
Local Open Scope list_scope.

Lemma nth_name_combine_step i j l k :
  option_map bname (nth_error (combine_step i j l) k) = option_map bname (nth_error l k).
Proof. rewrite <- !nth_error_map, combine_step_names. reflexivity. Qed.

(** A step leaves alone every position whose name differs from that of [i], and
    every position other than [i] and [j]. *)
Lemma combine_step_other i j l k u ui :
  nth_error l i = Some ui -> nth_error l k = Some u -> bname u <> bname ui ->
  nth_error (combine_step i j l) k = Some u.
Proof.
  intros hi hk hn. unfold combine_step. rewrite hi.
  destruct (nth_error l j) as [u2|] eqn:hj; auto.
  destruct (String.eqb (bname ui) (bname u2) && negb (Nat.eqb i j)) eqn:c; auto.
  apply andb_true_iff in c. destruct c as [cn _]. apply String.eqb_eq in cn.
  assert (j <> k) by (intro; subst; rewrite hk in hj; injection hj as ->; congruence).
  assert (i <> k) by (intro; subst; rewrite hk in hi; injection hi as ->; congruence).
  rewrite nth_set_nth_neq, nth_set_nth_neq by auto. exact hk.
Qed.

Definition zero_at (l : half) (k : nat) : Prop :=
  forall u, nth_error l k = Some u -> ev (bexp u) = qc 0.

Lemma combine_step_zero i j l k :
  k <> i -> zero_at l k -> zero_at (combine_step i j l) k.
Proof.
  intros hk hz u. unfold combine_step.
  destruct (nth_error l i) as [u1|] eqn:hi; auto.
  destruct (nth_error l j) as [u2|] eqn:hj; auto.
  destruct (String.eqb (bname u1) (bname u2) && negb (Nat.eqb i j)) eqn:c; auto.
  destruct (Nat.eq_dec j k) as [->|hjk].
  - rewrite nth_set_nth_eq.
    + intro e. injection e as <-. reflexivity.
    + rewrite set_nth_length. apply nth_error_Some. congruence.
  - rewrite nth_set_nth_neq, nth_set_nth_neq by auto. auto.
Qed.
Lemma combine_step_zeroes i j l u1 u2 :
  i <> j -> nth_error l i = Some u1 -> nth_error l j = Some u2 -> bname u1 = bname u2 ->
  zero_at (combine_step i j l) j.
Proof.
  intros hij hi hj hn u. unfold combine_step. rewrite hi, hj, hn, String.eqb_refl.
  rewrite (proj2 (Nat.eqb_neq i j) hij). cbn [negb andb].
  rewrite nth_set_nth_eq.
  - intro e. injection e as <-. reflexivity.
  - rewrite set_nth_length. apply nth_error_Some. congruence.
Qed.

Lemma nth_name (i k : nat) (l : half) n :
  nth_error (map bname l) k = Some n -> exists u, nth_error l k = Some u /\ bname u = n.
Proof.
  rewrite nth_error_map. destruct (nth_error l k) as [u|]; cbn; [|discriminate].
  intro e. injection e as <-. eauto.
Qed.

(** The names are those of a fixed list [ns]. *)
Lemma inner_other ns i js l k n ni :
  map bname l = ns -> nth_error ns i = Some ni -> nth_error ns k = Some n -> n <> ni ->
  nth_error (inner_loop i js l) k = nth_error l k.
Proof.
  intros hl hi hk hn. revert l hl. induction js as [|j js IH]; intros l hl; [reflexivity|].
  cbn. fold (inner_loop i js (combine_step i j l)).
  rewrite IH by (rewrite combine_step_names; exact hl).
  subst ns. destruct (nth_name i i l ni hi) as [ui [hui <-]].
  destruct (nth_name i k l n hk) as [u [hu <-]]. rewrite hu.
  eapply combine_step_other; eauto.
Qed.
Lemma inner_zero i js l k : k <> i -> zero_at l k -> zero_at (inner_loop i js l) k.
Proof.
  intros hk. revert l. induction js as [|j js IH]; intros l hz; [exact hz|].
  cbn. fold (inner_loop i js (combine_step i j l)). apply IH, combine_step_zero; auto.
Qed.
Lemma inner_zeroes ns i js l k n :
  map bname l = ns -> k <> i -> nth_error ns i = Some n -> nth_error ns k = Some n ->
  In k js -> zero_at (inner_loop i js l) k.
Proof.
  intros hl hk hi hkn hin. revert l hl. induction js as [|j js IH]; intros l hl; [destruct hin|].
  cbn. fold (inner_loop i js (combine_step i j l)).
  destruct (Nat.eq_dec j k) as [->|hjk].
  - apply inner_zero; auto. subst ns.
    destruct (nth_name i i l n hi) as [ui [hui hn1]]. destruct (nth_name i k l n hkn) as [u [hu hn2]].
    eapply combine_step_zeroes; eauto. congruence.
  - apply IH; [destruct hin as [e|e]; [congruence|exact e]|].
    rewrite combine_step_names. exact hl.
Qed.

(** After the outer loop has handled the indices below [m], every index that is
    the last one below [m] with its name holds the whole exponent of that name. *)
Definition settled (ns : list string) (m : nat) (l : half) : Prop :=
  forall k n, (k < m)%nat -> nth_error ns k = Some n ->
    (forall k', (k < k' < m)%nat -> nth_error ns k' <> Some n) ->
    forall j, j <> k -> nth_error ns j = Some n -> zero_at l j.

Lemma settled_step ns m l :
  map bname l = ns -> (m < List.length ns)%nat -> settled ns m l ->
  settled ns (S m) (inner_loop m (seq 0 (List.length ns)) l).
Proof.
  intros hl hm hs k n hk hkn hlast j hjk hjn.
  destruct (nth_error ns m) as [nm|] eqn:hnm; [|apply nth_error_None in hnm; lia].
  destruct (Nat.eq_dec k m) as [->|hkm].
  - rewrite hnm in hkn. injection hkn as ->.
    eapply inner_zeroes; eauto. apply in_seq. split; [lia|].
    cbn. apply nth_error_Some. congruence.
  - assert (n <> nm) by (intro; subst; apply (hlast m); [lia|exact hnm]).
    intros u hu. erewrite inner_other in hu; eauto. revert u hu.
    apply (hs k n); auto; [lia|]. intros k' hk'. apply hlast. lia.
Qed.

Lemma combine_settled l : settled (map bname l) (List.length l) (combine_units l).
Proof.
  unfold combine_units.
  assert (gen : forall m, (m <= List.length l)%nat ->
    settled (map bname l) m (fold_left (fun l0 i => inner_loop i (seq 0 (List.length l)) l0) (seq 0 m) l)
    /\ map bname (fold_left (fun l0 i => inner_loop i (seq 0 (List.length l)) l0) (seq 0 m) l) = map bname l).
  { induction m as [|m IH]; intro hm.
    - split; [|reflexivity]. intros k n hk. lia.
    - rewrite seq_S, fold_left_app. cbn [fold_left plus]. destruct IH as [IH1 IH2]; [lia|]. split.
      + pose proof (settled_step (map bname l) m _ IH2) as h.
        rewrite map_length in h. apply h; auto.
      + rewrite inner_names. exact IH2. }
  exact (proj1 (gen _ (le_n _))).
Qed.

(** Of two units with the same name, the earlier one has exponent 0. *)
Lemma combine_unique l i j u1 u2 :
  nth_error (combine_units l) i = Some u1 -> nth_error (combine_units l) j = Some u2 ->
  (i < j)%nat -> bname u1 = bname u2 -> ev (bexp u1) = qc 0.
Proof.
  intros hi hj hij hn.
  assert (names : forall k u, nth_error (combine_units l) k = Some u -> nth_error (map bname l) k = Some (bname u)).
  { intros k u h. rewrite <- combine_names, nth_error_map, h. reflexivity. }
  pose proof (names _ _ hi) as ni. pose proof (names _ _ hj) as nj.
  (* the last index with this name *)
  assert (last : forall n d, n = (List.length l - d)%nat -> (d <= List.length l)%nat -> forall k, (k < List.length l)%nat ->
     nth_error (map bname l) k = Some (bname u1) -> (n <= k)%nat ->
     exists k', (k <= k' < List.length l)%nat /\ nth_error (map bname l) k' = Some (bname u1) /\
       forall k'', (k' < k'' < List.length l)%nat -> nth_error (map bname l) k'' <> Some (bname u1)).
  { intros n d. revert n. induction d as [|d IH]; intros n hn' hd k hk hkn hle.
    - lia.
    - destruct (le_lt_dec (List.length l - d) k) as [h|h].
      + apply (IH (List.length l - d)%nat); auto. lia.
      + destruct (in_dec string_dec (bname u1) (map bname (skipn (S k) l))) as [h'|h'].
        * apply In_nth_error in h'. destruct h' as [p hp].
          assert (hp' : nth_error (map bname l) (S k + p) = Some (bname u1)).
          { rewrite <- (firstn_skipn (S k) l), map_app, nth_error_app2.
            - rewrite map_length, firstn_length_le by lia. replace (S k + p - S k)%nat with p by lia. exact hp.
            - rewrite map_length, firstn_length_le; lia. }
          assert (S k + p < List.length l)%nat.
          { rewrite <- (map_length bname). apply nth_error_Some. congruence. }
          destruct (IH (List.length l - d)%nat eq_refl ltac:(lia) (S k + p)%nat) as [k' [b1 [b2 b3]]]; auto; [lia|].
          exists k'. repeat split; auto; lia.
        * exists k. repeat split; auto. intros k'' hk'' e. apply h'.
          apply (nth_error_In _ (k'' - S k)).
          rewrite <- (firstn_skipn (S k) l), map_app, nth_error_app2 in e
            by (rewrite map_length, firstn_length_le; lia).
          rewrite map_length, firstn_length_le in e by lia. exact e. }
  assert (hj' : (j < List.length l)%nat).
  { rewrite <- (map_length bname). apply nth_error_Some. congruence. }
  destruct (last 0%nat (List.length l) ltac:(lia) (le_n _) j hj') as [k [b1 [b2 b3]]]; [congruence|lia|].
  apply (combine_settled l k (bname u1)) with (j := i); auto; try lia.
Qed.
