(** * NumFacts: exponents as reals, and facts about the real instance *)
From Coq Require Import String List ZArith QArith Qcanon Bool Reals Qreals Lia Lra.
From Verif Require Import Py Num.
Local Open Scope R_scope.
#[global] Arguments QcR : simpl never.
#[global] Arguments Q2R : simpl never.
#[global] Arguments Rpower : simpl never.

Lemma QcR_Q2Qc (q : Q) : QcR (Q2Qc q) = Q2R q.
Proof. unfold QcR. cbn. apply Qeq_eqR, Qred_correct. Qed.
Lemma QcR_plus a b : QcR (a + b)%Qc = QcR a + QcR b.
Proof. unfold Qcplus. rewrite QcR_Q2Qc. apply Q2R_plus. Qed.
Lemma QcR_opp a : QcR (- a)%Qc = - QcR a.
Proof. unfold Qcopp. rewrite QcR_Q2Qc. apply Q2R_opp. Qed.
Lemma QcR_minus a b : QcR (a - b)%Qc = QcR a - QcR b.
Proof. unfold Qcminus. rewrite QcR_plus, QcR_opp. reflexivity. Qed.
Lemma QcR_mult a b : QcR (a * b)%Qc = QcR a * QcR b.
Proof. unfold Qcmult. rewrite QcR_Q2Qc. apply Q2R_mult. Qed.
Lemma QcR_inj a b : QcR a = QcR b -> a = b.
Proof. intro h. apply Qc_is_canon. apply eqR_Qeq. exact h. Qed.
Lemma QcR_qc z : QcR (qc z) = IZR z.
Proof. unfold qc. rewrite QcR_Q2Qc. unfold Q2R. cbn. field. Qed.
Lemma Qcltb_lt a b : Qcltb a b = true <-> QcR a < QcR b.
Proof.
  unfold Qcltb, QcR. rewrite negb_true_iff. split; intro h.
  - apply Qlt_Rlt. destruct (Qlt_le_dec (this a) (this b)) as [l|l]; auto.
    apply Qle_bool_iff in l. congruence.
  - apply Rlt_Qlt in h. destruct (Qle_bool (this b) (this a)) eqn:e; auto.
    apply Qle_bool_iff in e. exfalso. apply (Qlt_irrefl (this a)). eapply Qlt_le_trans; eauto.
Qed.
Lemma Qcltb_ge a b : Qcltb a b = false <-> QcR b <= QcR a.
Proof.
  split; intro h.
  - destruct (Rlt_dec (QcR a) (QcR b)) as [l|l]; [apply Qcltb_lt in l; congruence | lra].
  - destruct (Qcltb a b) eqn:e; auto. apply Qcltb_lt in e. lra.
Qed.
Lemma Qceqb_eq a b : Qc_eq_bool a b = true <-> a = b.
Proof.
  split; intro h.
  - apply Qc_eq_bool_correct. exact h.
  - subst. unfold Qc_eq_bool. destruct (Qc_eq_dec b b); congruence.
Qed.
Lemma Qceqb_neq a b : Qc_eq_bool a b = false <-> a <> b.
Proof.
  split; intro h.
  - intro e. apply Qceqb_eq in e. congruence.
  - destruct (Qc_eq_bool a b) eqn:e; auto. apply Qceqb_eq in e. contradiction.
Qed.

Lemma Q2R_pos q : (0 < q)%Q -> 0 < Q2R q.
Proof. intro h. apply Qlt_Rlt in h. rewrite RMicromega.Q2R_0 in h. exact h. Qed.

Lemma Reqb_true x y : Reqb x y = true <-> x = y.
Proof. unfold Reqb. destruct (Req_EM_T x y); split; intros; auto; congruence. Qed.
Lemma Reqb_false x y : Reqb x y = false <-> x <> y.
Proof. unfold Reqb. destruct (Req_EM_T x y); split; intros; auto; congruence. Qed.
Lemma Rltb_true x y : Rltb x y = true <-> x < y.
Proof. unfold Rltb. destruct (Rlt_dec x y); split; intros; auto; congruence. Qed.
Lemma Rltb_false x y : Rltb x y = false <-> ~ x < y.
Proof. unfold Rltb. destruct (Rlt_dec x y); split; intros; auto; congruence. Qed.

Lemma powerRZ_Rpower' (x : R) (z : Z) : 0 < x -> powerRZ x z = Rpower x (IZR z).
Proof. intro h. apply powerRZ_Rpower. exact h. Qed.

(** Python's power of a positive number is the real power. *)
Lemma Rpowq_pos x q : 0 < x -> Rpowq x q = Ok (Rpower x (QcR q)).
Proof.
  intro h. unfold Rpowq. destruct (is_int q) eqn:i.
  - replace (Reqb x 0) with false by (symmetry; apply Reqb_false; lra).
    cbn. f_equal. rewrite powerRZ_Rpower by exact h. f_equal.
    unfold is_int in i. apply Pos.eqb_eq in i. unfold QcR, Q2R. rewrite i. field.
  - rewrite (proj2 (Rltb_true 0 x) h). reflexivity.
Qed.

Lemma Rpower_pos x y : 0 < Rpower x y.
Proof. apply exp_pos. Qed.
Lemma Rpower_one x : Rpower 1 x = 1.
Proof. unfold Rpower. rewrite ln_1, Rmult_0_r. apply exp_0. Qed.

Lemma Rpower_Rinv x y : 0 < x -> Rpower (/ x) y = / Rpower x y.
Proof.
  intro h. unfold Rpower. rewrite ln_Rinv by exact h.
  rewrite <- exp_Ropp. f_equal. ring.
Qed.
Lemma Rpower_mult_base x y z : 0 < x -> 0 < y -> Rpower (x * y) z = Rpower x z * Rpower y z.
Proof. intros. unfold Rpower. rewrite ln_mult by auto. rewrite <- exp_plus. f_equal. ring. Qed.

(** Division by a nonzero number. *)
Lemma pydiv_ok (x y : R) : y <> 0 -> pydiv x y = Ok (x / y).
Proof.
  intro h. unfold pydiv. cbn -[Q2R]. replace (Q2R 0) with 0 by (unfold Q2R; cbn; field).
  rewrite (proj2 (Reqb_false y 0) h). reflexivity.
Qed.
Lemma pydiv_0 (x : R) : pydiv x 0 = Raise EZeroDivisionError.
Proof.
  unfold pydiv. cbn -[Q2R]. replace (Q2R 0) with 0 by (unfold Q2R; cbn; field).
  rewrite (proj2 (Reqb_true 0 0) eq_refl). reflexivity.
Qed.
