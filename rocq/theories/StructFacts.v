(** * StructFacts: the list algorithms preserve every linear functional of the
    exponents, hence the denoted unit *)
From Coq Require Import String Ascii List ZArith QArith Qcanon Bool Reals Qreals Lia Lra.
From Verif Require Import Py Num UnitsData UnitsStruct Units NumFacts Spec.
Import ListNotations.
Local Open Scope string_scope.
Local Open Scope list_scope.
Local Open Scope R_scope.

(** Sum over a list of exponent times the weight of the name. *)
Fixpoint lin (phi : string -> R) (l : half) : R :=
  match l with
  | nil => 0
  | x :: l' => QcR (ev (bexp x)) * phi (bname x) + lin phi l'
  end.

Lemma lin_app phi l1 l2 : lin phi (l1 ++ l2) = lin phi l1 + lin phi l2.
Proof. induction l1 as [|x l IH]; cbn; [lra|]. rewrite IH. lra. Qed.
Lemma lin_cons phi x l : lin phi (x :: l) = QcR (ev (bexp x)) * phi (bname x) + lin phi l.
Proof. reflexivity. Qed.

Lemma usize_lin w l : usize w l = exp (lin (fun n => ln (w n)) l).
Proof.
  induction l as [|x l IH]; cbn; [symmetry; apply exp_0|].
  rewrite exp_plus. f_equal. exact IH.
Qed.
Lemma usize_pos w l : 0 < usize w l.
Proof. rewrite usize_lin. apply exp_pos. Qed.
Lemma usize_app w l1 l2 : usize w (l1 ++ l2) = usize w l1 * usize w l2.
Proof. rewrite !usize_lin, lin_app, exp_plus. reflexivity. Qed.
Lemma msize_lin w t b : msize w t b = exp (lin (fun n => ln (w n)) t - lin (fun n => ln (w n)) b).
Proof.
  unfold msize. rewrite !usize_lin. unfold Rminus, Rdiv. rewrite exp_plus, exp_Ropp. reflexivity.
Qed.
Lemma msize_pos w t b : 0 < msize w t b.
Proof. rewrite msize_lin. apply exp_pos. Qed.
Lemma msize_app w t1 b1 t2 b2 : msize w (t1 ++ t2) (b1 ++ b2) = msize w t1 b1 * msize w t2 b2.
Proof. rewrite !msize_lin, !lin_app, <- exp_plus. f_equal. lra. Qed.
Lemma msize_swap w t b : msize w b t = / msize w t b.
Proof. rewrite !msize_lin, <- exp_Ropp. f_equal. lra. Qed.
Lemma msize_nil w : msize w nil nil = 1.
Proof. unfold msize. cbn. field. Qed.

(** Net exponents as a linear functional. *)
Definition ind (n : string) (m : string) : R := if String.eqb m n then 1 else 0.
Lemma net_lin n l : QcR (net n l) = lin (ind n) l.
Proof.
  induction l as [|x l IH]; cbn; [apply QcR_qc|].
  unfold ind at 1. destruct (String.eqb (bname x) n).
  - rewrite QcR_plus, IH. lra.
  - rewrite IH. lra.
Qed.

Lemma expo_z e z : e_is e z = true <-> QcR (ev e) = IZR z.
Proof.
  unfold e_is. rewrite Qceqb_eq. split; intro h.
  - rewrite h. apply QcR_qc.
  - apply QcR_inj. rewrite h, QcR_qc. reflexivity.
Qed.
Lemma expo_nz e z : e_is e z = false <-> QcR (ev e) <> IZR z.
Proof.
  destruct (e_is e z) eqn:h.
  - apply expo_z in h. split; [discriminate | tauto].
  - split; auto. intros _ k. apply expo_z in k. congruence.
Qed.
Lemma eltb_lt a b : eltb a b = true <-> QcR (ev a) < QcR (ev b).
Proof. apply Qcltb_lt. Qed.
Lemma eltb_ge a b : eltb a b = false <-> QcR (ev b) <= QcR (ev a).
Proof. apply Qcltb_ge. Qed.
Lemma ev_eint z : QcR (ev (eint z)) = IZR z.
Proof. apply QcR_qc. Qed.

(** ** Combine *)

Lemma set_nth_length {A} n (x : A) l : List.length (set_nth n x l) = List.length l.
Proof. revert n. induction l as [|y l IH]; intros [|n]; cbn; auto. Qed.
Lemma nth_set_nth_eq {A} n (x : A) l : (n < List.length l)%nat -> nth_error (set_nth n x l) n = Some x.
Proof. revert n. induction l as [|y l IH]; intros [|n] h; cbn in *; try lia; auto. apply IH. lia. Qed.
Lemma nth_set_nth_neq {A} n m (x : A) l : n <> m -> nth_error (set_nth n x l) m = nth_error l m.
Proof.
  revert n m. induction l as [|y l IH]; intros n m h.
  - destruct n; reflexivity.
  - destruct n as [|n], m as [|m]; cbn; auto; try congruence.
Qed.
Lemma lin_set_nth phi n x y l : nth_error l n = Some y ->
  lin phi (set_nth n x l) = lin phi l - QcR (ev (bexp y)) * phi (bname y) + QcR (ev (bexp x)) * phi (bname x).
Proof.
  revert n. induction l as [|z l IH]; intros [|n] h; cbn in *; try discriminate.
  - injection h as ->. lra.
  - rewrite (IH n h). lra.
Qed.

Lemma combine_step_lin phi i j l : lin phi (combine_step i j l) = lin phi l.
Proof.
  unfold combine_step. destruct (nth_error l i) as [u1|] eqn:hi; auto.
  destruct (nth_error l j) as [u2|] eqn:hj; auto.
  destruct (String.eqb (bname u1) (bname u2) && negb (Nat.eqb i j)) eqn:c; auto.
  apply andb_true_iff in c. destruct c as [cn cj]. apply String.eqb_eq in cn.
  apply negb_true_iff, Nat.eqb_neq in cj.
  rewrite (lin_set_nth _ _ _ u2) by (rewrite nth_set_nth_neq by auto; exact hj).
  rewrite (lin_set_nth _ _ _ u1) by exact hi. cbn [bexp bname ev eadd].
  rewrite QcR_plus, ev_eint, cn. lra.
Qed.
Lemma combine_lin phi l : lin phi (combine_units l) = lin phi l.
Proof.
  unfold combine_units. generalize (seq 0 (List.length l)) at 2 as outer.
  generalize (seq 0 (List.length l)) as inner. intros inner outer. revert l.
  induction outer as [|i outer IH]; intro l; [reflexivity|]. cbn. rewrite IH.
  generalize inner as js. clear. intro js. revert l.
  induction js as [|j js IHj]; intro l; [reflexivity|]. cbn. rewrite IHj. apply combine_step_lin.
Qed.

(** Names are untouched, position by position. *)
Lemma map_set_nth {A B} (f : A -> B) n x y l :
  nth_error l n = Some y -> f x = f y -> map f (set_nth n x l) = map f l.
Proof.
  revert n. induction l as [|z l IH]; intros [|n] h e; cbn in *; try discriminate.
  - injection h as ->. rewrite e. reflexivity.
  - f_equal. apply IH; auto.
Qed.
Lemma combine_step_names i j l : map bname (combine_step i j l) = map bname l.
Proof.
  unfold combine_step. destruct (nth_error l i) as [u1|] eqn:hi; auto.
  destruct (nth_error l j) as [u2|] eqn:hj; auto.
  destruct (String.eqb (bname u1) (bname u2) && negb (Nat.eqb i j)) eqn:c; auto.
  apply andb_true_iff in c. destruct c as [cn cj].
  apply negb_true_iff, Nat.eqb_neq in cj.
  rewrite (map_set_nth _ _ _ u2).
  - apply (map_set_nth _ _ _ u1); auto.
  - rewrite nth_set_nth_neq by auto. exact hj.
  - reflexivity.
Qed.

Definition inner_loop (i : nat) (js : list nat) (l : half) : half :=
  fold_left (fun l j => combine_step i j l) js l.
Lemma inner_names i js l : map bname (inner_loop i js l) = map bname l.
Proof.
  revert l. induction js as [|j js IH]; intro l; [reflexivity|]. cbn.
  fold (inner_loop i js (combine_step i j l)). rewrite IH. apply combine_step_names.
Qed.
Lemma combine_names l : map bname (combine_units l) = map bname l.
Proof.
  unfold combine_units. generalize (seq 0 (List.length l)) at 2 as outer.
  generalize (seq 0 (List.length l)) as inner. intros inner outer. revert l.
  induction outer as [|i outer IH]; intro l; [reflexivity|]. cbn. rewrite IH.
  apply (inner_names i inner l).
Qed.
