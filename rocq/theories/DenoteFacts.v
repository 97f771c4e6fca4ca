(** * DenoteFacts: deciding that a unit equals a written one

    Units are compared by their exponents after the derived units have been
    replaced by their definitions. *)
From Coq Require Import String Ascii List ZArith QArith Qcanon Bool Reals Qreals Lia Lra.
From Verif Require Import Py Num UnitsData UnitsStruct Units NumFacts Spec SpecFacts StructFacts
  OpFacts NamesFacts ClosureFacts FactorFacts LawFacts WitnessFacts OpPropFacts Solve Formulas FormulaSpec TransferSpec SemFacts SymFacts SweepFacts SimFacts ParamFacts ProbeFacts.
Import ListNotations.
Local Open Scope string_scope.
Local Open Scope list_scope.
Local Open Scope R_scope.

Definition dl := list (string * Qc).
Definition dsum (phi : string -> R) (l : dl) : R := fold_right (fun p s => QcR (snd p) * phi (fst p) + s) 0 l.
Definition dscale (q : Qc) (l : dl) : dl := map (fun p => (fst p, (q * snd p)%Qc)) l.
Fixpoint dnet (n : string) (l : dl) : Qc :=
  match l with nil => qc 0 | p :: l' => if String.eqb (fst p) n then (snd p + dnet n l')%Qc else dnet n l' end.
Fixpoint dless (n : string) (l : dl) : dl :=
  match l with nil => nil | p :: l' => if String.eqb (fst p) n then dless n l' else p :: dless n l' end.

Lemma dsum_app phi a b : dsum phi (a ++ b) = dsum phi a + dsum phi b.
Proof. induction a as [|p a IH]; cbn [dsum fold_right app]; [unfold dsum; cbn; lra|]. unfold dsum in *. rewrite IH. lra. Qed.
Lemma dsum_scale phi q l : dsum phi (dscale q l) = QcR q * dsum phi l.
Proof. induction l as [|p l IH]; cbn [dsum fold_right dscale map fst snd]; [unfold dsum; cbn; lra|]. unfold dsum, dscale in *. rewrite IH, QcR_mult. lra. Qed.
Lemma dsum_less phi n l : dsum phi l = QcR (dnet n l) * phi n + dsum phi (dless n l).
Proof.
  induction l as [|p l IH]; cbn [dnet dless]; [rewrite QcR_qc; unfold dsum; cbn; lra|].
  destruct (String.eqb_spec (fst p) n) as [e|e]; cbn [dsum fold_right]; fold (dsum phi l).
  - rewrite IH, QcR_plus, e. lra.
  - fold (dsum phi (dless n l)). rewrite IH. lra.
Qed.
Lemma dless_length n l : (length (dless n l) <= length l)%nat.
Proof. induction l as [|p l IH]; cbn; [lia|]. destruct (String.eqb (fst p) n); cbn; lia. Qed.
Lemma dnet_less n m l : n <> m -> dnet n (dless m l) = dnet n l.
Proof.
  intro h. induction l as [|p l IH]; cbn [dnet dless]; [reflexivity|].
  destruct (String.eqb_spec (fst p) m) as [e|e]; cbn [dnet].
  - destruct (String.eqb_spec (fst p) n) as [e'|e']; [congruence|exact IH].
  - rewrite IH. reflexivity.
Qed.
Lemma dless_names n m l : In n (map fst (dless m l)) -> In n (map fst l) /\ n <> m.
Proof.
  induction l as [|p l IH]; cbn [dless map]; [tauto|]. destruct (String.eqb_spec (fst p) m) as [e|e]; cbn [map In].
  - intro h. destruct (IH h). auto.
  - intros [h|h]; [subst n; auto|]. destruct (IH h). auto.
Qed.
Lemma dsum_zero phi k : forall l, (length l <= k)%nat -> (forall n, In n (map fst l) -> dnet n l = qc 0) -> dsum phi l = 0.
Proof.
  induction k as [|k IH]; intros l hl hn; destruct l as [|p l]; cbn in hl; try lia; try reflexivity.
  rewrite (dsum_less phi (fst p)). rewrite (hn (fst p)) by (left; reflexivity). rewrite QcR_qc. cbn [dless]. rewrite String.eqb_refl.
  rewrite IH; [lra|pose proof (dless_length (fst p) l); lia|].
  intros n h. apply dless_names in h. destruct h as [h h']. rewrite dnet_less by exact h'. rewrite <- (hn n) by (right; exact h).
  cbn [dnet]. destruct (String.eqb_spec (fst p) n); [congruence|reflexivity].
Qed.
Definition deq (a b : dl) : bool := let d := a ++ dscale (qc (-1)) b in forallb (fun n => Qc_eq_bool (dnet n d) (qc 0)) (map fst d).
Lemma deq_ok phi a b : deq a b = true -> dsum phi a = dsum phi b.
Proof.
  unfold deq. intro h. rewrite forallb_forall in h.
  assert (hz : dsum phi (a ++ dscale (qc (-1)) b) = 0) by (eapply dsum_zero; [reflexivity|]; intros n hn; apply Qceqb_eq, h, hn).
  rewrite dsum_app, dsum_scale, QcR_qc in hz. lra.
Qed.

Definition definition (n : string) : dl :=
  if String.eqb n "Pa" then [("kg", qc 1); ("m", qc (-1)); ("s", qc (-2))]
  else if String.eqb n "J" then [("kg", qc 1); ("m", qc 2); ("s", qc (-2))]
  else if String.eqb n "W" then [("kg", qc 1); ("m", qc 2); ("s", qc (-3))]
  else if String.eqb n "psi" then [("lbf", qc 1); ("in", qc (-2))]
  else if String.eqb n "cP" then [("g", qc 1); ("m", qc (-1)); ("s", qc (-1))]
  else if String.eqb n "C" then [("A", qc 1); ("s", qc 1)]
  else if String.eqb n "V" then [("kg", qc 1); ("m", qc 2); ("s", qc (-3)); ("A", qc (-1))]
  else [(n, qc 1)].
Definition dims (l : half) : dl := flat_map (fun x => dscale (ev (bexp x)) (definition (bname x))) l.
Definition vdims (v : qval) : dl :=
  match v with
  | VUnit u => dims [BU (un u) (ue u)]
  | VMulti m => dims (mtop m) ++ dscale (qc (-1)) (dims (mbot m))
  | _ => nil
  end.
Lemma definition_ok w n : coherent w -> dsum (fun m => ln (w m)) (definition n) = ln (w n).
Proof.
  intros hw. pose proof (co_pos w hw) as hp.
  assert (lp : forall a b, 0 < a -> 0 < b -> ln (a / b) = ln a - ln b) by (intros; unfold Rdiv; rewrite ln_mult, ln_Rinv by (auto; apply Rinv_0_lt_compat; auto); lra).
  assert (p2 : forall n, 0 < w n ^ 2) by (intros; apply pow_lt; auto). assert (p3 : forall n, 0 < w n ^ 3) by (intros; apply pow_lt; auto).
  assert (l2 : forall n, ln (w n ^ 2) = 2 * ln (w n)) by (intros; cbn [pow]; rewrite Rmult_1_r, ln_mult by auto; lra).
  assert (l3 : forall n, ln (w n ^ 3) = 3 * ln (w n)) by (intros m; replace (w m ^ 3) with (w m ^ 2 * w m) by ring; rewrite ln_mult, l2 by auto; lra).
  assert (mp : forall a b, 0 < a -> 0 < b -> 0 < a * b) by (intros; apply Rmult_lt_0_compat; auto).
  assert (hj : ln (w "J") = ln (w "kg") + 2 * ln (w "m") - 2 * ln (w "s")).
  { rewrite (co_J w hw), lp by auto. rewrite ln_mult, !l2 by auto. lra. }
  unfold definition.
  repeat match goal with |- context [String.eqb n ?s] => destruct (String.eqb_spec n s) as [->|_]; [cbn [dsum fold_right fst snd]; rewrite ?QcR_qc|] end.
  - rewrite (co_Pa w hw), lp by auto. rewrite ln_mult, l2 by auto. lra.
  - rewrite hj. lra.
  - rewrite (co_W w hw), lp, hj by auto. lra.
  - rewrite (co_psi w hw), lp, l2 by auto. lra.
  - rewrite (co_cP w hw), lp, ln_mult by auto. lra.
  - rewrite (co_C w hw), ln_mult by auto. lra.
  - rewrite (co_V w hw), lp by auto. rewrite ln_mult by auto. rewrite ln_mult by auto. rewrite l2, l3. lra.
  - cbn [dsum fold_right fst snd]. rewrite QcR_qc. lra.
Qed.
Lemma dims_ok w l : coherent w -> dsum (fun m => ln (w m)) (dims l) = StructFacts.lin (fun m => ln (w m)) l.
Proof.
  intro hw. induction l as [|x l IH]; [reflexivity|]. unfold dims in *. cbn [flat_map StructFacts.lin]. rewrite dsum_app, dsum_scale, definition_ok, IH by exact hw. reflexivity.
Qed.
Lemma vdims_ok w v x : coherent w -> qcarries v = true -> qty w (obj v x) = Some (x * exp (dsum (fun m => ln (w m)) (vdims v))).
Proof.
  intros hw hc. unfold obj. destruct v as [q| | |u|m]; try discriminate hc; cbn [vmap setv qty umap mmap uc uv un ue mc mv mtop mbot vdims].
  - unfold dsum. cbn. rewrite exp_0. f_equal. ring.
  - rewrite dims_ok by exact hw. cbn [StructFacts.lin bname bexp]. rewrite Rplus_0_r. reflexivity.
  - rewrite dsum_app, dsum_scale, !dims_ok, QcR_qc by exact hw. rewrite msize_lin. do 3 f_equal. lra.
Qed.
Definition in_unit (s : string) (o : qval) : bool := match mk_multi MMulti 1%Q s with Ok m => deq (vdims o) (vdims (VMulti m)) | Raise _ => false end.
Lemma in_unit_ok s o x : qcarries o = true -> in_unit s o = true -> denotes (obj o x) x s.
Proof.
  unfold in_unit, denotes. intros hc h. destruct (mk_multi MMulti 1%Q s) as [m|] eqn:e; [|discriminate].
  exists (obj (VMulti m) x). split.
  - unfold constant. unfold mk_multi in *. destruct (String.eqb s EmptyString); [injection e as <-; reflexivity|]. destruct (parse_units s) as [p|]; cbn in *; [injection e as <-; reflexivity|discriminate].
  - intros w hw. rewrite !vdims_ok by (assumption || reflexivity). rewrite (deq_ok _ _ _ h). reflexivity.
Qed.
(** The formula run on the objects built from the texts, without factors. *)
Lemma denotes_run ss vs xs f s : qmakes_all ss vs xs -> osys ss f (in_unit s) = true -> def xs f ->
  exists r, run vs f = Ok r /\ value r = num xs f /\ denotes r (num xs f) s.
Proof.
  intros hm h hd. destruct (osys_sound _ _ _ _ _ hm h hd) as [o [e [h1 [h2 _]]]]. exists (obj o (num xs f)).
  split; [exact e|]. split; [apply obj_value; exact h2|apply in_unit_ok; assumption].
Qed.
