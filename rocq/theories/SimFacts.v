(** * SimFacts: evaluating on rationals is evaluating on reals

    The instance of the model on rationals can be run by computation; what it
    answers, the instance on reals answers.  Used for concrete cases. *)
From Coq Require Import String Ascii List ZArith QArith Qcanon Bool Reals Qreals Qpower Lia Lra.
From Verif Require Import Py Num UnitsData UnitsStruct Units NumFacts SpecFacts Spec StructFacts FactorFacts FormulaSpec ClosureFacts FactorFacts Solve Formulas SymFacts SweepFacts.
Import ListNotations.
Local Open Scope string_scope.
Local Open Scope list_scope.
Local Open Scope R_scope.

Lemma Q2R_red x : Q2R (Qred x) = Q2R x.
Proof. apply Qeq_eqR, Qred_correct. Qed.
Lemma Q2R_0 : Q2R 0 = 0.
Proof. unfold Q2R. cbn. field. Qed.
Lemma Qeqb_R x y : Qeq_bool x y = Reqb (Q2R x) (Q2R y).
Proof.
  destruct (Qeq_bool x y) eqn:e; symmetry.
  - apply Reqb_true. apply Qeq_eqR. apply Qeq_bool_iff. exact e.
  - apply Reqb_false. intro h. apply eqR_Qeq in h. apply Qeq_bool_iff in h. congruence.
Qed.

(** A rational answer is the real answer; Unmodelled answers nothing. *)
Definition sim {A B} (f : A -> B) (r : res A) (s : res B) : Prop :=
  match r with
  | Ok x => s = Ok (f x)
  | Raise Unmodelled => True
  | Raise e => s = Raise e
  end.
Lemma sim_bind {A B C D} (f : A -> B) (g : C -> D) r s (k : A -> res C) (l : B -> res D) :
  sim f r s -> (forall x, sim g (k x) (l (f x))) -> sim g (let* x := r in k x) (let* y := s in l y).
Proof.
  intros h hk. destruct r as [x|e]; cbn in h.
  - subst. cbn. apply hk.
  - cbn. destruct e; try exact I; subst; reflexivity.
Qed.
Lemma sim_ok {A B} (f : A -> B) x y : y = f x -> sim f (Ok x) (Ok y).
Proof. intros ->. reflexivity. Qed.
Lemma sim_rmap {A B C D} (f : A -> B) (g : C -> D) r s (k : A -> C) (l : B -> D) :
  sim f r s -> (forall x, l (f x) = g (k x)) -> sim g (rmap k r) (rmap l s).
Proof. intros h hk. destruct r as [x|e]; cbn in *; [subst; cbn; rewrite hk; reflexivity|destruct e; try exact I; subst; reflexivity]. Qed.
Lemma sim_raise {A B} (f : A -> B) e : sim f (Raise e) (Raise e).
Proof. destruct e; try reflexivity; exact I. Qed.

Lemma sim_div (x y : Q) : sim Q2R (pydiv x y) (pydiv (Q2R x) (Q2R y)).
Proof.
  unfold pydiv. cbn [neqb ndiv nq Qnum_inst Rnum]. rewrite Qeqb_R, Q2R_red. destruct (Reqb (Q2R y) (Q2R 0)) eqn:e; [reflexivity|].
  cbn [sim]. rewrite Q2R_red. apply Reqb_false in e. f_equal. unfold Qdiv. rewrite Q2R_mult, Q2R_inv; [reflexivity|].
  intro h. apply e. apply Qeq_eqR. exact h.
Qed.
Lemma Q2R_pow_pos x p : Q2R (Qpower_positive x p) = Q2R x ^ Pos.to_nat p.
Proof.
  induction p as [|p IH] using Pos.peano_ind.
  - change (Qpower_positive x 1) with x. change (Pos.to_nat 1) with 1%nat. rewrite pow_1. reflexivity.
  - rewrite Pos2Nat.inj_succ. cbn [pow]. rewrite <- IH, <- Q2R_mult. apply Qeq_eqR.
    rewrite <- Pos.add_1_l. rewrite Qpower_plus_positive. reflexivity.
Qed.
Lemma Q2R_power x z : Q2R x <> 0 \/ (0 <= z)%Z -> Q2R (Qpower x z) = powerRZ (Q2R x) z.
Proof.
  intro h. destruct z as [|p|p]; cbn [Qpower powerRZ].
  - unfold Q2R. cbn. field.
  - apply Q2R_pow_pos.
  - destruct h as [h|h]; [|lia]. rewrite Q2R_inv.
    + rewrite Q2R_pow_pos. reflexivity.
    + intro e. apply Qeq_eqR in e. rewrite Q2R_pow_pos, Q2R_0 in e. revert e. apply pow_nonzero, h.
Qed.
Lemma sim_pow x q : sim Q2R (npow x q) (npow (Q2R x) q).
Proof.
  cbn [npow Qnum_inst Rnum]. unfold Qpowq, Rpowq. rewrite !Qeqb_R, Q2R_0. destruct (is_int q) eqn:i.
  - destruct (Reqb (Q2R x) 0) eqn:e; cbn [andb].
    + destruct (Qcltb q (qc 0)) eqn:l; [reflexivity|]. cbn [sim]. rewrite Q2R_red, Q2R_power; [reflexivity|]. right.
      unfold Qcltb in l. apply negb_false_iff in l. apply Qle_bool_iff in l. unfold is_int in i. apply Pos.eqb_eq in i.
      rewrite qc_this in l. unfold Qle in l. cbn [inject_Z Qnum Qden] in l. rewrite i in l. lia.
    + cbn [sim]. rewrite Q2R_red, Q2R_power; [reflexivity|]. left. apply Reqb_false. exact e.
  - destruct (Reqb (Q2R x) (Q2R 1)) eqn:e1.
    + apply Reqb_true in e1. assert (e : Q2R x = 1) by (rewrite e1; unfold Q2R; cbn; field). rewrite e.
      rewrite (proj2 (Rltb_true 0 1)) by lra. cbn. rewrite Rpower_one. f_equal. unfold Q2R. cbn. field.
    + destruct (Reqb (Q2R x) 0) eqn:e0; [|exact I]. apply Reqb_true in e0. rewrite e0.
      replace (Rltb 0 0) with false by (symmetry; apply Rltb_false; lra). destruct (Qcltb q (qc 0)); [reflexivity|]. cbn. rewrite Q2R_0. reflexivity.
Qed.
Lemma sim_prefix inv l : forall x, sim Q2R (prefix_loop inv l x) (prefix_loop inv l (Q2R x)).
Proof.
  induction l as [|[p u] l IH]; intro x; cbn [prefix_loop]; [reflexivity|].
  destruct (String.eqb p EmptyString); [apply IH|]. destruct (dict_get prefix_factors p) as [q|]; [|reflexivity].
  assert (h : sim Q2R (let* b := (if inv then pydiv (nq 1) (nq q) else Ok (nq q)) in npow b (ev (bexp u)))
                    (let* b := (if inv then pydiv (nq 1) (nq q) else Ok (nq q : R)) in npow b (ev (bexp u)))).
  { apply (sim_bind Q2R Q2R); [|intro y; apply sim_pow]. destruct inv.
    - cbn [nq Qnum_inst Rnum]. rewrite <- (Q2R_red 1), <- (Q2R_red q). apply sim_div.
    - cbn [sim nq Qnum_inst Rnum]. rewrite Q2R_red. reflexivity. }
  revert h. generalize (let* b := (if inv then pydiv (nq 1) (nq q) else Ok (nq q : Q)) in npow b (ev (bexp u))).
  generalize (let* b := (if inv then pydiv (nq 1) (nq q) else Ok (nq q : R)) in npow b (ev (bexp u))).
  intros s r h. destruct r as [f|e]; cbn in h.
  - subst s. cbn [nmul Qnum_inst Rnum]. rewrite <- Q2R_mult, <- (Q2R_red (x * f)). apply IH.
  - destruct e; try (subst s; reflexivity). exact I.
Qed.
Definition f3 (x : half * half * Q) : half * half * R := (fst x, Q2R (snd x)).
Lemma sim_reduce ct cb top bot : sim f3 (reduce ct cb top bot) (reduce ct cb top bot).
Proof.
  unfold reduce. apply (sim_bind f3 f3).
  - unfold deconstruct_unit_prefixes. destruct (mapM split_prefix top) as [tp|e]; cbn [bind]; [|apply sim_raise].
    destruct (mapM split_prefix bot) as [bp|e]; cbn [bind]; [|apply sim_raise].
    apply (sim_bind Q2R f3); [cbn [nq Qnum_inst Rnum]; rewrite <- (Q2R_red 1); apply sim_prefix|]. intro x.
    apply (sim_bind Q2R f3); [apply sim_prefix|]. intro y. reflexivity.
  - intros [[t b] f]. cbn [f3 fst snd]. destruct (reduce_tail ct cb t b) as [r|e]; cbn [bind]; [reflexivity|apply sim_raise].
Qed.

Definition umap (u : unit_obj Q) : unit_obj R := UO (uc u) (Q2R (uv u)) (un u) (ue u).
Definition mmap (m : multi_obj Q) : multi_obj R := MO (mc m) (Q2R (mv m)) (mtop m) (mbot m).
Definition vmap (v : pyval Q) : val :=
  match v with
  | VNum x => VNum (Q2R x)
  | VNone => VNone
  | VObj => VObj
  | VUnit u => VUnit (umap u)
  | VMulti m => VMulti (mmap m)
  end.
Lemma sim_mk c x n e : sim vmap (vunit (mk_unit c x n e)) (vunit (mk_unit c (Q2R x) n e)).
Proof.
  destruct c; cbn [mk_unit]; try reflexivity;
    try (match goal with |- context [mem_str ?a ?b] => destruct (mem_str a b); reflexivity end);
    unfold split_caret; (destruct (has_char "^" n); [|reflexivity]);
    (destruct (split_on "^" n) as [|a [|b [|? ?]]]; try reflexivity); (destruct (py_float b) as [?|ee]; [reflexivity|destruct ee; try reflexivity; exact I]).
Qed.
Lemma map_shape_div x t b : vmap (shape_div x t b) = shape_div (Q2R x) t b.
Proof. destruct t as [|y [|z t]]; destruct b as [|y' [|z' b]]; reflexivity. Qed.
Lemma map_shape_mul x t b : vmap (shape_mul x t b) = shape_mul (Q2R x) t b.
Proof. destruct t as [|y [|z t]]; destruct b as [|y' b]; reflexivity. Qed.
Ltac qr := cbn [nmul nadd nsub nopp nq Qnum_inst Rnum mmap umap mc mv mtop mbot uc uv un ue f3 fst snd]; rewrite ?Q2R_red, ?Q2R_mult, ?Q2R_plus, ?Q2R_minus, ?Q2R_opp, ?Q2R_red, ?Q2R_mult.

Lemma sim_mul a b : sim vmap (py_mul a b) (py_mul (vmap a) (vmap b)).
Proof.
  destruct a as [x| | |u|m]; destruct b as [y| | |u'|m']; cbn [py_mul vmap unit_mul unit_rmul multi_mul multi_rmul umap mmap uc uv un ue mc mv mtop mbot];
    try reflexivity.
  - apply sim_ok. cbn [vmap]. qr. reflexivity.
  - cbn [nmul Qnum_inst Rnum]. rewrite <- Q2R_mult, <- (Q2R_red (uv u' * x)). apply sim_mk.
  - apply sim_ok. cbn [vmap]. unfold mmap. qr. reflexivity.
  - cbn [nmul Qnum_inst Rnum]. rewrite <- Q2R_mult, <- (Q2R_red (uv u * y)). apply sim_mk.
  - destruct (_ && _).
    + cbn [nmul Qnum_inst Rnum]. rewrite <- Q2R_mult, <- (Q2R_red (uv u * uv u')). apply sim_mk.
    + apply sim_ok. cbn [vmap]. unfold mmap. qr. reflexivity.
  - apply (sim_bind f3 vmap); [apply sim_reduce|]. intros [[t b] f]. cbn [f3 fst snd]. apply sim_ok. rewrite map_shape_mul. qr. reflexivity.
  - apply sim_ok. cbn [vmap]. unfold mmap. qr. reflexivity.
  - apply (sim_bind f3 vmap); [apply sim_reduce|]. intros [[t b] f]. cbn [f3 fst snd]. apply sim_ok. rewrite map_shape_mul. qr. reflexivity.
  - apply (sim_bind f3 vmap); [apply sim_reduce|]. intros [[t b] f]. cbn [f3 fst snd]. apply sim_ok. cbn [vmap]. unfold mmap. qr. reflexivity.
Qed.
Lemma sim_divide a b : sim vmap (py_div a b) (py_div (vmap a) (vmap b)).
Proof.
  destruct a as [x| | |u|m]; destruct b as [y| | |u'|m']; cbn [py_div vmap unit_div multi_div multi_rdiv umap mmap uc uv un ue mc mv mtop mbot];
    try reflexivity.
  - eapply (sim_rmap Q2R); [apply sim_div|reflexivity].
  - apply (sim_bind Q2R vmap); [apply sim_div|]. intro q. reflexivity.
  - apply (sim_bind Q2R vmap); [apply sim_div|]. intro q. apply sim_mk.
  - apply (sim_bind Q2R vmap); [apply sim_div|]. intro q. destruct (String.eqb _ _); [|reflexivity]. destruct (e_is _ 0); [reflexivity|apply sim_mk].
  - apply (sim_bind f3 vmap); [apply sim_reduce|]. intros [[t b] f]. cbn [f3 fst snd].
    apply (sim_bind Q2R vmap); [apply sim_div|]. intro q. apply sim_ok. rewrite map_shape_div. reflexivity.
  - apply (sim_bind Q2R vmap); [apply sim_div|]. intro q. reflexivity.
  - apply (sim_bind f3 vmap); [apply sim_reduce|]. intros [[t b] f]. cbn [f3 fst snd].
    apply (sim_bind Q2R vmap); [apply sim_div|]. intro q. apply sim_ok. rewrite map_shape_div. qr. reflexivity.
  - destruct (_ && _); [eapply (sim_rmap Q2R); [apply sim_div|reflexivity]|].
    apply (sim_bind f3 vmap); [apply sim_reduce|]. intros [[t b] f]. cbn [f3 fst snd].
    apply (sim_bind Q2R vmap); [apply sim_div|]. intro q. apply sim_ok. rewrite map_shape_div. qr. reflexivity.
Qed.
Lemma sim_add a b : sim vmap (py_add a b) (py_add (vmap a) (vmap b)).
Proof.
  destruct a as [x| | |u|m]; destruct b as [y| | |u'|m']; cbn [py_add vmap unit_addsub multi_add umap mmap uc uv un ue mc mv mtop mbot];
    try reflexivity.
  - apply sim_ok. cbn [vmap]. qr. reflexivity.
  - cbn [nadd Qnum_inst Rnum]. rewrite <- Q2R_plus, <- (Q2R_red (uv u + y)). apply sim_mk.
  - destruct (ucls_sub _ _); [|reflexivity]. destruct (_ && _); [|reflexivity].
    cbn [nadd Qnum_inst Rnum]. rewrite <- Q2R_plus, <- (Q2R_red (uv u + uv u')). apply sim_mk.
  - destruct (mcls_eqb _ _); [|reflexivity]. destruct (_ && _); [|reflexivity]. apply sim_ok. cbn [vmap]. unfold mmap. qr. reflexivity.
Qed.
Lemma sim_sub a b : sim vmap (py_sub a b) (py_sub (vmap a) (vmap b)).
Proof.
  destruct a as [x| | |u|m]; destruct b as [y| | |u'|m']; cbn [py_sub vmap unit_addsub multi_sub umap mmap uc uv un ue mc mv mtop mbot];
    try reflexivity.
  - apply sim_ok. cbn [vmap]. qr. reflexivity.
  - cbn [nsub Qnum_inst Rnum]. rewrite <- Q2R_minus, <- (Q2R_red (uv u - y)). apply sim_mk.
  - destruct (ucls_sub _ _); [|reflexivity]. destruct (_ && _); [|reflexivity].
    cbn [nsub Qnum_inst Rnum]. rewrite <- Q2R_minus, <- (Q2R_red (uv u - uv u')). apply sim_mk.
  - destruct (_ && _); [|reflexivity]. apply sim_ok. cbn [vmap]. unfold mmap. qr. reflexivity.
Qed.
Lemma sim_neg a : sim vmap (py_neg a) (py_neg (vmap a)).
Proof.
  destruct a as [x| | |u|m]; cbn [py_neg vmap unit_neg multi_neg umap mmap uc uv un ue mc mv mtop mbot]; try reflexivity.
  - apply sim_ok. cbn [vmap]. qr. reflexivity.
  - unfold unit_neg, umap. cbn [nopp Qnum_inst Rnum uc uv un ue]. rewrite <- Q2R_opp, <- (Q2R_red (- uv u)). apply sim_mk.
  - unfold multi_neg. apply sim_ok. cbn [vmap]. unfold mmap. qr. reflexivity.
Qed.
Lemma sim_power a k : sim vmap (py_pow a k) (py_pow (vmap a) k).
Proof.
  destruct a as [x| | |u|m]; cbn [py_pow vmap umap mmap]; try reflexivity.
  - eapply (sim_rmap Q2R); [apply sim_pow|reflexivity].
  - unfold unit_pow. cbn [uc uv un ue]. apply (sim_bind Q2R vmap); [apply sim_pow|]. intro q. apply sim_mk.
  - unfold multi_pow. cbn [mc mv mtop mbot]. destruct (reduce_tail _ _ _ _) as [r|e]; cbn [bind]; [|apply sim_raise].
    apply (sim_bind Q2R vmap); [apply sim_pow|]. intro q. reflexivity.
Qed.

(** Formulas with rational constants. *)
Inductive fq :=
| QVar (i : nat) | QNum (r : Q)
| QMul (f g : fq) | QDiv (f g : fq) | QAdd (f g : fq) | QSub (f g : fq) | QNeg (f : fq)
| QPow (f : fq) (k : expo) | QLet (f g : fq).
Fixpoint to_fx (f : fq) : fx :=
  match f with
  | QVar i => FVar i | QNum r => FNum (Q2R r)
  | QMul f g => FMul (to_fx f) (to_fx g) | QDiv f g => FDiv (to_fx f) (to_fx g)
  | QAdd f g => FAdd (to_fx f) (to_fx g) | QSub f g => FSub (to_fx f) (to_fx g)
  | QNeg f => FNeg (to_fx f) | QPow f k => FPow (to_fx f) k
  | QLet f g => FLet (to_fx f) (to_fx g)
  end.
Fixpoint qrun (vs : list (pyval Q)) (f : fq) : res (pyval Q) :=
  match f with
  | QVar i => var vs i
  | QNum r => Ok (VNum r)
  | QMul f g => let* a := qrun vs f in let* b := qrun vs g in py_mul a b
  | QDiv f g => let* a := qrun vs f in let* b := qrun vs g in py_div a b
  | QAdd f g => let* a := qrun vs f in let* b := qrun vs g in py_add a b
  | QSub f g => let* a := qrun vs f in let* b := qrun vs g in py_sub a b
  | QNeg f => let* a := qrun vs f in py_neg a
  | QPow f k => let* a := qrun vs f in py_pow a k
  | QLet f g => let* v := qrun vs f in qrun (v :: vs) g
  end.
Lemma qrun_sound f : forall vs, sim vmap (qrun vs f) (run (map vmap vs) (to_fx f)).
Proof.
  induction f as [i|r|f IHf g IHg|f IHf g IHg|f IHf g IHg|f IHf g IHg|f IHf|f IHf k|f IHf g IHg]; intro vs; cbn [qrun run to_fx].
  - unfold var. rewrite nth_error_map. destruct (nth_error vs i); reflexivity.
  - reflexivity.
  - apply (sim_bind vmap vmap); [apply IHf|]. intro a. apply (sim_bind vmap vmap); [apply IHg|]. intro b. apply sim_mul.
  - apply (sim_bind vmap vmap); [apply IHf|]. intro a. apply (sim_bind vmap vmap); [apply IHg|]. intro b. apply sim_divide.
  - apply (sim_bind vmap vmap); [apply IHf|]. intro a. apply (sim_bind vmap vmap); [apply IHg|]. intro b. apply sim_add.
  - apply (sim_bind vmap vmap); [apply IHf|]. intro a. apply (sim_bind vmap vmap); [apply IHg|]. intro b. apply sim_sub.
  - apply (sim_bind vmap vmap); [apply IHf|]. intro a. apply sim_neg.
  - apply (sim_bind vmap vmap); [apply IHf|]. intro a. apply sim_power.
  - apply (sim_bind vmap vmap); [apply IHf|]. intro a. apply (IHg (a :: vs)).
Qed.
Lemma qrun_ok f vs r : qrun vs f = Ok r -> run (map vmap vs) (to_fx f) = Ok (vmap r).
Proof. intro h. pose proof (qrun_sound f vs) as s. rewrite h in s. exact s. Qed.

(** Constructor calls. *)
Definition qmulti (c : string) (x : Q) (s : string) : res (pyval Q) := rmap VMulti (mk_multi (MSub c) x s).
Definition qsimple (c : ucls) (x : Q) (s : string) : res (pyval Q) := rmap VUnit (mk_unit c x s (eint 1)).
Lemma multi_q c x q s v : x = Q2R q -> qmulti c q s = Ok v -> multi c x s = Ok (vmap v).
Proof.
  intros ->. unfold qmulti, multi, mk_multi. destruct (String.eqb s EmptyString).
  - intro h. injection h as <-. reflexivity.
  - destruct (parse_units s) as [p|]; cbn [bind rmap]; [|discriminate]. intro h. injection h as <-. reflexivity.
Qed.
Lemma simple_q c x q s v : x = Q2R q -> qsimple c q s = Ok v -> simple c x s = Ok (vmap v).
Proof. intros -> h. pose proof (sim_mk c q s (eint 1)) as e. unfold vunit, qsimple, simple in *. rewrite h in e. exact e. Qed.
Ltac q2 := unfold Q2R; cbn; field.
