(** * ConductionFacts: heat conduction and diffusion formulas *)
From Coq Require Import String Ascii List ZArith QArith Qcanon Bool Reals Qreals Lia Lra.
From Verif Require Import Py Num UnitsData UnitsStruct Units NumFacts Spec SpecFacts StructFacts
  OpFacts NamesFacts ClosureFacts FactorFacts LawFacts WitnessFacts OpPropFacts Solve Formulas FormulaSpec SemFacts SymFacts SweepFacts SimFacts.
Import ListNotations.
Local Open Scope string_scope.
Local Open Scope list_scope.
Local Open Scope R_scope.

Lemma run_value f vs r : run vs f = Ok r -> Forall plain_val vs -> def (map value vs) f ->
  value r = num (map value vs) f /\ plain_val r /\ srun (map erase vs) f = Ok (erase r).
Proof. intros h3 h1 h2. pose proof (run_sound f vs h1 h2) as h. rewrite h3 in h. destruct h as [a [b c]]. auto. Qed.
Lemma run_same f vs vs' r : Forall plain_val vs -> Forall plain_val vs' -> map erase vs = map erase vs' ->
  def (map value vs) f -> def (map value vs') f -> run vs f = Ok r ->
  exists r', run vs' f = Ok r' /\ value r' = num (map value vs') f /\ same_unit r r'.
Proof.
  intros h1 h1' he h2 h2' h3. destruct (run_value f vs r h3 h1 h2) as [_ [p1 e1]].
  pose proof (run_sound f vs' h1' h2') as h. rewrite <- he, e1 in h. destruct (run vs' f) as [r'|e]; [|discriminate].
  destruct h as [e [vv p2]]. exists r'. split; [reflexivity|]. split; [exact vv|]. apply same_erase; [assumption|assumption|congruence].
Qed.

(** ** planar_heat, planar_flux *)
Definition ph_q := FMul (FMul (FNeg (FVar 0)) (FVar 3)) (FDiv (FSub (FVar 2) (FVar 1)) (FVar 4)).
Definition ph_t2 := FAdd (FDiv (FMul (FVar 5) (FVar 0)) (FMul (FNeg (FVar 1)) (FVar 4))) (FVar 2).
Definition ph_t1 := FAdd (FNeg (FDiv (FMul (FVar 5) (FVar 0)) (FMul (FNeg (FVar 1)) (FVar 4)))) (FVar 3).
Definition ph_d := FDiv (FMul (FMul (FNeg (FVar 1)) (FVar 4)) (FSub (FVar 3) (FVar 2))) (FVar 0).
Lemma ph_q_run k T1 T2 A d : planar_heat [AVal k; AVal T1; AVal T2; AVal A; AVal d] [] = run [k; T1; T2; A; d] ph_q.
Proof. reflexivity. Qed.
Lemma ph_t2_run q k T1 T2 A d : planar_heat [AVal k; AVal T1; ANone; AVal A; AVal d; AVal q] [] = run [q; k; T1; T2; A; d] ph_t2.
Proof. reflexivity. Qed.
Lemma ph_t1_run q k T1 T2 A d : planar_heat [AVal k; ANone; AVal T2; AVal A; AVal d; AVal q] [] = run [q; k; T1; T2; A; d] ph_t1.
Proof. reflexivity. Qed.
Lemma ph_d_run q k T1 T2 A d : planar_heat [AVal k; AVal T1; AVal T2; AVal A; ANone; AVal q] [] = run [q; k; T1; T2; A; d] ph_d.
Proof. reflexivity. Qed.
Definition pf_q := FMul (FNeg (FVar 0)) (FDiv (FSub (FVar 2) (FVar 1)) (FVar 3)).
Definition pf_t2 := FAdd (FDiv (FMul (FVar 4) (FVar 0)) (FNeg (FVar 1))) (FVar 2).
Definition pf_t1 := FAdd (FNeg (FDiv (FMul (FVar 4) (FVar 0)) (FNeg (FVar 1)))) (FVar 3).
Definition pf_d := FDiv (FMul (FNeg (FVar 1)) (FSub (FVar 3) (FVar 2))) (FVar 0).
Lemma pf_q_run k T1 T2 d : planar_flux [AVal k; AVal T1; AVal T2; AVal d] [] = run [k; T1; T2; d] pf_q.
Proof. reflexivity. Qed.
Lemma pf_t2_run q k T1 T2 d : planar_flux [AVal k; AVal T1; ANone; AVal d; AVal q] [] = run [q; k; T1; T2; d] pf_t2.
Proof. reflexivity. Qed.
Lemma pf_t1_run q k T1 T2 d : planar_flux [AVal k; ANone; AVal T2; AVal d; AVal q] [] = run [q; k; T1; T2; d] pf_t1.
Proof. reflexivity. Qed.
Lemma pf_d_run q k T1 T2 d : planar_flux [AVal k; AVal T1; AVal T2; ANone; AVal q] [] = run [q; k; T1; T2; d] pf_d.
Proof. reflexivity. Qed.

Ltac alls := repeat (apply Forall_cons; [assumption|]); apply Forall_nil.
Ltac nz := repeat match goal with
  | |- _ /\ _ => split
  | |- True => exact I
  | |- - _ <> 0 => apply Ropp_neq_0_compat
  | |- _ * _ <> 0 => apply Rmult_integral_contrapositive_currified
  | |- _ <> 0 => assumption
  end.

(** The sum in the last step has the unit of the temperature given. *)
Lemma add_shape_sub x y r : plain_val x -> plain_val y -> kind x = kind y -> py_sub x y = Ok r -> shape x = shape y.
Proof.
  intros hx hy hk h. destruct (is_of x hx) as [f hf]. destruct (is_of y hy) as [g hg].
  destruct (is_sub x y f g r hf hg hk h) as [_ [_ [_ e]]]. exact e.
Qed.
Lemma add_shape a b r : plain_val a -> plain_val b -> py_add a b = Ok r -> kind b = KUnit \/ kind b = KMulti \/ kind b = KNum -> kind b <> KNum \/ kind a = KNum -> shape r = shape b.
Proof.
  intros ha hb h hk hn. destruct (is_of a ha) as [f hf]. destruct (is_of b hb) as [g hg].
  assert (e : kind a = kind b).
  { destruct a as [x| | |u|m]; destruct b as [y| | |u'|m']; cbn [plain_val kind py_add unit_addsub multi_add] in *; try contradiction; try reflexivity; try discriminate;
      destruct hn as [hn|hn]; try discriminate hn; contradiction hn; reflexivity. }
  destruct (is_add a b f g r hf hg e h) as [_ [_ [e1 e2]]]. congruence.
Qed.

Lemma plain_kind v : plain_val v -> kind v = KUnit \/ kind v = KMulti \/ kind v = KNum.
Proof. destruct v; cbn; tauto. Qed.
Lemma ph_back k T1 T2 A d q : plain_val k -> plain_val T1 -> plain_val T2 -> plain_val A -> plain_val d ->
  value k <> 0 -> value A <> 0 -> value d <> 0 -> kind T1 = kind T2 -> kind T1 <> KNum ->
  planar_heat [AVal k; AVal T1; AVal T2; AVal A; AVal d] [] = Ok q ->
  value q = - (value k * value A * (value T2 - value T1) / value d) /\
  (forall r, planar_heat [AVal k; AVal T1; ANone; AVal A; AVal d; AVal q] [] = Ok r -> value r = value T2 /\ shape r = shape T2) /\
  (forall r, planar_heat [AVal k; ANone; AVal T2; AVal A; AVal d; AVal q] [] = Ok r -> value r = value T1 /\ shape r = shape T1) /\
  (forall r, planar_heat [AVal k; AVal T1; AVal T2; AVal A; ANone; AVal q] [] = Ok r -> value T1 <> value T2 -> value r = value d).
Proof.
  intros pk p1 p2 pA pd nk nA nd hk hn h. rewrite ph_q_run in h.
  assert (hs : shape T2 = shape T1).
  { cbn [run ph_q var nth_error] in h. unfold omul, odiv, osub, oneg in h. cbn [bind] in h.
    apply bind_ok in h. destruct h as [x [_ h]]. apply bind_ok in h. destruct h as [y [hy _]]. apply bind_ok in hy. destruct hy as [z [hz _]].
    eapply add_shape_sub; [exact p2|exact p1|symmetry; exact hk|exact hz]. }
  destruct (run_value ph_q _ q h ltac:(alls) ltac:(cbn; nz)) as [vq [pq _]]. cbn in vq.
  assert (vq' : value q = - (value k * value A * (value T2 - value T1) / value d)) by (rewrite vq; unfold Rdiv; ring).
  split; [exact vq'|]. split; [|split].
  - intros r hr. rewrite (ph_t2_run q k T1 T2 A d) in hr.
    destruct (run_value ph_t2 _ r hr ltac:(alls) ltac:(cbn; nz)) as [vr [pr _]]. split.
    + rewrite vr. cbn. rewrite vq'. field. auto.
    + rewrite hs. cbn [run ph_t2 var nth_error] in hr. unfold oadd, odiv, omul, oneg in hr. cbn [bind] in hr.
      apply bind_ok in hr. destruct hr as [x [hx hr]]. eapply add_shape; [|exact p1|exact hr|apply plain_kind; exact p1|left; exact hn].
      apply bind_ok in hx. destruct hx as [y [hy hx]]. apply bind_ok in hx. destruct hx as [z [hz hx]].
      apply bind_ok in hz. destruct hz as [nk' [hnk hz]].
      eapply plain_div; [|eapply plain_mul; [eapply plain_neg; [exact pk|exact hnk]|exact pA|exact hz]|exact hx]. eapply plain_mul; [exact pd|exact pq|exact hy].
  - intros r hr. rewrite (ph_t1_run q k T1 T2 A d) in hr.
    destruct (run_value ph_t1 _ r hr ltac:(alls) ltac:(cbn; nz)) as [vr [pr _]]. split.
    + rewrite vr. cbn. rewrite vq'. field. auto.
    + rewrite <- hs. cbn [run ph_t1 var nth_error] in hr. unfold oadd, odiv, omul, oneg in hr. cbn [bind] in hr.
      apply bind_ok in hr. destruct hr as [x0 [hx0 hr]]. eapply add_shape; [|exact p2|exact hr|apply plain_kind; exact p2|left; congruence].
      apply bind_ok in hx0. destruct hx0 as [x [hx hx0]].
      eapply plain_neg; [|exact hx0].
      apply bind_ok in hx. destruct hx as [y [hy hx]]. apply bind_ok in hx. destruct hx as [z [hz hx]].
      apply bind_ok in hz. destruct hz as [nk' [hnk hz]].
      eapply plain_div; [|eapply plain_mul; [eapply plain_neg; [exact pk|exact hnk]|exact pA|exact hz]|exact hx]. eapply plain_mul; [exact pd|exact pq|exact hy].
  - intros r hr ht. rewrite (ph_d_run q k T1 T2 A d) in hr.
    assert (nq : value q <> 0).
    { rewrite vq'. apply Ropp_neq_0_compat. unfold Rdiv. nz; [intro e; apply ht; lra|apply Rinv_neq_0_compat; exact nd]. }
    destruct (run_value ph_d _ r hr ltac:(alls) ltac:(cbn; nz)) as [vr _]. rewrite vr. cbn. rewrite vq'. field. repeat split; try assumption. intro e. apply ht. lra.
Qed.
Lemma pf_back k T1 T2 d q : plain_val k -> plain_val T1 -> plain_val T2 -> plain_val d ->
  value k <> 0 -> value d <> 0 -> kind T1 = kind T2 -> kind T1 <> KNum ->
  planar_flux [AVal k; AVal T1; AVal T2; AVal d] [] = Ok q ->
  value q = - (value k * (value T2 - value T1) / value d) /\
  (forall r, planar_flux [AVal k; AVal T1; ANone; AVal d; AVal q] [] = Ok r -> value r = value T2 /\ shape r = shape T2) /\
  (forall r, planar_flux [AVal k; ANone; AVal T2; AVal d; AVal q] [] = Ok r -> value r = value T1 /\ shape r = shape T1) /\
  (forall r, planar_flux [AVal k; AVal T1; AVal T2; ANone; AVal q] [] = Ok r -> value T1 <> value T2 -> value r = value d).
Proof.
  intros pk p1 p2 pd nk nd hk hn h. rewrite pf_q_run in h.
  assert (hs : shape T2 = shape T1).
  { cbn [run pf_q var nth_error] in h. unfold omul, odiv, osub, oneg in h. cbn [bind] in h.
    apply bind_ok in h. destruct h as [x [_ h]]. apply bind_ok in h. destruct h as [y [hy _]]. apply bind_ok in hy. destruct hy as [z [hz _]].
    eapply add_shape_sub; [exact p2|exact p1|symmetry; exact hk|exact hz]. }
  destruct (run_value pf_q _ q h ltac:(alls) ltac:(cbn; nz)) as [vq [pq _]]. cbn in vq.
  assert (vq' : value q = - (value k * (value T2 - value T1) / value d)) by (rewrite vq; unfold Rdiv; ring).
  split; [exact vq'|]. split; [|split].
  - intros r hr. rewrite (pf_t2_run q k T1 T2 d) in hr.
    destruct (run_value pf_t2 _ r hr ltac:(alls) ltac:(cbn; nz)) as [vr [pr _]]. split.
    + rewrite vr. cbn. rewrite vq'. field. auto.
    + rewrite hs. cbn [run pf_t2 var nth_error] in hr. unfold oadd, odiv, omul, oneg in hr. cbn [bind] in hr.
      apply bind_ok in hr. destruct hr as [x [hx hr]]. eapply add_shape; [|exact p1|exact hr|apply plain_kind; exact p1|left; exact hn].
      apply bind_ok in hx. destruct hx as [y [hy hx]]. apply bind_ok in hx. destruct hx as [z [hz hx]].
      eapply plain_div; [|eapply plain_neg; [exact pk|exact hz]|exact hx]. eapply plain_mul; [exact pd|exact pq|exact hy].
  - intros r hr. rewrite (pf_t1_run q k T1 T2 d) in hr.
    destruct (run_value pf_t1 _ r hr ltac:(alls) ltac:(cbn; nz)) as [vr [pr _]]. split.
    + rewrite vr. cbn. rewrite vq'. field. auto.
    + rewrite <- hs. cbn [run pf_t1 var nth_error] in hr. unfold oadd, odiv, omul, oneg in hr. cbn [bind] in hr.
      apply bind_ok in hr. destruct hr as [x0 [hx0 hr]]. eapply add_shape; [|exact p2|exact hr|apply plain_kind; exact p2|left; congruence].
      apply bind_ok in hx0. destruct hx0 as [x [hx hx0]]. eapply plain_neg; [|exact hx0].
      apply bind_ok in hx. destruct hx as [y [hy hx]]. apply bind_ok in hx. destruct hx as [z [hz hx]].
      eapply plain_div; [|eapply plain_neg; [exact pk|exact hz]|exact hx]. eapply plain_mul; [exact pd|exact pq|exact hy].
  - intros r hr ht. rewrite (pf_d_run q k T1 T2 d) in hr.
    assert (nq : value q <> 0).
    { rewrite vq'. apply Ropp_neq_0_compat. unfold Rdiv. nz; [intro e; apply ht; lra|apply Rinv_neq_0_compat; exact nd]. }
    destruct (run_value pf_d _ r hr ltac:(alls) ltac:(cbn; nz)) as [vr _]. rewrite vr. cbn. rewrite vq'. field. repeat split; try assumption. intro e. apply ht. lra.
Qed.

(** In consistent units everything is defined. *)
Definition ph_args (p l th : string) : list (res sval) :=
  [smulti "ThermalConductivity" (p +++ l +++ "*" +++ th); ssimple Temperature th; ssimple Temperature th; ssimple Area (l +++ "^2"); ssimple Length l].
Definition ph_sys p l th : bool :=
  sys_ok (ph_args p l th) (FLet ph_q ph_t2) (is_unit th) && sys_ok (ph_args p l th) (FLet ph_q ph_t1) (is_unit th) &&
  sys_ok (ph_args p l th) (FLet ph_q ph_d) (is_unit l).
Lemma ph_sweep : forallb (fun x => forallb (fun y => forallb (ph_sys x y) temperatures) lengths) powers = true.
Proof. vm_compute. reflexivity. Qed.
Definition pf_args (p l th : string) : list (res sval) :=
  [smulti "ThermalConductivity" (p +++ l +++ "*" +++ th); ssimple Temperature th; ssimple Temperature th; ssimple Length l].
Definition pf_sys p l th : bool :=
  sys_ok (pf_args p l th) (FLet pf_q pf_t2) (is_unit th) && sys_ok (pf_args p l th) (FLet pf_q pf_t1) (is_unit th) &&
  sys_ok (pf_args p l th) (FLet pf_q pf_d) (is_unit l).
Lemma pf_sweep : forallb (fun x => forallb (fun y => forallb (pf_sys x y) temperatures) lengths) powers = true.
Proof. vm_compute. reflexivity. Qed.

Lemma ph_units p l th (k T1 T2 A d : R) vk v1 v2 vA vd : In p powers -> In l lengths -> In th temperatures ->
  multi "ThermalConductivity" k (p +++ l +++ "*" +++ th) = Ok vk -> simple Temperature T1 th = Ok v1 -> simple Temperature T2 th = Ok v2 ->
  simple Area A (l +++ "^2") = Ok vA -> simple Length d l = Ok vd -> k <> 0 -> A <> 0 -> d <> 0 ->
  exists q r1 r2, planar_heat [AVal vk; AVal v1; AVal v2; AVal vA; AVal vd] [] = Ok q /\ value q = - (k * A * (T2 - T1) / d) /\
    planar_heat [AVal vk; ANone; AVal v2; AVal vA; AVal vd; AVal q] [] = Ok (VUnit r1) /\ uv r1 = T1 /\ un r1 = th /\ ev (ue r1) = qc 1 /\
    planar_heat [AVal vk; AVal v1; ANone; AVal vA; AVal vd; AVal q] [] = Ok (VUnit r2) /\ uv r2 = T2 /\ un r2 = th /\ ev (ue r2) = qc 1 /\
    (T1 <> T2 -> exists r, planar_heat [AVal vk; AVal v1; AVal v2; AVal vA; ANone; AVal q] [] = Ok (VUnit r) /\ uv r = d /\ un r = l /\ ev (ue r) = qc 1).
Proof.
  intros ip il it hk h1 h2 hA hd nk nA nd. pose proof (sweep3 _ _ _ _ _ _ _ ph_sweep ip il it) as hs. unfold ph_sys in hs.
  apply andb_true_iff in hs. destruct hs as [hs s3]. apply andb_true_iff in hs. destruct hs as [s1 s2].
  assert (hm : makes_all (ph_args p l th) [vk; v1; v2; vA; vd] [k; T1; T2; A; d]) by make.
  destruct (sys_sound _ _ _ _ _ hm s1 ltac:(cbn; nz)) as [b [e1 [u1 [x1 _]]]].
  destruct (sys_sound _ _ _ _ _ hm s2 ltac:(cbn; nz)) as [a [e2 [u2 [x2 _]]]].
  cbn [run] in e1, e2. apply bind_ok in e1. destruct e1 as [q [eq e1]]. cbn [run] in eq. rewrite eq in e2. cbn [bind] in e2.
  assert (pp : Forall plain_val [vk; v1; v2; vA; vd]).
  { destruct (makes_all_seq _ _ _ hm) as [q1 [q2 q3]]. apply q3. unfold sys_ok in s1. rewrite q1 in s1. apply andb_true_iff in s1. tauto. }
  destruct (makes_all_seq _ _ _ hm) as [_ [ex _]].
  assert (vq : value q = num [k; T1; T2; A; d] ph_q).
  { rewrite ex. apply (run_value ph_q [vk; v1; v2; vA; vd] q eq pp); rewrite <- ex; cbn; nz. }
  destruct (is_unit_ok _ _ u1) as [r2 [-> [n2 f2]]]. destruct (is_unit_ok _ _ u2) as [r1 [-> [n1 f1]]].
  exists q, r1, r2. rewrite ph_q_run, (ph_t1_run q vk v1), (ph_t2_run q vk v1 v2).
  split; [exact eq|]. split; [rewrite vq; cbn; unfold Rdiv; ring|]. split; [exact e2|]. split; [rewrite x2 at 1; cbn; field; auto|]. split; [exact n1|]. split; [exact f1|].
  split; [exact e1|]. split; [rewrite x1 at 1; cbn; field; auto|]. split; [exact n2|]. split; [exact f2|].
  intro ht. destruct (sys_sound _ _ _ _ _ hm s3) as [c [e3 [u3 [x3 _]]]].
  { cbn. nz. unfold Rdiv. nz; [intro e; apply ht; lra|apply Rinv_neq_0_compat; exact nd]. }
  cbn [run] in e3. rewrite eq in e3. cbn [bind] in e3. destruct (is_unit_ok _ _ u3) as [r [-> [n3 f3]]]. exists r. rewrite (ph_d_run q vk v1 v2 vA vd).
  split; [exact e3|]. split; [|auto]. cbn [value] in x3. rewrite x3. cbn. field. repeat split; try assumption. intro e. apply ht. lra.
Qed.
Lemma pf_units p l th (k T1 T2 d : R) vk v1 v2 vd : In p powers -> In l lengths -> In th temperatures ->
  multi "ThermalConductivity" k (p +++ l +++ "*" +++ th) = Ok vk -> simple Temperature T1 th = Ok v1 -> simple Temperature T2 th = Ok v2 ->
  simple Length d l = Ok vd -> k <> 0 -> d <> 0 ->
  exists q r1 r2, planar_flux [AVal vk; AVal v1; AVal v2; AVal vd] [] = Ok q /\ value q = - (k * (T2 - T1) / d) /\
    planar_flux [AVal vk; ANone; AVal v2; AVal vd; AVal q] [] = Ok (VUnit r1) /\ uv r1 = T1 /\ un r1 = th /\ ev (ue r1) = qc 1 /\
    planar_flux [AVal vk; AVal v1; ANone; AVal vd; AVal q] [] = Ok (VUnit r2) /\ uv r2 = T2 /\ un r2 = th /\ ev (ue r2) = qc 1 /\
    (T1 <> T2 -> exists r, planar_flux [AVal vk; AVal v1; AVal v2; ANone; AVal q] [] = Ok (VUnit r) /\ uv r = d /\ un r = l /\ ev (ue r) = qc 1).
Proof.
  intros ip il it hk h1 h2 hd nk nd. pose proof (sweep3 _ _ _ _ _ _ _ pf_sweep ip il it) as hs. unfold pf_sys in hs.
  apply andb_true_iff in hs. destruct hs as [hs s3]. apply andb_true_iff in hs. destruct hs as [s1 s2].
  assert (hm : makes_all (pf_args p l th) [vk; v1; v2; vd] [k; T1; T2; d]) by make.
  destruct (sys_sound _ _ _ _ _ hm s1 ltac:(cbn; nz)) as [b [e1 [u1 [x1 _]]]].
  destruct (sys_sound _ _ _ _ _ hm s2 ltac:(cbn; nz)) as [a [e2 [u2 [x2 _]]]].
  cbn [run] in e1, e2. apply bind_ok in e1. destruct e1 as [q [eq e1]]. cbn [run] in eq. rewrite eq in e2. cbn [bind] in e2.
  assert (pp : Forall plain_val [vk; v1; v2; vd]).
  { destruct (makes_all_seq _ _ _ hm) as [q1 [q2 q3]]. apply q3. unfold sys_ok in s1. rewrite q1 in s1. apply andb_true_iff in s1. tauto. }
  destruct (makes_all_seq _ _ _ hm) as [_ [ex _]].
  assert (vq : value q = num [k; T1; T2; d] pf_q).
  { rewrite ex. apply (run_value pf_q [vk; v1; v2; vd] q eq pp); rewrite <- ex; cbn; nz. }
  destruct (is_unit_ok _ _ u1) as [r2 [-> [n2 f2]]]. destruct (is_unit_ok _ _ u2) as [r1 [-> [n1 f1]]].
  exists q, r1, r2. rewrite pf_q_run, (pf_t1_run q vk v1), (pf_t2_run q vk v1 v2).
  split; [exact eq|]. split; [rewrite vq; cbn; unfold Rdiv; ring|]. split; [exact e2|]. split; [rewrite x2 at 1; cbn; field; auto|]. split; [exact n1|]. split; [exact f1|].
  split; [exact e1|]. split; [rewrite x1 at 1; cbn; field; auto|]. split; [exact n2|]. split; [exact f2|].
  intro ht. destruct (sys_sound _ _ _ _ _ hm s3) as [c [e3 [u3 [x3 _]]]].
  { cbn. nz. unfold Rdiv. nz; [intro e; apply ht; lra|apply Rinv_neq_0_compat; exact nd]. }
  cbn [run] in e3. rewrite eq in e3. cbn [bind] in e3. destruct (is_unit_ok _ _ u3) as [r [-> [n3 f3]]]. exists r. rewrite (pf_d_run q vk v1 v2 vd).
  split; [exact e3|]. split; [|auto]. cbn [value] in x3. rewrite x3. cbn. field. repeat split; try assumption. intro e. apply ht. lra.
Qed.

(** A length in cm: the factor 1/100 is lost when the thickness is multiplied by
    the heat flow (Unit * MultiUnit). *)
Definition q_ph_q := QMul (QMul (QNeg (QVar 0)) (QVar 3)) (QDiv (QSub (QVar 2) (QVar 1)) (QVar 4)).
Definition q_ph_t2 := QAdd (QDiv (QMul (QVar 5) (QVar 0)) (QMul (QNeg (QVar 1)) (QVar 4))) (QVar 2).
Definition unok {A} (d : A) (r : res A) : A := match r with Ok x => x | Raise _ => d end.
Definition cm_args : list (pyval Q) := Eval vm_compute in
  map (unok VNone) [qmulti "ThermalConductivity" 1 "W/m*K"; qsimple Temperature 300 "K"; qsimple Temperature 310 "K"; qsimple Area 1 "m^2"; qsimple Length 100 "cm"].
Lemma ph_prefix : exists vk v1 v2 vA vd q r,
  multi "ThermalConductivity" 1 "W/m*K" = Ok vk /\ simple Temperature 300 "K" = Ok v1 /\ simple Temperature 310 "K" = Ok v2 /\
  simple Area 1 "m^2" = Ok vA /\ simple Length 100 "cm" = Ok vd /\
  planar_heat [AVal vk; AVal v1; AVal v2; AVal vA; AVal vd] [] = Ok q /\
  planar_heat [AVal vk; AVal v1; ANone; AVal vA; AVal vd; AVal q] [] = Ok (VUnit r) /\ un r = "K" /\ uv r = 1300.
Proof.
  set (a i := vmap (nth i cm_args VNone)).
  set (q := unok VNone (qrun cm_args q_ph_q)).
  assert (eq : qrun cm_args q_ph_q = Ok q) by (vm_compute; reflexivity).
  assert (er : exists r, qrun (q :: cm_args) q_ph_t2 = Ok (VUnit r) /\ un r = "K" /\ uv r = 1300%Q) by (vm_compute; eexists; split; [reflexivity|split; reflexivity]).
  destruct er as [r [er [nr vr]]].
  exists (a 0%nat), (a 1%nat), (a 2%nat), (a 3%nat), (a 4%nat), (vmap q), (umap r).
  split; [apply (multi_q _ _ 1); [q2|vm_compute; reflexivity]|]. split; [apply (simple_q _ _ 300); [q2|vm_compute; reflexivity]|].
  split; [apply (simple_q _ _ 310); [q2|vm_compute; reflexivity]|]. split; [apply (simple_q _ _ 1); [q2|vm_compute; reflexivity]|].
  split; [apply (simple_q _ _ 100); [q2|vm_compute; reflexivity]|].
  rewrite ph_q_run, (ph_t2_run _ _ _ (a 2%nat)). split; [exact (qrun_ok _ _ _ eq)|]. split; [exact (qrun_ok _ _ _ er)|]. split; [exact nr|].
  cbn [umap uv]. rewrite vr. q2.
Qed.
