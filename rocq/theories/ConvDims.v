(** * ConvDims: a conversion that succeeds keeps the physical dimension *)
From Coq Require Import String Ascii List ZArith QArith Qcanon Bool Reals Qreals Lia Lra.
From Verif Require Import Py Num UnitsData UnitsStruct Units NumFacts Spec SpecFacts StructFacts CombineFacts CancelFacts
  ExpandFacts PrefixFacts SimplifyFacts OpFacts NamesFacts ClosureFacts FactorFacts LawFacts WitnessFacts ConvSpec ConvFacts ConvLaws.
Import ListNotations.
Local Open Scope string_scope.
Local Open Scope list_scope.
Local Open Scope R_scope.

Definition all_bases : list base := [DMass; DLength; DTime; DTemp; DCurrent; DAmount].
(** The three names that are torn apart by prefix removal keep their dimension here. *)
Definition xdim (n : string) (b : base) : Z :=
  if String.eqb n "ile" then udim "mile" b else if String.eqb n "ay" then udim "day" b
  else if String.eqb n "mHg" then udim "mmHg" b else udim n b.
Definition phi (b : base) (n : string) : R := IZR (xdim n b).

Lemma split_dims_check : forallb (fun en => match split_prefix (BU (fst en) (eint 1)) with
    | Ok (_, y) => forallb (fun b => Z.eqb (xdim (bname y) b) (udim (fst en) b)) all_bases
        && (unprefixed_b (bname y) || match dict_get UNIT_REGISTRY (bname y) with None => true | Some _ => false end)
    | Raise _ => false end) dim_table = true.
Proof. vm_compute. reflexivity. Qed.
Definition plain_name (n : string) : Prop := unprefixed n \/ dict_get UNIT_REGISTRY n = None.
Lemma split_dims x p y : known_name (bname x) -> split_prefix x = Ok (p, y) ->
  bexp y = bexp x /\ (forall b, phi b (bname y) = IZR (udim (bname x) b)) /\ plain_name (bname y).
Proof.
  intros hk h. split; [exact (proj1 (split_strips _ _ _ h))|].
  destruct x as [n e]. cbn [bname] in *. unfold known_name in hk. destruct (dict_get dim_table n) as [d|] eqn:hd; [|congruence].
  apply dict_get_in in hd. pose proof split_dims_check as hc. rewrite forallb_forall in hc. specialize (hc _ hd). cbn [fst] in hc.
  assert (hs : exists p', split_prefix (BU n (eint 1)) = Ok (p', BU (bname y) (eint 1))).
  { revert h. unfold split_prefix. cbn [bname bexp]. destruct (String.eqb n "kg").
    - intro h. injection h as <- <-. eexists. reflexivity.
    - destruct (get_prefix n) as [[p' r]|]; [|discriminate]. cbn [bind fst snd]. intro h. injection h as <- <-. eexists. reflexivity. }
  destruct hs as [p' hs]. rewrite hs in hc. apply andb_true_iff in hc. destruct hc as [c1 c2]. cbn [bname] in c1, c2.
  rewrite forallb_forall in c1. split.
  - intro b. unfold phi. f_equal. apply Z.eqb_eq, c1. destruct b; cbn; tauto.
  - apply orb_true_iff in c2. destruct c2 as [c2|c2]; [left; apply unprefixed_b_ok; exact c2|right].
    destruct (dict_get UNIT_REGISTRY (bname y)); [discriminate|reflexivity].
Qed.
Lemma strip_dims l ps : (forall x, In x l -> known_name (bname x)) -> mapM split_prefix l = Ok ps ->
  (forall b, lin (phi b) (map snd ps) = QcR (hdim l b)) /\ (forall y, In y (map snd ps) -> plain_name (bname y)).
Proof.
  revert ps. induction l as [|x l IH]; intros ps hk h; cbn in h.
  - injection h as <-. cbn. split; [intro b; rewrite QcR_qc; reflexivity|intros y []].
  - destruct (split_prefix x) as [[p y]|] eqn:e; cbn [bind] in h; [|discriminate].
    destruct (mapM split_prefix l) as [ps'|] eqn:e'; cbn [bind] in h; [|discriminate].
    injection h as <-. destruct (split_dims x p y (hk x (or_introl eq_refl)) e) as [h1 [h2 h3]].
    destruct (IH ps') as [h4 h5]; [intros z hz; apply hk; right; exact hz|reflexivity|].
    cbn [map snd lin hdim fold_right]. split.
    + intro b. fold (hdim l b). rewrite QcR_plus, QcR_mult, QcR_qc, h4, h1, h2. reflexivity.
    + intros z [<-|hz]; [exact h3|apply h5; exact hz].
Qed.

Lemma phi_compat b : compat (phi b).
Proof.
  intros n p. unfold defn.
  assert (E1 : QcR (ev f1) = 1) by apply QcR_qc.
  assert (E2 : QcR (ev f2) = 2) by apply QcR_qc.
  assert (E3 : QcR (ev f3) = 3) by apply QcR_qc.
  repeat match goal with
  | |- context [String.eqb n ?s] =>
      let E := fresh "E" in destruct (String.eqb n s) eqn:E; [apply String.eqb_eq in E; subst n; intro h; injection h as <-;
        cbn [lin fst snd bname bexp]; rewrite ?E1, ?E2, ?E3; destruct b;
        unfold phi;
        repeat match goal with |- context [xdim ?a ?b] => let z := eval vm_compute in (xdim a b) in change (xdim a b) with z end; lra|]
  | _ => discriminate
  end.
Qed.

(** ** One unit *)
Lemma step_dim n e c u u' b : unprefixed n ->
  get_unit_class n = Ok c -> mk_unit c (1 : R) n e = Ok u -> convert_and_get_factor tables0 u = Ok u' ->
  QcR (ev e) * phi b n = QcR (ev (ue u')) * phi b (un u') /\ In (un u') ("C" :: stage_names).
Proof.
  intros hu hc hm h. unfold get_unit_class in hc. destruct (dict_get UNIT_REGISTRY n) as [c'|] eqn:hr; [|discriminate].
  injection hc as ->. pose proof (reg_reach n c hu hr) as hn. cbn in hn.
  Local Ltac ph := unfold phi; repeat match goal with |- context [xdim ?a ?b] => let z := eval vm_compute in (xdim a b) in change (xdim a b) with z end.
  Local Ltac dstep q b hm h :=
    injection hm as <-;
    match type of h with convert_and_get_factor _ (UO ?c _ ?n ?e) = Ok ?u' =>
      let s := eval compute in (match standard c with Some s => s | None => EmptyString end) in
      destruct (table_step c n s q e u') as [e' [-> he]];
      [q2r; lra|reflexivity|reflexivity|reflexivity|reflexivity|reflexivity|reflexivity
      |eexists; split; [reflexivity|]; cbv [times over nmul ndiv nq Rnum]; f_equal; q2r; field
      |intros; reflexivity|exact h|
       cbn [un ue uv]; split; [rewrite he; destruct b; ph; reflexivity|cbn; tauto]]
    end.
  Local Ltac dsame hm h :=
    injection hm as <-;
    match type of h with convert_and_get_factor _ (UO ?c _ ?s ?e) = Ok ?u' =>
      rewrite (same_step c s e u' eq_refl eq_refl eq_refl eq_refl eq_refl h); cbn [un ue uv]; split; [reflexivity|cbn; tauto]
    end.
  Local Ltac dkeep hm h := injection hm as <-; injection h as <-; cbn [un ue]; split; [reflexivity|cbn; tauto].
  Local Ltac caret_step' hm h :=
    exfalso; cbn [mk_unit] in hm; unfold split_caret in hm; match type of hm with (if ?b then _ else _) = _ => change b with true in hm end; cbn iota in hm;
    match type of hm with context [split_on "^" ?s] => let r := eval compute in (split_on "^" s) in change (split_on "^" s) with r in hm end;
    cbn iota in hm; rewrite ?py_float_2, ?py_float_3 in hm; cbn [bind] in hm; injection hm as <-; vm_compute in h; discriminate.
  repeat (destruct hn as [<-|hn]; [vm_compute in hr; injection hr as <-|]).
  39: destruct hn.
  - dkeep hm h.
  - dkeep hm h.
  - dkeep hm h.
  - dkeep hm h.
  - dsame hm h.
  - dstep (Q2R (3048 # 10000)) b hm h.
  - dstep (Q2R (254 # 10000)) b hm h.
  - dstep (Q2R (9144 # 10000)) b hm h.
  - dstep (/ 1000000) b hm h.
  - dsame hm h.
  - dsame hm h.
  - dstep 60 b hm h.
  - dstep 3600 b hm h.
  - dstep (/ 1000) b hm h.
  - dsame hm h.
  - dstep (Q2R (453592 # 1000000)) b hm h.
  - dstep (/ 1000000000) b hm h.
  - dsame hm h.
  - dstep (/ 1000000) b hm h.
  - dstep (Q2R (1055056 # 1000)) b hm h.
  - dstep (Q2R (689476 # 100)) b hm h.
  - dsame hm h.
  - dstep (/ 1000000) b hm h.
  - dstep 101325 b hm h.
  - dstep 100000 b hm h.
  - dsame hm h.
  - dstep (/ 1000000) b hm h.
  - dstep (Q2R (444822 # 100000)) b hm h.
  - injection hm as <-. apply step_L in h. destruct h as [e1 ->]. cbn [un ue ev eflt]. rewrite e1, QcR_qc. split; [destruct b; ph; lra|cbn; tauto].
  - injection hm as <-. destruct (step_uL e u' h).
  - injection hm as <-. apply step_acre in h. destruct h as [e1 ->]. cbn [un ue ev eflt]. rewrite e1, QcR_qc. split; [destruct b; ph; lra|cbn; tauto].
  - dsame hm h.
  - caret_step' hm h.
  - caret_step' hm h.
  - caret_step' hm h.
  - caret_step' hm h.
  - caret_step' hm h.
  - caret_step' hm h.
Qed.

Definition plain_half (l : half) : Prop := forall x, In x l -> plain_name (bname x).
Lemma loop_dim inv l us (f : R) us' f' : plain_half l -> Forall2 named_by l us ->
  factor_loop tables0 inv us f = Ok (us', f') ->
  (forall b, lin (phi b) l = lin (phi b) (as_bu us')) /\ allb (fun x => In (bname x) ("C" :: stage_names)) (as_bu us').
Proof.
  intros hr hn. revert f us' f' hr. induction hn as [|x u l us [c [hc hm]] hn IH]; intros f us' f' hr h; cbn [factor_loop] in h.
  - injection h as <- <-. split; [reflexivity|intros y []].
  - destruct (convert_and_get_factor tables0 u) as [u'|] eqn:hu; cbn [bind] in h; [|discriminate].
    assert (h1 : unprefixed (bname x)).
    { destruct (hr x (or_introl eq_refl)) as [h1|h1]; [exact h1|]. unfold get_unit_class in hc. rewrite h1 in hc. discriminate. }
    pose proof (fun b => step_dim (bname x) (bexp x) c u u' b h1 hc hm hu) as hs.
    destruct (if inv then pydiv (nq 1) (uv u') else Ok (uv u')) as [g|]; cbn [bind] in h; [|discriminate].
    destruct (factor_loop tables0 inv us (nmul f g)) as [[us1 f1]|] eqn:hl; cbn [bind] in h; [|discriminate].
    injection h as <- <-. apply IH in hl; [|intros y hy; apply hr; right; exact hy]. destruct hl as [h2 h3]. cbn [fst]. split.
    + intro b. cbn [as_bu map lin bname bexp]. rewrite h2. destruct (hs b) as [e _]. rewrite e. reflexivity.
    + cbn [as_bu map]. apply allb_cons. split; [exact (proj2 (hs DMass))|exact h3].
Qed.

Lemma stage_closedC x p y : In (bname x) ("C" :: stage_names) -> defn (bname x) = Some p -> In y (fst p ++ snd p) -> In (bname y) ("C" :: stage_names).
Proof.
  intros [hx|hx] hd hy; [|right; exact (stage_closed x p y hx hd hy)].
  rewrite <- hx in hd. vm_compute in hd. injection hd as <-. cbn in hy.
  destruct hy as [<-|[<-|[]]]; cbn; tauto.
Qed.
Lemma stage_finC n : In n ("C" :: stage_names) -> ~ In n derived_names -> In n fin_names.
Proof. intros [<-|h] hn; [exfalso; apply hn; cbn; tauto|exact (stage_fin n h hn)]. Qed.

Definition sref (b : base) (c : ucls) : R := match standard c with Some s => phi b s | None => 0 end.
Lemma fin_phi b n : In n fin_names -> phi b n = sref b (cls_of n).
Proof. cbn. intro h. repeat (destruct h as [<-|h]; [destruct b; reflexivity|]). destruct h. Qed.
Lemma lin_phi b l : (forall x, In x l -> In (bname x) fin_names) -> lin (phi b) l = Csum (fun c => QcR (ctot c l) * sref b c).
Proof.
  induction l as [|x l IH]; intro h.
  - cbn [lin ctot fold_right]. unfold Csum. cbn [fold_right all_ucls]. rewrite QcR_qc. lra.
  - cbn [lin]. rewrite IH by (intros y hy; apply h; right; exact hy).
    rewrite (fin_phi b (bname x) (h x (or_introl eq_refl))).
    rewrite <- (Csum_one (cls_of (bname x)) (QcR (ev (bexp x)) * sref b (cls_of (bname x)))).
    rewrite Csum_add. apply Csum_ext. intro c. cbn [ctot fold_right]. fold (ctot c l).
    destruct (ucls_eqb c (cls_of (bname x))) eqn:ec; [|ring].
    assert (c = cls_of (bname x)) by (destruct c, (cls_of (bname x)); (reflexivity || discriminate)). subst c.
    rewrite QcR_plus. ring.
Qed.

Lemma side_dim top bot us vs (f : R) b : (forall x, In x (top ++ bot) -> known_name (bname x)) ->
  side_of tables0 top bot = Ok (us, vs, f) -> QcR (mdim top bot b) = Csum (fun c => QcR (class_total c us vs) * sref b c).
Proof.
  intros hk h. unfold side_of, conv_prepare in h.
  destruct (deconstruct_unit_prefixes top bot) as [[[t1 b1] f1]|] eqn:ep; cbn [bind] in h; [|discriminate].
  unfold deconstruct_unit_prefixes in ep.
  destruct (mapM split_prefix top) as [tp|] eqn:q1; cbn [bind] in ep; [|discriminate].
  destruct (mapM split_prefix bot) as [bp|] eqn:q2; cbn [bind] in ep; [|discriminate].
  destruct (prefix_loop false tp _) as [g1|]; cbn [bind] in ep; [|discriminate].
  destruct (prefix_loop true bp _) as [g2|]; cbn [bind] in ep; [|discriminate].
  injection ep as <- <- <-.
  destruct (strip_dims top tp) as [d1 n1]; [intros; apply hk, in_or_app; auto|exact q1|].
  destruct (strip_dims bot bp) as [d2 n2]; [intros; apply hk, in_or_app; auto|exact q2|].
  destruct (deconstruct_ok true (map snd tp) (map snd bp)) as [t2 [b2 [ed [hl _]]]]. rewrite ed in h. cbn [bind fst snd] in h.
  destruct (base_to_unit t2) as [us1|] eqn:e1; cbn [bind] in h; [|discriminate].
  destruct (base_to_unit b2) as [vs1|] eqn:e2; cbn [bind] in h; [|discriminate].
  unfold conv_factor in h.
  destruct (factor_loop tables0 false us1 _) as [[us2 f2]|] eqn:e3; cbn [bind fst snd] in h; [|discriminate].
  destruct (factor_loop tables0 true vs1 f2) as [[vs2 f3]|] eqn:e4; cbn [bind fst snd] in h; [|discriminate].
  destruct (deconstruct_ok false (as_bu us2) (as_bu vs2)) as [t3 [b3 [ed2 [hl2 hd2]]]]. rewrite ed2 in h. cbn [bind fst snd] in h.
  destruct (base_to_unit t3) as [us3|] eqn:e5; cbn [bind] in h; [|discriminate].
  destruct (base_to_unit b3) as [vs3|] eqn:e6; cbn [bind] in h; [|discriminate].
  injection h as <- <- <-.
  assert (pl : plain_half t2 /\ plain_half b2).
  { refine (decon_closed (fun x => plain_name (bname x)) _ _ _ _ _ _ ed n1 n2).
    intros x p y _ hd hy. left. apply unp_dec_names, (defn_in (bname x) p y hd hy). }
  destruct pl as [pl1 pl2].
  destruct (loop_dim _ _ _ _ _ _ pl1 (base_named _ _ e1) e3) as [m1 s1].
  destruct (loop_dim _ _ _ _ _ _ pl2 (base_named _ _ e2) e4) as [m2 s2].
  destruct (decon_closed (fun x => In (bname x) ("C" :: stage_names)) (fun x p y hx hp hy => stage_closedC x p y hx hp hy) _ _ _ _ _ ed2 s1 s2) as [c1 c2].
  assert (hf : forall x, In x (t3 ++ b3) -> In (bname x) fin_names).
  { intros x hx. apply stage_finC; [|apply (hd2 eq_refl); exact hx]. apply in_app_or in hx. destruct hx; auto. }
  unfold mdim. rewrite QcR_minus, <- d1, <- d2.
  rewrite <- (hl _ (phi_compat b)), m1, m2, <- (hl2 _ (phi_compat b)).
  rewrite !lin_phi by (intros x hx; apply hf, in_or_app; auto).
  symmetry. etransitivity; [apply (Csum_ext _ (fun c => QcR (ctot c t3) * sref b c + - (QcR (ctot c b3) * sref b c)))|].
  - intro c. rewrite (class_total_ctot c t3 b3 us3 vs3 hf (base_named _ _ e5) (base_named _ _ e6)). rewrite QcR_minus. ring.
  - rewrite <- Csum_add, Csum_opp. lra.
Qed.

Lemma convert_dims (a : multi_obj R) s pt pb r : parse_units s = Ok (pt, pb) ->
  (forall x, In x (mtop a ++ mbot a ++ pt ++ pb) -> known_name (bname x)) ->
  multi_convert_to tables0 a s = Ok r -> forall b, mdim (mtop a) (mbot a) b = mdim pt pb b.
Proof.
  intros hp hk h b. apply convert_eq in h. destruct h as (pt' & pb' & rt & rb & rf & lt & lb & lf & ep & e1 & e2 & _ & hd & _ & _).
  rewrite hp in ep. injection ep as <- <-. apply QcR_inj.
  rewrite (side_dim _ _ _ _ _ b) with (2 := e2) by (intros x hx; apply hk; rewrite app_assoc; apply in_or_app; auto).
  rewrite (side_dim _ _ _ _ _ b) with (2 := e1) by (intros x hx; apply hk; rewrite app_assoc; apply in_or_app; auto).
  apply Csum_ext. intro c. rewrite (proj1 (same_dims_iff _ _ _ _) hd c). reflexivity.
Qed.
Lemma convert_refuses (a : multi_obj R) s pt pb b : parse_units s = Ok (pt, pb) ->
  (forall x, In x (mtop a ++ mbot a ++ pt ++ pb) -> known_name (bname x)) ->
  mdim (mtop a) (mbot a) b <> mdim pt pb b -> exists e, multi_convert_to tables0 a s = Raise e.
Proof.
  intros hp hk hn. destruct (multi_convert_to tables0 a s) as [r|e] eqn:h; [|exists e; reflexivity].
  destruct hn. exact (convert_dims a s pt pb r hp hk h b).
Qed.
Lemma registered_known n : dict_get UNIT_REGISTRY n <> None -> has_char "^" n = false -> known_name n.
Proof.
  intros h hc. destruct (dict_get UNIT_REGISTRY n) as [c|] eqn:e; [|congruence]. apply dict_get_in in e.
  assert (hb : forallb (fun p => has_char "^" (fst p) || match dict_get dim_table (fst p) with Some _ => true | None => false end) UNIT_REGISTRY = true)
    by (vm_compute; reflexivity).
  rewrite forallb_forall in hb. specialize (hb _ e). cbn [fst] in hb. rewrite hc in hb. cbn [orb] in hb. unfold known_name.
  destruct (dict_get dim_table n); discriminate.
Qed.
