(** * ConvFacts: MultiUnit conversion keeps the quantity *)
From Coq Require Import String Ascii List ZArith QArith Qcanon Bool Reals Qreals Lia Lra.
From Verif Require Import Py Num UnitsData UnitsStruct Units NumFacts Spec SpecFacts StructFacts CombineFacts CancelFacts
  ExpandFacts PrefixFacts SimplifyFacts OpFacts NamesFacts ClosureFacts FactorFacts LawFacts WitnessFacts ConvSpec.
Import ListNotations.
Local Open Scope string_scope.
Local Open Scope list_scope.
Local Open Scope R_scope.

(** ** Predicates closed under expansion *)
Section Closed.
Variable P : bu -> Prop.
Hypothesis closed : forall x p y, P x -> defn (bname x) = Some p -> In y (fst p ++ snd p) -> P (BU (bname y) (emul (bexp y) (bexp x))).
Definition allb (l : half) : Prop := forall x, In x l -> P x.
Lemma allb_app l1 l2 : allb (l1 ++ l2) <-> allb l1 /\ allb l2.
Proof.
  unfold allb. split.
  - intro h. split; intros x hx; apply h; apply in_or_app; auto.
  - intros [h1 h2] x hx. apply in_app_or in hx. destruct hx; auto.
Qed.
Lemma allb_cons x l : allb (x :: l) <-> P x /\ allb l.
Proof.
  unfold allb. split.
  - intro h. split; [apply h; left; reflexivity|]. intros y hy. apply h. right. exact hy.
  - intros [h1 h2] y [<-|hy]; auto.
Qed.
Lemma allb_nil : allb nil. Proof. intros x []. Qed.
Lemma expand_closed x p : P x -> defn (bname x) = Some p -> allb (scaled (bexp x) (fst p)) /\ allb (scaled (bexp x) (snd p)).
Proof.
  intros hx hd. split; intros y hy; apply in_map_iff in hy; destruct hy as [z [<- hz]]; apply (closed x p); auto; apply in_or_app; auto.
Qed.
Lemma expand_loop_closed fuel pre rest other hit t o h' :
  expand_loop fuel pre rest other hit = Ok (t, o, h') -> allb pre -> allb rest -> allb other -> allb t /\ allb o.
Proof.
  revert pre rest other hit. induction fuel as [|fuel IH]; intros pre rest other hit h hp hr ho;
    destruct rest as [|x rest']; cbn [expand_loop] in h; try discriminate.
  - injection h as <- <- <-. auto.
  - injection h as <- <- <-. auto.
  - apply allb_cons in hr. destruct hr as [hx hr].
    destruct (derived_cases (bname x)) as [[hd [d [p [h1 [h2 h3]]]]]|[hd [h1 h3]]]; rewrite h1 in h.
    + rewrite (expand_eq d p (bexp x) h2) in h. cbn [bind fst snd] in h.
      destruct (expand_closed _ _ hx h3) as [n1 n2].
      assert (ha : allb (rest' ++ scaled (bexp x) (fst p))) by (apply allb_app; auto).
      assert (hb : allb (other ++ scaled (bexp x) (snd p))) by (apply allb_app; auto).
      destruct (rest' ++ scaled (bexp x) (fst p)) as [|y ys].
      * injection h as <- <- <-. auto.
      * apply allb_cons in ha. destruct ha as [hy hys]. eapply IH; eauto.
        apply allb_app. split; auto. apply allb_cons. split; auto using allb_nil.
    + eapply IH; eauto. apply allb_app. split; auto. apply allb_cons. split; auto using allb_nil.
Qed.
Lemma decon_loop_closed fuel one top bot t b :
  deconstruct_loop fuel one top bot = Ok (t, b) -> allb top -> allb bot -> allb t /\ allb b.
Proof.
  revert top bot. induction fuel as [|fuel IH]; intros top bot h h1 h2; cbn in h; [discriminate|].
  unfold deconstruct_round in h.
  destruct (expand_loop (weights top) nil top bot false) as [[[t1 b1] k1]|] eqn:e1; cbn [bind] in h; [|discriminate].
  destruct (expand_loop (weights b1) nil b1 t1 false) as [[[b2 t2] k2]|] eqn:e2; cbn [bind] in h; [|discriminate].
  destruct (expand_loop_closed _ _ _ _ _ _ _ _ e1) as [n1 n2]; auto using allb_nil.
  destruct (expand_loop_closed _ _ _ _ _ _ _ _ e2) as [n3 n4]; auto using allb_nil.
  destruct ((k1 || k2) && negb one); [eapply IH; eauto|]. injection h as <- <-. auto.
Qed.
Lemma decon_closed one top bot t b : deconstruct_units one top bot = Ok (t, b) -> allb top -> allb bot -> allb t /\ allb b.
Proof. apply decon_loop_closed. Qed.
End Closed.

Lemma defn_in n p y : defn n = Some p -> In y (fst p ++ snd p) -> In (bname y) ["kg"; "m"; "s"; "J"; "lbf"; "in"; "g"; "A"].
Proof.
  unfold defn.
  repeat match goal with
  | |- context [String.eqb n ?s] => destruct (String.eqb n s);
      [intro h; injection h as <-; cbn; intro hy; repeat (destruct hy as [<-|hy]; [cbn; tauto|]); destruct hy|]
  | _ => discriminate
  end.
Qed.

(** ** Names that can reach the conversion *)
Definition reach_names : list string :=
  ["K"; "C"; "R"; "F"; "m"; "ft"; "in"; "yd"; "um"; "A"; "s"; "min"; "hr"; "g"; "kg"; "lb"; "ug"; "J"; "uJ"; "BTU";
   "psi"; "Pa"; "uPa"; "atm"; "bar"; "N"; "uN"; "lbf"; "L"; "uL"; "acre"; "mol";
   "um^3"; "ft^3"; "in^3"; "um^2"; "ft^2"; "in^2"].
Lemma reg_reach n c : unprefixed n -> dict_get UNIT_REGISTRY n = Some c -> In n reach_names.
Proof.
  intros hu h. apply dict_get_in in h.
  assert (A : forallb (fun nc => mem_str (fst nc) reach_names || negb (unprefixed_b (fst nc))) UNIT_REGISTRY = true) by (vm_compute; reflexivity).
  rewrite forallb_forall in A. specialize (A _ h). cbn [fst] in A. apply orb_true_iff in A. destruct A as [A|A].
  - apply mem_str_In. exact A.
  - exfalso. apply negb_true_iff in A. assert (unprefixed_b n = true); [|congruence].
    destruct hu as [[c' ->]|[[c' [r [-> hc]]]|hu]].
    + reflexivity.
    + unfold unprefixed_b. destruct r; [reflexivity|]. apply orb_true_iff. left. apply negb_true_iff.
      destruct (existsb (Ascii.eqb c') prefix_letters) eqn:e; [|reflexivity]. apply existsb_letter in e. contradiction.
    + cbn in hu. destruct hu as [<-|[<-|[<-|[<-|[]]]]]; reflexivity.
Qed.

(** ** One unit: the factor to its standard unit *)
Definition wstd (w : usys) (n : string) : R := if mem_str n ["R"; "F"] then w "K" else w n.
Definition stage_names : list string := ["K"; "R"; "F"; "m"; "s"; "kg"; "J"; "Pa"; "A"; "mol"; "N"].

Lemma Q2R1 : Q2R 1 = 1. Proof. unfold Q2R; cbn; lra. Qed.
Lemma e_is_1 e : e_is e 1 = true -> QcR (ev e) = 1.
Proof. intro h. apply expo_z in h. exact h. Qed.
Lemma ln_step (e k x y : R) : 0 < k -> 0 < y -> x = k * y -> e * ln x = ln (Rpower k e) + e * ln y.
Proof. intros hk hy ->. unfold Rpower. rewrite ln_exp, ln_mult by assumption. ring. Qed.

(** The cases in which the table is used. *)
Lemma table_step (c : ucls) n s (q : R) e u' :
  0 < q -> mem_str n ["K"; "C"] = false -> mem_str n ["R"; "F"] = false -> mem_str n UNIT_COMPOSITES = false ->
  standard c = Some s -> has_char "^" s = false -> String.eqb n s = false ->
  (exists f, tab_get (to_standard0 (T := R) c) n = Ok f /\ f 1 = Ok q) ->
  (forall (v : R) ex, mk_unit c v s ex = Ok (UO c v s ex)) ->
  convert_and_get_factor tables0 (UO c 1 n e) = Ok u' ->
  exists e', u' = UO c (Rpower q (QcR (ev e))) s e' /\ QcR (ev e') = QcR (ev e).
Proof.
  intros hq h1 h2 h3 hs hc hn [f [hf hf1]] hm h. unfold convert_and_get_factor in h. cbn [un uc uv ue] in h.
  rewrite h1, h2, hs in h.
  assert (core : forall ex, unit_convert_core tables0 (UO c 1 n e) s s ex = Ok (UO c (Rpower q (QcR (ev ex))) s ex)).
  { intro ex. unfold unit_convert_core. cbn [un uc uv ue]. rewrite hn, hs, String.eqb_refl. unfold to_val. cbn [to_standard tables0].
    rewrite hf. cbn [bind]. rewrite hf1. cbn [bind npow Rnum]. rewrite (Rpowq_pos q (ev ex) hq). cbn [bind]. apply hm. }
  destruct (e_is e 1) eqn:e1.
  - unfold unit_convert_to in h. cbn [un] in h. rewrite h3, hc, core in h. injection h as <-.
    apply e_is_1 in e1. exists (eint 1). rewrite e1. split; [|apply QcR_qc].
    repeat f_equal. apply QcR_qc.
  - rewrite hc, core in h. injection h as <-. exists (eflt (ev e)). split; reflexivity.
Qed.
Lemma same_step (c : ucls) s e u' :
  mem_str s ["K"; "C"] = false -> mem_str s ["R"; "F"] = false -> mem_str s UNIT_COMPOSITES = false ->
  standard c = Some s -> has_char "^" s = false ->
  convert_and_get_factor tables0 (UO c 1 s e) = Ok u' -> u' = UO c 1 s e.
Proof.
  intros h1 h2 h3 hs hc h. unfold convert_and_get_factor in h. cbn [un uc uv ue] in h. rewrite h1, h2, hs in h.
  destruct (e_is e 1).
  - unfold unit_convert_to, unit_convert_core in h. cbn [un] in h. rewrite h3, hc, String.eqb_refl in h. congruence.
  - unfold unit_convert_core in h. cbn [un] in h. rewrite hc, String.eqb_refl in h. congruence.
Qed.

Lemma step_L e u' : convert_and_get_factor tables0 (UO Volume (1 : R) "L" e) = Ok u' ->
  QcR (ev e) = 1 /\ u' = UO Volume (/ 1000) "m" (eflt (qc 3)).
Proof.
  intro h. unfold convert_and_get_factor in h. cbn [un uc uv ue] in h.
  change (mem_str "L" ["K"; "C"]) with false in h. change (mem_str "L" ["R"; "F"]) with false in h. cbn [standard] in h.
  destruct (e_is e 1) eqn:e1; [|discriminate].
  unfold unit_convert_to in h. cbn [un] in h. change (mem_str "L" UNIT_COMPOSITES) with true in h.
  change (split_on "^" "m^3") with ["m"; "3"] in h. cbn [bind] in h. rewrite py_float_3 in h. cbn [bind] in h.
  unfold unit_convert_core in h. cbn [un uc uv ue standard] in h. change (String.eqb "L" "m^3") with false in h.
  rewrite String.eqb_refl in h.
  assert (ht : to_val tables0 Volume "L" (1 : R) (eflt (qc 3)) = Ok (/ 1000)).
  { unfold to_val. change (tab_get (to_standard tables0 Volume) "L") with (Ok (over (T := R) (10 # 1))). cbn [bind].
    cbv [over ndiv nq Rnum npow]. cbn [bind]. rewrite Rpowq_pos by (q2r; lra). f_equal. cbn [ev eflt]. rewrite QcR_qc.
    replace (IZR 3) with (INR 3) by (cbn; lra). rewrite Rpower_pow by (q2r; lra). q2r. field. }
  rewrite ht in h. cbn [bind] in h. injection h as <-. apply e_is_1 in e1. auto.
Qed.
Lemma step_uL e u' : convert_and_get_factor tables0 (UO Volume (1 : R) "uL" e) <> Ok u'.
Proof.
  unfold convert_and_get_factor. cbn [un uc uv ue].
  change (mem_str "uL" ["K"; "C"]) with false. change (mem_str "uL" ["R"; "F"]) with false. cbn [standard].
  destruct (e_is e 1); [|discriminate].
  unfold unit_convert_to. cbn [un]. change (mem_str "uL" UNIT_COMPOSITES) with false. change (has_char "^" "m^3") with true. cbn iota.
  change (split_on "^" "m^3") with ["m"; "3"]. cbn [bind]. rewrite py_float_3. cbn [bind].
  unfold unit_convert_core. cbn [un uc uv ue standard]. change (String.eqb "uL" "m") with false. change (String.eqb "m" "m^3") with false.
  change (String.eqb "uL" "m^3") with false. cbn iota.
  destruct (to_val _ _ _ _ _) as [x|x]; [cbn [bind]; discriminate|destruct x; discriminate].
Qed.
Lemma step_acre e u' : convert_and_get_factor tables0 (UO Area (1 : R) "acre" e) = Ok u' ->
  QcR (ev e) = 1 /\ u' = UO Area (Q2R (4046873 # 1000)) "m" (eflt (qc 2)).
Proof.
  intro h. unfold convert_and_get_factor in h. cbn [un uc uv ue] in h.
  change (mem_str "acre" ["K"; "C"]) with false in h. change (mem_str "acre" ["R"; "F"]) with false in h. cbn [standard] in h.
  destruct (e_is e 1) eqn:e1; [|discriminate].
  unfold unit_convert_to in h. cbn [un] in h. change (mem_str "acre" UNIT_COMPOSITES) with true in h.
  change (split_on "^" "m^2") with ["m"; "2"] in h. cbn [bind] in h. rewrite py_float_2 in h. cbn [bind] in h.
  unfold unit_convert_core in h. cbn [un uc uv ue standard] in h. change (String.eqb "acre" "m^2") with false in h.
  rewrite String.eqb_refl in h.
  assert (ht : to_val tables0 Area "acre" (1 : R) (eflt (qc 2)) = Ok (Q2R (4046873 # 1000))).
  { unfold to_val. change (tab_get (to_standard tables0 Area) "acre")
      with (Ok (fun x : R => let* r := Rpowq (Q2R (4046873 # 1000)) (Q2Qc (1 # 2)) in Ok (x * r))). cbn [bind].
    assert (hq : 0 < Q2R (4046873 # 1000)) by (q2r; lra).
    rewrite Rpowq_pos by exact hq. cbn [bind npow Rnum]. rewrite Rpowq_pos by (rewrite Rmult_1_l; apply Rpower_pos).
    f_equal. cbn [ev eflt]. rewrite Rmult_1_l, QcR_qc, QcR_Q2Qc, Rpower_mult.
    replace (Q2R (1 # 2) * 2) with 1 by (q2r; lra). apply Rpower_1. exact hq. }
  rewrite ht in h. cbn [bind] in h. injection h as <-. apply e_is_1 in e1. auto.
Qed.

Lemma step n e c u u' : unprefixed n -> n <> "psi" -> n <> "C" ->
  get_unit_class n = Ok c -> mk_unit c (1 : R) n e = Ok u -> convert_and_get_factor tables0 u = Ok u' ->
  exists k, 0 < k /\
    (forall w, physical w -> QcR (ev e) * ln (w n) = ln k + QcR (ev (ue u')) * ln (wstd w (un u'))) /\
    ((In n ["K"; "R"; "F"] -> ev e = qc 1) -> uv u' = k) /\ In (un u') stage_names.
Proof.
  intros hu hpsi hC hc hm h. unfold get_unit_class in hc. destruct (dict_get UNIT_REGISTRY n) as [c'|] eqn:hr; [|discriminate].
  injection hc as ->. pose proof (reg_reach n c hu hr) as hn. cbn in hn.
  (* degrees *)
  assert (deg : forall d, In n ["K"; "R"; "F"] -> 0 < d -> u' = UO c (Q2R 1 * (if String.eqb n "K" then Q2R (this (ev e)) else d * Q2R (this (ev e)))) n e ->
     (forall w, physical w -> w n = (if String.eqb n "K" then 1 else d) * w "K") ->
     exists k, 0 < k /\
    (forall w, physical w -> QcR (ev e) * ln (w n) = ln k + QcR (ev (ue u')) * ln (wstd w (un u'))) /\
    ((In n ["K"; "R"; "F"] -> ev e = qc 1) -> uv u' = k) /\ In (un u') stage_names).
  { intros d hin hd -> hw. exists (Rpower (if String.eqb n "K" then 1 else d) (QcR (ev e))). cbn [un ue uv].
    split; [apply Rpower_pos|]. split; [|split].
    - intros w hp. assert (hs : wstd w n = w "K") by (unfold wstd; cbn in hin; destruct hin as [<-|[<-|[<-|[]]]]; reflexivity).
      rewrite hs. apply ln_step; [destruct (String.eqb n "K"); lra|apply (co_pos w (ph_coherent w hp))|apply hw, hp].
    - intro h1. rewrite (h1 hin). rewrite Q2R1. change (Q2R (this (qc 1))) with (QcR (qc 1)). rewrite QcR_qc.
      destruct (String.eqb n "K"); rewrite Rpower_1 by lra; ring.
    - cbn in hin. destruct hin as [<-|[<-|[<-|[]]]]; cbn; tauto. }
  Local Ltac tstep q hm h :=
    injection hm as <-;
    match type of h with convert_and_get_factor _ (UO ?c _ ?n ?e) = Ok ?u' =>
      let s := eval compute in (match standard c with Some s => s | None => EmptyString end) in
      destruct (table_step c n s q e u') as [e' [-> he]];
      [lra|reflexivity|reflexivity|reflexivity|reflexivity|reflexivity|reflexivity
      |eexists; split; [reflexivity|]; cbv [times over nmul ndiv nq Rnum]; f_equal; q2r; field
      |intros; reflexivity|exact h|
       exists (Rpower q (QcR (ev e))); cbn [un ue uv]; split; [apply Rpower_pos|];
       split; [intros w hp; rewrite he; change (wstd w s) with (w s); apply ln_step; [lra|apply (co_pos w (ph_coherent w hp))|]
              |split; [reflexivity|cbn; tauto]]]
    end.
  Local Ltac sstep hm h :=
    injection hm as <-;
    match type of h with convert_and_get_factor _ (UO ?c _ ?s ?e) = Ok ?u' =>
      rewrite (same_step c s e u' eq_refl eq_refl eq_refl eq_refl eq_refl h);
      exists 1; cbn [un ue uv]; split; [lra|]; split; [intros w hp; change (wstd w s) with (w s); rewrite ln_1; ring|split; [reflexivity|cbn; tauto]]
    end.
  Local Ltac caret_step hm h :=
    exfalso; cbn [mk_unit] in hm; unfold split_caret in hm; match type of hm with (if ?b then _ else _) = _ => change b with true in hm end; cbn iota in hm;
    match type of hm with context [split_on "^" ?s] => let r := eval compute in (split_on "^" s) in change (split_on "^" s) with r in hm end;
    cbn iota in hm; rewrite ?py_float_2, ?py_float_3 in hm; cbn [bind] in hm; injection hm as <-; vm_compute in h; discriminate.
  Local Ltac pm n s q hp := rewrite (ph_multiples _ hp n s q) by (cbn; tauto); q2r; lra.
  Local Ltac px p f s hp := rewrite (co_prefix _ (ph_coherent _ hp) p f s) by (cbn; tauto); lra.
  repeat (destruct hn as [<-|hn]; [vm_compute in hr; injection hr as <-|]).
  39: destruct hn.
  all: try congruence.
  - apply (deg 1); [cbn; tauto|lra| |intros w hp; cbn; ring]. injection hm as <-. injection h as <-. f_equal. cbn [nmul nq Rnum uv]. rewrite Q2R1. reflexivity.
  - apply (deg (Q2R (5 # 9))); [cbn; tauto|q2r; lra| |intros w hp; cbn [String.eqb]; exact (ph_multiples _ hp "R" "K" (5 # 9) ltac:(cbn; tauto))].
    injection hm as <-. injection h as <-. f_equal. cbn [nmul nq Rnum uv String.eqb]. rewrite Q2R1. reflexivity.
  - apply (deg (Q2R (5 # 9))); [cbn; tauto|q2r; lra| |intros w hp; cbn [String.eqb]; exact (ph_multiples _ hp "F" "K" (5 # 9) ltac:(cbn; tauto))].
    injection hm as <-. injection h as <-. f_equal. cbn [nmul nq Rnum uv String.eqb]. rewrite Q2R1. reflexivity.
  - sstep hm h.
  - tstep (3048/10000) hm h. pm "ft" "m" (3048 # 10000) hp.
  - tstep (254/10000) hm h. pm "in" "m" (254 # 10000) hp.
  - tstep (9144/10000) hm h. pm "yd" "m" (9144 # 10000) hp.
  - tstep (/ 1000000) hm h. px ("u"%char) (/ 1000000) "m" hp.
  - sstep hm h.
  - sstep hm h.
  - tstep (60) hm h. pm "min" "s" (60 # 1) hp.
  - tstep (3600) hm h. pm "hr" "s" (3600 # 1) hp.
  - tstep (/ 1000) hm h. rewrite (co_prefix _ (ph_coherent _ hp) "k"%char 1000 "g") by (cbn; tauto). lra.
  - sstep hm h.
  - tstep (453592/1000000) hm h. pm "lb" "kg" (453592 # 1000000) hp.
  - tstep (/ 1000000000) hm h. rewrite (co_prefix _ (ph_coherent _ hp) "k"%char 1000 "g"), (co_prefix _ (ph_coherent _ hp) "u"%char (/ 1000000) "g") by (cbn; tauto). lra.
  - sstep hm h.
  - tstep (/ 1000000) hm h. px ("u"%char) (/ 1000000) "J" hp.
  - tstep (1055056/1000) hm h. pm "BTU" "J" (1055056 # 1000) hp.
  - sstep hm h.
  - tstep (/ 1000000) hm h. px ("u"%char) (/ 1000000) "Pa" hp.
  - tstep (101325) hm h. pm "atm" "Pa" (101325 # 1) hp.
  - tstep (100000) hm h. pm "bar" "Pa" (100000 # 1) hp.
  - sstep hm h.
  - tstep (/ 1000000) hm h. px ("u"%char) (/ 1000000) "N" hp.
  - tstep (444822/100000) hm h. pm "lbf" "N" (444822 # 100000) hp.
  - (* L *) injection hm as <-. apply step_L in h. destruct h as [e1 ->]. exists (/ 1000). cbn [un ue uv]. split; [lra|].
    split; [|split; [reflexivity|cbn; tauto]].
    intros w hp. change (wstd w "m") with (w "m"). rewrite e1. cbn [ev eflt]. rewrite QcR_qc, (ph_L w hp).
    pose proof (co_pos w (ph_coherent w hp) "m") as hm. rewrite ln_mult by (try apply pow_lt; lra). rewrite ln_pow_pos by exact hm.
    cbn [INR]. lra.
  - injection hm as <-. destruct (step_uL e u' h).
  - (* acre *) injection hm as <-. apply step_acre in h. destruct h as [e1 ->]. exists (Q2R (4046873 # 1000)). cbn [un ue uv].
    assert (hq : 0 < Q2R (4046873 # 1000)) by (q2r; lra). split; [exact hq|].
    split; [|split; [reflexivity|cbn; tauto]].
    intros w hp. change (wstd w "m") with (w "m"). rewrite e1. cbn [ev eflt]. rewrite QcR_qc, (ph_acre w hp).
    pose proof (co_pos w (ph_coherent w hp) "m") as hm. rewrite ln_mult by (try apply pow_lt; lra). rewrite ln_pow_pos by exact hm.
    cbn [INR]. lra.
  - sstep hm h.
  - caret_step hm h.
  - caret_step hm h.
  - caret_step hm h.
  - caret_step hm h.
  - caret_step hm h.
  - caret_step hm h.
Qed.

(** ** The loops *)
Definition named_by (x : bu) (u : unit_obj R) : Prop :=
  exists c, get_unit_class (bname x) = Ok c /\ mk_unit c (1 : R) (bname x) (bexp x) = Ok u.
Lemma base_named l us : base_to_unit l = Ok us -> Forall2 named_by l us.
Proof.
  revert us. induction l as [|x l IH]; intros us h; cbn in h; [injection h as <-; constructor|].
  destruct (get_unit_class (bname x)) as [c|] eqn:hc; cbn [bind] in h; [|discriminate].
  change (nq 1) with (Q2R 1) in h. rewrite Q2R1 in h.
  destruct (mk_unit c (1 : R) (bname x) (bexp x)) as [u|] eqn:hu; cbn [bind] in h; [|discriminate].
  destruct (base_to_unit l) as [us'|] eqn:hb; unfold base_to_unit in hb; change (nq 1) with (Q2R 1) in hb; rewrite Q2R1 in hb;
    rewrite hb in h; cbn [bind] in h; [|discriminate].
  injection h as <-. constructor; [exists c; auto|]. apply IH. reflexivity.
Qed.

Definition ready (l : half) : Prop := forall x, In x l -> unprefixed (bname x) /\ bname x <> "psi" /\ bname x <> "C".
Definition linear (l : half) : Prop := forall x, In x l -> In (bname x) ["K"; "R"; "F"] -> ev (bexp x) = qc 1.

Lemma loop_step inv l us (f : R) us' f' : ready l -> Forall2 named_by l us ->
  factor_loop tables0 inv us f = Ok (us', f') ->
  exists k, 0 < k /\
    (forall w, physical w -> lin (fun n => ln (w n)) l = ln k + lin (fun n => ln (wstd w n)) (as_bu us')) /\
    (linear l -> f' = f * (if inv then / k else k)) /\ allb (fun x => In (bname x) stage_names) (as_bu us').
Proof.
  intros hr hn. revert f us' f' hr. induction hn as [|x u l us [c [hc hm]] hn IH]; intros f us' f' hr h; cbn [factor_loop] in h.
  - injection h as <- <-. exists 1. split; [lra|]. split; [|split].
    + intros w _. cbn. rewrite ln_1. lra.
    + intros _. destruct inv; field.
    + intros y [].
  - destruct (convert_and_get_factor tables0 u) as [u'|] eqn:hu; cbn [bind] in h; [|discriminate].
    destruct (hr x (or_introl eq_refl)) as [h1 [h2 h3]].
    destruct (step (bname x) (bexp x) c u u' h1 h2 h3 hc hm hu) as [k [hk [hw [hv hs]]]].
    destruct (if inv then pydiv (nq 1) (uv u') else Ok (uv u')) as [g|] eqn:hg; cbn [bind] in h; [|discriminate].
    destruct (factor_loop tables0 inv us (nmul f g)) as [[us1 f1]|] eqn:hl; cbn [bind] in h; [|discriminate].
    injection h as <- <-. apply IH in hl; [|intros y hy; apply hr; right; exact hy].
    destruct hl as [k1 [hk1 [hw1 [hv1 hs1]]]]. exists (k * k1). split; [apply Rmult_lt_0_compat; auto|]. split; [|split].
    + intros w hp. cbn [fst as_bu map lin bname bexp]. rewrite (hw w hp), (hw1 w hp), ln_mult by auto.
      change (map (fun u0 => BU (un u0) (ue u0)) us1) with (as_bu us1). lra.
    + intro hl. cbn [snd]. rewrite hv1 by (intros y hy; apply hl; right; exact hy).
      assert (e : uv u' = k) by (apply hv; intro hd; apply hl; [left; reflexivity|exact hd]).
      rewrite e in hg. cbn [nmul Rnum]. destruct inv.
      * rewrite pydiv_ok in hg by lra. injection hg as <-. cbn [nq Rnum]. rewrite Q2R1. field. lra.
      * injection hg as <-. ring.
    + cbn [fst as_bu map]. apply allb_cons. split; [exact hs|exact hs1].
Qed.

(** ** Full expansion and class totals *)
Lemma wstd_compat w : coherent w -> compat (fun n => ln (wstd w n)).
Proof.
  intros hc n p hd. pose proof (coherent_compat w hc n p hd) as h.
  assert (a : forall l, (forall y, In y l -> In y (fst p ++ snd p)) -> lin (fun n => ln (wstd w n)) l = lin (fun n => ln (w n)) l).
  { induction l as [|y l IH]; intro hl; cbn [lin]; [reflexivity|]. rewrite IH by (intros z hz; apply hl; right; exact hz).
    f_equal. f_equal. f_equal. unfold wstd. pose proof (defn_in n p y hd (hl y (or_introl eq_refl))) as hy.
    cbn in hy. repeat (destruct hy as [<-|hy]; [reflexivity|]). destruct hy. }
  rewrite !a by (intros y hy; apply in_or_app; auto). rewrite <- h. f_equal. unfold wstd.
  destruct (derived_cases n) as [[hd' _]|[_ [_ h3]]]; [|congruence].
  cbn in hd'. repeat (destruct hd' as [<-|hd']; [reflexivity|]). destruct hd'.
Qed.

Definition fin_names : list string := ["K"; "R"; "F"; "m"; "s"; "kg"; "A"; "mol"; "N"].
Lemma stage_closed x p y : In (bname x) stage_names -> defn (bname x) = Some p -> In y (fst p ++ snd p) -> In (bname y) stage_names.
Proof.
  intros hx. unfold defn. cbn in hx.
  repeat (destruct hx as [<-|hx]; [cbn; intro h; try discriminate; injection h as <-; cbn; intro hy;
    repeat (destruct hy as [<-|hy]; [cbn; tauto|]); destruct hy|]).
  destruct hx.
Qed.
Lemma stage_fin n : In n stage_names -> ~ In n derived_names -> In n fin_names.
Proof. cbn. intros h hn. repeat (destruct h as [<-|h]; [tauto|]). destruct h. Qed.

Definition wref (w : usys) (c : ucls) : R := match standard c with Some s => w s | None => 1 end.
Definition cls_of (n : string) : ucls := match get_unit_class n with Ok c => c | Raise _ => UUnit end.
Lemma fin_ref w n : In n fin_names -> get_unit_class n = Ok (cls_of n) /\ wstd w n = wref w (cls_of n).
Proof. cbn. intro h. repeat (destruct h as [<-|h]; [split; reflexivity|]). destruct h. Qed.

Definition ctot (c : ucls) (l : half) : Qc :=
  fold_right (fun x a => if ucls_eqb c (cls_of (bname x)) then (ev (bexp x) + a)%Qc else a) (qc 0) l.
Definition Csum (f : ucls -> R) : R := fold_right (fun c a => f c + a) 0 all_ucls.
Lemma Csum_add f g : Csum f + Csum g = Csum (fun c => f c + g c).
Proof. unfold Csum. cbn. lra. Qed.
Lemma Csum_opp f : Csum (fun c => - f c) = - Csum f.
Proof. unfold Csum. cbn. lra. Qed.
Lemma Csum_ext f g : (forall c, f c = g c) -> Csum f = Csum g.
Proof. intro h. unfold Csum. cbn. rewrite !h. reflexivity. Qed.
Lemma Csum_one c0 x : Csum (fun c => if ucls_eqb c c0 then x else 0) = x.
Proof. unfold Csum. destruct c0; cbn; lra. Qed.

Lemma lin_classes w l : (forall x, In x l -> In (bname x) fin_names) ->
  lin (fun n => ln (wstd w n)) l = Csum (fun c => QcR (ctot c l) * ln (wref w c)).
Proof.
  induction l as [|x l IH]; intro h.
  - cbn [lin ctot fold_right]. unfold Csum. cbn [fold_right all_ucls]. rewrite QcR_qc. lra.
  - cbn [lin]. rewrite IH by (intros y hy; apply h; right; exact hy).
    destruct (fin_ref w (bname x) (h x (or_introl eq_refl))) as [_ e]. rewrite e.
    rewrite <- (Csum_one (cls_of (bname x)) (QcR (ev (bexp x)) * ln (wref w (cls_of (bname x))))).
    rewrite Csum_add. apply Csum_ext. intro c. cbn [ctot fold_right]. fold (ctot c l).
    destruct (ucls_eqb c (cls_of (bname x))) eqn:ec; [|ring].
    assert (c = cls_of (bname x)) by (destruct c, (cls_of (bname x)); (reflexivity || discriminate)). subst c.
    rewrite QcR_plus. ring.
Qed.

Lemma fin_units l us : (forall x, In x l -> In (bname x) fin_names) -> Forall2 named_by l us ->
  map (fun u => BU (un u) (ue u)) us = l.
Proof.
  intros h hn. induction hn as [|x u l us [c [hc hm]] hn IH]; [reflexivity|]. cbn [map].
  rewrite IH by (intros y hy; apply h; right; exact hy). f_equal.
  specialize (h x (or_introl eq_refl)). destruct x as [n e]. cbn [bname bexp] in *.
  destruct (fin_ref (fun _ => 1) n h) as [hc' _]. rewrite hc in hc'. injection hc' as ->. cbn in h.
  repeat (destruct h as [<-|h]; [cbn in hm; injection hm as <-; reflexivity|]). destruct h.
Qed.
Lemma class_total_ctot c t b us vs : (forall x, In x (t ++ b) -> In (bname x) fin_names) ->
  Forall2 named_by t us -> Forall2 named_by b vs -> class_total c us vs = (ctot c t - ctot c b)%Qc.
Proof.
  intros h h1 h2. unfold class_total.
  assert (g : forall l xs, (forall x, In x l -> In (bname x) fin_names) -> Forall2 named_by l xs ->
    fold_right (fun u a => if match get_unit_class (un u) with Ok d => ucls_eqb c d | Raise _ => false end
      then (ev (ue u) + a)%Qc else a) (qc 0) xs = ctot c l).
  { intros l xs hl hx. pose proof (fin_units l xs hl hx) as e. subst l. clear hx. induction xs as [|u xs IH]; [reflexivity|].
    cbn [fold_right ctot map bname bexp]. fold (ctot c (map (fun u => BU (un u) (ue u)) xs)).
    rewrite IH by (intros y hy; apply hl; right; exact hy).
    destruct (fin_ref (fun _ => 1) (un u) (hl _ (or_introl eq_refl))) as [e _]. rewrite e. reflexivity. }
  rewrite (g t us), (g b vs); auto; intros x hx; apply h, in_or_app; auto.
Qed.

(** ** One side of a conversion *)
Lemma side top bot us vs (f : R) us2 vs2 f2 : ready top -> ready bot ->
  Forall2 named_by top us -> Forall2 named_by bot vs ->
  conv_factor tables0 us vs f = Ok (us2, vs2, f2) ->
  exists k, 0 < k /\
    (forall w, physical w -> msize w top bot = k * exp (Csum (fun c => QcR (class_total c us2 vs2) * ln (wref w c)))) /\
    (linear top -> linear bot -> f2 = f * k).
Proof.
  intros r1 r2 n1 n2 h. unfold conv_factor in h.
  destruct (factor_loop tables0 false us _) as [[us1 f1]|] eqn:e1; cbn [bind fst snd] in h; [|discriminate].
  destruct (factor_loop tables0 true vs f1) as [[vs1 f1']|] eqn:e2; cbn [bind fst snd] in h; [|discriminate].
  destruct (loop_step _ _ _ _ _ _ r1 n1 e1) as [k1 [p1 [w1 [v1 s1]]]].
  destruct (loop_step _ _ _ _ _ _ r2 n2 e2) as [k2 [p2 [w2 [v2 s2]]]].
  destruct (deconstruct_ok false (as_bu us1) (as_bu vs1)) as [t3 [b3 [ed [hl hd]]]]. rewrite ed in h. cbn [bind fst snd] in h.
  destruct (base_to_unit t3) as [us3|] eqn:e3; cbn [bind] in h; [|discriminate].
  destruct (base_to_unit b3) as [vs3|] eqn:e4; cbn [bind] in h; [|discriminate].
  injection h as <- <- <-.
  destruct (decon_closed (fun x => In (bname x) stage_names) (fun x p y hx hp hy => stage_closed x p y hx hp hy) _ _ _ _ _ ed s1 s2) as [c1 c2].
  assert (hf : forall x, In x (t3 ++ b3) -> In (bname x) fin_names).
  { intros x hx. apply stage_fin; [|apply (hd eq_refl); exact hx]. apply in_app_or in hx. destruct hx; auto. }
  exists (k1 / k2). split; [apply Rdiv_lt_0_compat; auto|]. split.
  - intros w hp. pose proof (ph_coherent w hp) as hc.
    rewrite msize_lin. rewrite (w1 w hp), (w2 w hp).
    replace (ln k1 + _ - _) with (ln (k1 / k2) + (lin (fun n => ln (wstd w n)) (as_bu us1) - lin (fun n => ln (wstd w n)) (as_bu vs1)))
      by (rewrite ln_div by auto; ring).
    rewrite exp_plus, exp_ln by (apply Rdiv_lt_0_compat; auto). f_equal. f_equal.
    rewrite <- (hl _ (wstd_compat w hc)).
    rewrite !lin_classes by (intros x hx; apply hf, in_or_app; auto).
    symmetry. etransitivity; [apply (Csum_ext _ (fun c => QcR (ctot c t3) * ln (wref w c) + - (QcR (ctot c b3) * ln (wref w c))))|].
    + intro c. rewrite (class_total_ctot c t3 b3 us3 vs3 hf (base_named _ _ e3) (base_named _ _ e4)). rewrite QcR_minus. ring.
    + rewrite <- Csum_add, Csum_opp. lra.
  - intros l1 l2. rewrite (v2 l2), (v1 l1). cbn [nmul nq Rnum]. rewrite Q2R1. field. lra.
Qed.

(** ** Preparing one side *)
Definition strips (x y : bu) : Prop := bexp y = bexp x /\ prefixed_name (bname y) (bname x).
Lemma split_strips x p y : split_prefix x = Ok (p, y) -> strips x y.
Proof.
  unfold split_prefix, strips, prefixed_name. destruct x as [n e]. cbn [bname bexp].
  destruct (String.eqb n "kg") eqn:k.
  { apply String.eqb_eq in k. subst. intro h. injection h as <- <-. split; [reflexivity|]. exists "". split; [left; reflexivity|reflexivity]. }
  unfold get_prefix. destruct n as [|c rest]; [discriminate|].
  destruct (String.eqb rest EmptyString || _ || _) eqn:b; cbn [bind fst snd]; intro h; injection h as <- <-; (split; [reflexivity|]).
  - exists "". split; [left; reflexivity|reflexivity].
  - apply orb_false_iff in b. destruct b as [b b3]. apply orb_false_iff in b. destruct b as [b1 b2].
    apply negb_false_iff in b2. apply mem_str_In in b2. exists (String c EmptyString). split; [right; exact b2|reflexivity].
Qed.
Lemma mapM_strips l ps : mapM split_prefix l = Ok ps -> Forall2 strips l (map snd ps).
Proof.
  revert ps. induction l as [|x l IH]; intros ps h; cbn in h; [injection h as <-; constructor|].
  destruct (split_prefix x) as [[p y]|] eqn:e; cbn [bind] in h; [|discriminate].
  destruct (mapM split_prefix l) as [ps'|] eqn:e'; cbn [bind] in h; [|discriminate].
  injection h as <-. cbn [map snd]. constructor; [exact (split_strips _ _ _ e)|apply IH; reflexivity].
Qed.
Lemma strip_units top bot t b (f : R) : deconstruct_unit_prefixes top bot = Ok (t, b, f) -> Forall2 strips top t /\ Forall2 strips bot b.
Proof.
  unfold deconstruct_unit_prefixes. intro h.
  destruct (mapM split_prefix top) as [tp|] eqn:e1; cbn [bind] in h; [|discriminate].
  destruct (mapM split_prefix bot) as [bp|] eqn:e2; cbn [bind] in h; [|discriminate].
  destruct (prefix_loop false tp _) as [f1|]; cbn [bind] in h; [|discriminate].
  destruct (prefix_loop true bp _) as [f2|]; cbn [bind] in h; [|discriminate].
  injection h as <- <- <-. split; apply mapM_strips; assumption.
Qed.
Lemma Forall2_in_r {A B} (P : A -> B -> Prop) l m y : Forall2 P l m -> In y m -> exists x, In x l /\ P x y.
Proof.
  intro h. induction h as [|x z l m hp h IH]; intros []; [subst; exists x; split; [left; reflexivity|exact hp]|].
  destruct (IH H) as [x' [h1 h2]]. exists x'. split; [right; exact h1|exact h2].
Qed.

Definition bad_first (n : string) : Prop := n = "psi" \/ n = "C".
Lemma psi_sparse l t : psi_first l -> Forall2 strips l t -> sparse bad_first t.
Proof.
  intros h f. induction f as [|x y l t [_ hx] f IH]; [exact I|]. split.
  - intro hd. destruct f as [|x' y' l t [_ hx'] f]; [exact I|].
    destruct (h O x x' (bname y) eq_refl eq_refl hd hx) as [h1 h2]. intros [e|e]; rewrite e in hx'; auto.
  - apply IH. intros i u v. exact (h (S i) u v).
Qed.

Lemma unp_dec_names n : In n ["kg"; "m"; "s"; "J"; "lbf"; "in"; "g"; "A"] -> unprefixed n.
Proof. cbn. intro h. repeat (destruct h as [<-|h]; [apply unprefixed_b_ok; reflexivity|]). destruct h. Qed.

Lemma prepare top bot us vs (f : R) : adm_half top -> adm_half bot -> psi_first top -> psi_first bot ->
  conv_prepare top bot = Ok (us, vs, f) ->
  exists t b, Forall2 named_by t us /\ Forall2 named_by b vs /\ ready t /\ ready b /\ 0 < f /\
    (forall w, coherent w -> msize w top bot = f * msize w t b) /\
    (degrees_linear top -> degrees_linear bot -> linear t /\ linear b).
Proof.
  intros a1 a2 s1 s2 h. unfold conv_prepare in h.
  destruct (prefixes_ok si top bot coherent_si a1 a2) as [t1 [b1 [f1 [ep [fp [_ [u1 u2]]]]]]].
  rewrite ep in h. cbn [bind] in h.
  destruct (deconstruct_ok true t1 b1) as [t [b [ed [hl _]]]]. rewrite ed in h. cbn [bind fst snd] in h.
  destruct (base_to_unit t) as [us'|] eqn:e1; cbn [bind] in h; [|discriminate].
  destruct (base_to_unit b) as [vs'|] eqn:e2; cbn [bind] in h; [|discriminate].
  injection h as <- <- <-. exists t, b. split; [apply base_named; exact e1|]. split; [apply base_named; exact e2|].
  destruct (strip_units _ _ _ _ _ ep) as [st sb].
  assert (hu : allb (fun x => unprefixed (bname x)) t /\ allb (fun x => unprefixed (bname x)) b).
  { refine (decon_closed _ _ _ _ _ _ _ ed u1 u2). intros x p y _ hd hy. cbn [bname]. apply unp_dec_names, (defn_in (bname x) p y hd hy). }
  assert (hc : noD bad_first t /\ noD bad_first b).
  { refine (one_pass_clears (fun _ => True) bad_first _ _ t1 b1 t b ed _ _ (psi_sparse _ _ s1 st) (psi_sparse _ _ s2 sb)).
    - intros n [->| ->]; cbn; tauto.
    - intros n p _ hd x hx. split; [exact I|]. pose proof (defn_in n p x hd hx) as hn. intros [e|e]; rewrite e in hn; cbn in hn; intuition discriminate.
    - intros x _. exact I.
    - intros x _. exact I. }
  destruct hu as [hu1 hu2]. destruct hc as [hc1 hc2].
  split; [|split; [|split; [exact fp|split]]].
  - intros x hx. split; [exact (hu1 x hx)|]. split; intro e; apply (hc1 x hx); [left|right]; exact e.
  - intros x hx. split; [exact (hu2 x hx)|]. split; intro e; apply (hc2 x hx); [left|right]; exact e.
  - intros w hw. destruct (prefixes_ok w top bot hw a1 a2) as [t' [b' [f' [ep' [_ [hm _]]]]]].
    rewrite ep in ep'. injection ep' as <- <- <-. rewrite <- hm. f_equal. rewrite !msize_lin. f_equal.
    symmetry. apply hl, coherent_compat, hw.
  - intros d1 d2.
    refine (decon_closed (fun x => In (bname x) ["K"; "R"; "F"] -> ev (bexp x) = qc 1) _ _ _ _ _ _ ed _ _).
    + intros x p y _ hd hy hn. exfalso. cbn [bname] in hn. pose proof (defn_in (bname x) p y hd hy) as hn'. cbn in hn, hn'.
      destruct hn as [e|[e|[e|[]]]]; rewrite <- e in hn'; intuition discriminate.
    + intros y hy hn. destruct (Forall2_in_r _ _ _ _ st hy) as [x [hx [he hp]]]. rewrite he. exact (d1 x _ hx hn hp).
    + intros y hy hn. destruct (Forall2_in_r _ _ _ _ sb hy) as [x [hx [he hp]]]. rewrite he. exact (d2 x _ hx hn hp).
Qed.

(** ** The whole conversion *)
Definition side_of {T} `{Num T} (tb : tables T) (top bot : half) : res (list (unit_obj T) * list (unit_obj T) * T) :=
  let* l := conv_prepare top bot in let '(lt, lb, lf) := l in conv_factor tb lt lb lf.
Definition known_units {T} (l : list (unit_obj T)) : Prop := forall u, In u l -> exists c, get_unit_class (un u) = Ok c.
Lemma classes_known_ok {T} (l : list (unit_obj T)) : (exists cs, classes_known l = Ok cs) <-> known_units l.
Proof.
  induction l as [|u l IH]; cbn.
  - split; [intros _ v []|intros _; eexists; reflexivity].
  - unfold classes_known in *. destruct (get_unit_class (un u)) as [c|] eqn:e; cbn [bind].
    + split.
      * intros [cs h] v [<-|hv]; [exists c; exact e|]. apply (proj1 IH); [|exact hv].
        destruct (mapM _ l) as [cs'|]; [exists cs'; reflexivity|discriminate].
      * intro h. destruct (proj2 IH) as [cs' e']; [intros v hv; apply h; right; exact hv|]. rewrite e'. eexists. reflexivity.
    + split; [intros [cs h]; discriminate|]. intro h. destruct (h u (or_introl eq_refl)) as [c hc]. congruence.
Qed.

Lemma side_empty {T} `{Num T} (tb : tables T) p : parse_units "" = Ok p -> exists e, side_of tb (fst p) (snd p) = Raise e.
Proof.
  assert (e : parse_units "" = Ok ([BU "" (eflt (qc 1))], nil)) by (vm_compute; reflexivity).
  rewrite e. intro h. injection h as <-. cbn [fst snd]. unfold side_of, conv_prepare, deconstruct_unit_prefixes. cbn [mapM].
  change (split_prefix (BU "" (eflt (qc 1)))) with (Raise (A := string * bu) EIndexError). eexists. reflexivity.
Qed.

(** A conversion succeeds exactly when both sides can be prepared, the class
    totals agree and the target factor is not zero. *)
Lemma convert_eq tb (a : multi_obj R) s r : multi_convert_to tb a s = Ok r <->
  exists pt pb rt rb rf lt lb lf, parse_units s = Ok (pt, pb) /\ side_of tb pt pb = Ok (rt, rb, rf) /\
    side_of tb (mtop a) (mbot a) = Ok (lt, lb, lf) /\ known_units (rt ++ rb ++ lt ++ lb) /\
    same_dims lt lb rt rb = true /\ rf <> 0 /\ r = MO (mc a) (mv a * (lf / rf)) pt pb.
Proof.
  unfold multi_convert_to. split.
  - intro h. destruct (parse_units s) as [[pt pb]|] eqn:ep; cbn [bind fst snd] in h; [|discriminate].
    destruct (conv_prepare pt pb) as [[[rt rb] rf]|] eqn:e1; cbn [bind] in h; [|discriminate].
    destruct (conv_prepare (mtop a) (mbot a)) as [[[lt lb] lf]|] eqn:e2; cbn [bind] in h; [|discriminate].
    destruct (conv_factor tb lt lb lf) as [[[lt1 lb1] lf1]|] eqn:e3; cbn [bind] in h; [|discriminate].
    destruct (conv_factor tb rt rb rf) as [[[rt1 rb1] rf1]|] eqn:e4; cbn [bind] in h; [|discriminate].
    destruct (classes_known _) as [cs|] eqn:e5; cbn [bind] in h; [|discriminate].
    destruct (same_dims lt1 lb1 rt1 rb1) eqn:e6; [|discriminate].
    destruct (Req_dec rf1 0) as [z|z]; [subst; rewrite pydiv_0 in h; discriminate|].
    rewrite pydiv_ok in h by exact z. cbn [bind] in h. unfold mk_multi in h.
    destruct (String.eqb s "") eqn:es.
    { apply String.eqb_eq in es. subst. destruct (side_empty tb _ ep) as [e he]. cbn [fst snd] in he. unfold side_of in he.
      rewrite e1 in he. cbn [bind] in he. congruence. }
    rewrite ep in h. cbn [bind fst snd] in h. injection h as <-.
    exists pt, pb, rt1, rb1, rf1, lt1, lb1, lf1. unfold side_of. rewrite e1, e2. cbn [bind]. repeat split; auto.
    apply classes_known_ok. exists cs. exact e5.
  - intros (pt & pb & rt & rb & rf & lt & lb & lf & ep & e1 & e2 & hk & hd & hz & ->).
    rewrite ep. cbn [bind fst snd].
    destruct (String.eqb s "") eqn:es.
    { exfalso. apply String.eqb_eq in es. subst. destruct (side_empty tb _ ep) as [e he]. cbn [fst snd] in he. congruence. }
    unfold side_of in e1, e2.
    destruct (conv_prepare pt pb) as [[[rt1 rb1] rf1]|]; cbn [bind] in *; [|discriminate].
    destruct (conv_prepare (mtop a) (mbot a)) as [[[lt1 lb1] lf1]|]; cbn [bind] in *; [|discriminate].
    rewrite e2. cbn [bind]. rewrite e1. cbn [bind].
    destruct (proj2 (classes_known_ok _) hk) as [cs hcs]. rewrite hcs. cbn [bind]. rewrite hd, pydiv_ok by exact hz. cbn [bind].
    unfold mk_multi. rewrite es, ep. reflexivity.
Qed.
