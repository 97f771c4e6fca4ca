(** * ConvTotal: conversions of equal dimension succeed for the safe units *)
From Coq Require Import String Ascii List ZArith QArith Qcanon Bool Reals Qreals Lia Lra.
From Verif Require Import Py Num UnitsData UnitsStruct Units NumFacts Spec SpecFacts StructFacts CombineFacts CancelFacts
  ExpandFacts PrefixFacts SimplifyFacts OpFacts NamesFacts ClosureFacts FactorFacts LawFacts WitnessFacts ConvSpec ConvFacts
  ConvLaws ConvDims.
Import ListNotations.
Local Open Scope string_scope.
Local Open Scope list_scope.
Local Open Scope R_scope.

Definition safe_reach : list string :=
  ["K"; "C"; "R"; "F"; "m"; "ft"; "in"; "yd"; "um"; "A"; "s"; "min"; "hr"; "g"; "kg"; "lb"; "ug"; "J"; "uJ"; "BTU";
   "Pa"; "uPa"; "atm"; "bar"; "L"; "acre"; "mol"].
(** A unit that one step can handle. *)
Definition fit (x : bu) : Prop :=
  (bname x = "L" \/ bname x = "acre" -> ev (bexp x) = qc 1) /\
  (In (bname x) ["K"; "C"; "R"; "F"] -> ev (bexp x) <> qc 0).
Definition stage_safe : list string := ["K"; "C"; "R"; "F"; "m"; "s"; "kg"; "J"; "Pa"; "A"; "mol"].

Lemma table_ok (c : ucls) n s (q : R) e :
  0 < q -> mem_str n ["K"; "C"] = false -> mem_str n ["R"; "F"] = false -> mem_str n UNIT_COMPOSITES = false ->
  standard c = Some s -> has_char "^" s = false -> String.eqb n s = false ->
  (exists f, tab_get (to_standard0 (T := R) c) n = Ok f /\ f 1 = Ok q) ->
  (forall (v : R) ex, mk_unit c v s ex = Ok (UO c v s ex)) ->
  exists u', convert_and_get_factor tables0 (UO c 1 n e) = Ok u' /\ uv u' <> 0 /\ un u' = s.
Proof.
  intros hq h1 h2 h3 hs hc hn [f [hf hf1]] hm. unfold convert_and_get_factor. cbn [un uc uv ue].
  rewrite h1, h2, hs.
  assert (core : forall ex, unit_convert_core tables0 (UO c 1 n e) s s ex = Ok (UO c (Rpower q (QcR (ev ex))) s ex)).
  { intro ex. unfold unit_convert_core. cbn [un uc uv ue]. rewrite hn, hs, String.eqb_refl. unfold to_val. cbn [to_standard tables0].
    rewrite hf. cbn [bind]. rewrite hf1. cbn [bind npow Rnum]. rewrite (Rpowq_pos q (ev ex) hq). cbn [bind]. apply hm. }
  destruct (e_is e 1) eqn:e1.
  - unfold unit_convert_to. cbn [un]. rewrite h3, hc, core. eexists. split; [reflexivity|]. cbn. pose proof (Rpower_pos q (QcR (ev (eint 1)))).
    split; [apply Rgt_not_eq; assumption|reflexivity].
  - rewrite hc, core. eexists. split; [reflexivity|]. cbn. pose proof (Rpower_pos q (QcR (ev (eflt (ev e))))).
    split; [apply Rgt_not_eq; assumption|reflexivity].
Qed.
Lemma same_ok (c : ucls) s e :
  mem_str s ["K"; "C"] = false -> mem_str s ["R"; "F"] = false -> mem_str s UNIT_COMPOSITES = false ->
  standard c = Some s -> has_char "^" s = false ->
  exists u', convert_and_get_factor tables0 (UO c (1 : R) s e) = Ok u' /\ uv u' <> 0 /\ un u' = s.
Proof.
  intros h1 h2 h3 hs hc. unfold convert_and_get_factor. cbn [un uc uv ue]. rewrite h1, h2, hs.
  exists (UO c 1 s e). cbn [uv un]. split; [|split; [lra|reflexivity]]. destruct (e_is e 1).
  - unfold unit_convert_to, unit_convert_core. cbn [un]. rewrite h3, hc, String.eqb_refl. reflexivity.
  - unfold unit_convert_core. cbn [un]. rewrite hc, String.eqb_refl. reflexivity.
Qed.

Lemma step_ok n e : In n safe_reach -> fit (BU n e) ->
  exists c u u', get_unit_class n = Ok c /\ mk_unit c (1 : R) n e = Ok u /\ convert_and_get_factor tables0 u = Ok u' /\
    uv u' <> 0 /\ In (un u') stage_safe.
Proof.
  intros hn [hl hd]. cbn [bname bexp] in *.
  Local Ltac tok c s q :=
    match goal with |- exists _ _ _, get_unit_class ?n = _ /\ _ =>
    match goal with e : expo |- _ =>
      exists c, (UO c 1 n e); destruct (table_ok c n s q e) as [u' [h1 [h2 h3]]];
      [q2r; lra|reflexivity|reflexivity|reflexivity|reflexivity|reflexivity|reflexivity
      |eexists; split; [reflexivity|]; cbv [times over nmul ndiv nq Rnum]; f_equal; q2r; field
      |intros; reflexivity|];
      exists u'; split; [reflexivity|]; split; [reflexivity|]; split; [exact h1|]; split; [exact h2|rewrite h3; cbn; tauto]
    end end.
  Local Ltac sok c :=
    match goal with |- exists _ _ _, get_unit_class ?n = _ /\ _ =>
    match goal with e : expo |- _ =>
      exists c, (UO c 1 n e); destruct (same_ok c n e) as [u' [h1 [h2 h3]]]; try reflexivity;
      exists u'; split; [reflexivity|]; split; [reflexivity|]; split; [exact h1|]; split; [exact h2|rewrite h3; cbn; tauto]
    end end.
  assert (deg : forall x, 0 < x -> ev e <> qc 0 -> 1 * (x * Q2R (this (ev e))) <> 0).
  { intros x hx he h0. apply he, QcR_inj. rewrite QcR_qc. unfold QcR. nra. }
  Local Ltac dok x :=
    match goal with hd : In ?n _ -> _, deg : forall _, _ |- _ =>
    match goal with e : expo |- _ =>
      exists Temperature, (UO Temperature 1 n e); eexists; split; [reflexivity|]; split; [reflexivity|]; split; [reflexivity|];
      cbn [uv un]; split; [|cbn; tauto]
    end end.
  cbn in hn.
  destruct hn as [<-|hn]. { dok 1. cbn [nmul nq Rnum uv]. intro h0. apply (deg 1 Rlt_0_1 (hd ltac:(cbn; tauto))). cbn [ue] in h0. lra. }
  destruct hn as [<-|hn]. { dok 1. cbn [nmul nq Rnum uv]. intro h0. apply (deg 1 Rlt_0_1 (hd ltac:(cbn; tauto))). cbn [ue] in h0. lra. }
  destruct hn as [<-|hn]. { dok 1. cbn [nmul nq Rnum uv]. apply deg; [q2r; lra|]. apply hd. cbn. tauto. }
  destruct hn as [<-|hn]. { dok 1. cbn [nmul nq Rnum uv]. apply deg; [q2r; lra|]. apply hd. cbn. tauto. }
  destruct hn as [<-|hn]. { sok Length. }
  destruct hn as [<-|hn]. { tok Length "m" (Q2R (3048 # 10000)). }
  destruct hn as [<-|hn]. { tok Length "m" (Q2R (254 # 10000)). }
  destruct hn as [<-|hn]. { tok Length "m" (Q2R (9144 # 10000)). }
  destruct hn as [<-|hn]. { tok Length "m" (/ 1000000). }
  destruct hn as [<-|hn]. { sok Current. }
  destruct hn as [<-|hn]. { sok Time. }
  destruct hn as [<-|hn]. { tok Time "s" 60. }
  destruct hn as [<-|hn]. { tok Time "s" 3600. }
  destruct hn as [<-|hn]. { tok Mass "kg" (/ 1000). }
  destruct hn as [<-|hn]. { sok Mass. }
  destruct hn as [<-|hn]. { tok Mass "kg" (Q2R (453592 # 1000000)). }
  destruct hn as [<-|hn]. { tok Mass "kg" (/ 1000000000). }
  destruct hn as [<-|hn]. { sok Energy. }
  destruct hn as [<-|hn]. { tok Energy "J" (/ 1000000). }
  destruct hn as [<-|hn]. { tok Energy "J" (Q2R (1055056 # 1000)). }
  destruct hn as [<-|hn]. { sok Pressure. }
  destruct hn as [<-|hn]. { tok Pressure "Pa" (/ 1000000). }
  destruct hn as [<-|hn]. { tok Pressure "Pa" 101325. }
  destruct hn as [<-|hn]. { tok Pressure "Pa" 100000. }
  destruct hn as [<-|hn].
  { exists Volume, (UO Volume 1 "L" e), (UO Volume (/ 1000) "m" (eflt (qc 3))). split; [reflexivity|]. split; [reflexivity|].
    split; [|split; [cbn [uv]; lra|cbn; tauto]].
    assert (e1 : e_is e 1 = true) by (apply expo_z; rewrite hl by auto; apply QcR_qc).
    unfold convert_and_get_factor. cbn [un uc uv ue].
    change (mem_str "L" ["K"; "C"]) with false. change (mem_str "L" ["R"; "F"]) with false. cbn [standard]. rewrite e1.
    unfold unit_convert_to. cbn [un]. change (mem_str "L" UNIT_COMPOSITES) with true.
    change (split_on "^" "m^3") with ["m"; "3"]. cbn [bind]. rewrite py_float_3. cbn [bind].
    unfold unit_convert_core. cbn [un uc uv ue standard]. change (String.eqb "L" "m^3") with false. rewrite String.eqb_refl.
    assert (ht : to_val tables0 Volume "L" (1 : R) (eflt (qc 3)) = Ok (/ 1000)).
    { unfold to_val. change (tab_get (to_standard tables0 Volume) "L") with (Ok (over (T := R) (10 # 1))). cbn [bind].
      cbv [over ndiv nq Rnum npow]. cbn [bind]. rewrite Rpowq_pos by (q2r; lra). f_equal. cbn [ev eflt]. rewrite QcR_qc.
      replace (IZR 3) with (INR 3) by (cbn; lra). rewrite Rpower_pow by (q2r; lra). q2r. field. }
    rewrite ht. reflexivity. }
  destruct hn as [<-|hn].
  { exists Area, (UO Area 1 "acre" e), (UO Area (Q2R (4046873 # 1000)) "m" (eflt (qc 2))). split; [reflexivity|]. split; [reflexivity|].
    split; [|split; [cbn [uv]; q2r; lra|cbn; tauto]].
    assert (e1 : e_is e 1 = true) by (apply expo_z; rewrite hl by auto; apply QcR_qc).
    unfold convert_and_get_factor. cbn [un uc uv ue].
    change (mem_str "acre" ["K"; "C"]) with false. change (mem_str "acre" ["R"; "F"]) with false. cbn [standard]. rewrite e1.
    unfold unit_convert_to. cbn [un]. change (mem_str "acre" UNIT_COMPOSITES) with true.
    change (split_on "^" "m^2") with ["m"; "2"]. cbn [bind]. rewrite py_float_2. cbn [bind].
    unfold unit_convert_core. cbn [un uc uv ue standard]. change (String.eqb "acre" "m^2") with false. rewrite String.eqb_refl.
    assert (ht : to_val tables0 Area "acre" (1 : R) (eflt (qc 2)) = Ok (Q2R (4046873 # 1000))).
    { unfold to_val. change (tab_get (to_standard tables0 Area) "acre")
        with (Ok (fun x : R => let* r := Rpowq (Q2R (4046873 # 1000)) (Q2Qc (1 # 2)) in Ok (x * r))). cbn [bind].
      assert (hq : 0 < Q2R (4046873 # 1000)) by (q2r; lra).
      rewrite Rpowq_pos by exact hq. cbn [bind npow Rnum]. rewrite Rpowq_pos by (rewrite Rmult_1_l; apply Rpower_pos).
      f_equal. cbn [ev eflt]. rewrite Rmult_1_l, QcR_qc, QcR_Q2Qc, Rpower_mult.
      replace (Q2R (1 # 2) * 2) with 1 by (q2r; lra). apply Rpower_1. exact hq. }
    rewrite ht. reflexivity. }
  destruct hn as [<-|hn]. { sok Amount. }
  destruct hn.
Qed.

(** ** The loops *)
Lemma base_total l : (forall x, In x l -> In (bname x) safe_reach /\ fit x) ->
  exists us, base_to_unit l = Ok us /\
    forall inv (f : R), f <> 0 -> exists us' f', factor_loop tables0 inv us f = Ok (us', f') /\ f' <> 0 /\
      allb (fun x => In (bname x) stage_safe) (as_bu us').
Proof.
  induction l as [|x l IH]; intro h.
  - exists nil. split; [reflexivity|]. intros inv f hf. exists nil, f. split; [reflexivity|]. split; [exact hf|intros y []].
  - destruct IH as [us [e IH]]; [intros y hy; apply h; right; exact hy|].
    destruct (h x (or_introl eq_refl)) as [h1 h2]. destruct x as [n ex]. cbn [bname] in h1.
    destruct (step_ok n ex h1 h2) as (c & u & u' & e1 & e2 & e3 & e4 & e5).
    exists (u :: us). split.
    + unfold base_to_unit in *. cbn [mapM bname bexp]. rewrite e1. cbn [bind]. change (nq 1) with (Q2R 1) in *. rewrite Q2R1 in *.
      rewrite e2. cbn [bind]. rewrite e. reflexivity.
    + intros inv f hf. cbn [factor_loop]. rewrite e3. cbn [bind].
      assert (hg : exists g, (if inv then pydiv (nq 1) (uv u') else Ok (uv u')) = Ok g /\ g <> 0).
      { destruct inv; [|exists (uv u'); auto]. rewrite pydiv_ok by exact e4. eexists. split; [reflexivity|].
        cbn [nq Rnum]. rewrite Q2R1. unfold Rdiv. rewrite Rmult_1_l. apply Rinv_neq_0_compat. exact e4. }
      destruct hg as [g [hg gz]]. rewrite hg. cbn [bind].
      destruct (IH inv (nmul f g)) as [us' [f' [e6 [e7 e8]]]]; [apply Rmult_integral_contrapositive; auto|].
      rewrite e6. cbn [bind fst snd]. eexists _, _. split; [reflexivity|]. split; [exact e7|].
      cbn [as_bu map]. apply allb_cons. split; [exact e5|exact e8].
Qed.

Definition fin_safe : list string := ["K"; "R"; "F"; "m"; "s"; "kg"; "A"; "mol"].
Lemma stage_safe_closed x p y : In (bname x) stage_safe -> defn (bname x) = Some p -> In y (fst p ++ snd p) -> In (bname y) stage_safe.
Proof.
  intros hx. unfold defn. cbn in hx.
  repeat (destruct hx as [<-|hx]; [cbn; intro h; try discriminate; injection h as <-; cbn; intro hy;
    repeat (destruct hy as [<-|hy]; [cbn; tauto|]); destruct hy|]).
  destruct hx.
Qed.
Lemma stage_safe_fin n : In n stage_safe -> ~ In n derived_names -> In n fin_safe.
Proof. cbn. intros h hn. repeat (destruct h as [<-|h]; [tauto|]). destruct h. Qed.
Lemma fin_safe_fin n : In n fin_safe -> In n fin_names.
Proof. cbn. tauto. Qed.
Lemma fin_base l : (forall x, In x l -> In (bname x) fin_safe) -> exists us : list (unit_obj R), base_to_unit l = Ok us /\ known_units us.
Proof.
  induction l as [|x l IH]; intro h; [exists nil; split; [reflexivity|intros u []]|].
  destruct IH as [us [e k]]; [intros y hy; apply h; right; exact hy|].
  pose proof (h x (or_introl eq_refl)) as hx. destruct x as [n ex]. cbn [bname] in hx.
  assert (hs : exists c, get_unit_class n = Ok c /\ mk_unit c (nq 1) n ex = Ok (UO c (nq 1 : R) n ex)).
  { cbn in hx. repeat (destruct hx as [<-|hx]; [eexists; split; reflexivity|]). destruct hx. }
  destruct hs as [c [e1 e2]]. exists (UO c (nq 1) n ex :: us). split.
  - unfold base_to_unit in *. cbn [mapM bname bexp]. rewrite e1. cbn [bind]. rewrite e2. cbn [bind]. rewrite e. reflexivity.
  - intros u [<-|hu]; [exists c; exact e1|apply k; exact hu].
Qed.

(** ** Class totals are the dimensions *)
Definition cls_base (c : ucls) : option base :=
  match c with
  | Mass => Some DMass | Length => Some DLength | Time => Some DTime | Temperature => Some DTemp
  | Current => Some DCurrent | Amount => Some DAmount | _ => None
  end.
Lemma ctot_base c b l : cls_base c = Some b -> (forall x, In x l -> In (bname x) fin_safe) -> QcR (ctot c l) = lin (phi b) l.
Proof.
  intro hc. induction l as [|x l IH]; intro h; cbn [ctot fold_right lin]; [apply QcR_qc|]. fold (ctot c l).
  rewrite <- IH by (intros y hy; apply h; right; exact hy).
  specialize (h x (or_introl eq_refl)). destruct x as [n e]. cbn [bname bexp] in *.
  assert (hp : phi b n = if ucls_eqb c (cls_of n) then 1 else 0).
  { cbn in h. destruct c; try discriminate; injection hc as <-; repeat (destruct h as [<-|h]; [reflexivity|]); destruct h. }
  rewrite hp. destruct (ucls_eqb c (cls_of n)); [rewrite QcR_plus|]; ring.
Qed.
Lemma ctot_none c l : cls_base c = None -> (forall x, In x l -> In (bname x) fin_safe) -> ctot c l = qc 0.
Proof.
  intro hc. induction l as [|x l IH]; intro h; cbn [ctot fold_right]; [reflexivity|]. fold (ctot c l).
  rewrite IH by (intros y hy; apply h; right; exact hy).
  specialize (h x (or_introl eq_refl)). destruct x as [n e]. cbn [bname bexp] in *.
  assert (hp : ucls_eqb c (cls_of n) = false).
  { cbn in h. destruct c; try discriminate; repeat (destruct h as [<-|h]; [reflexivity|]); destruct h. }
  rewrite hp. reflexivity.
Qed.
Definition dim_total (c : ucls) (top bot : half) : Qc :=
  match cls_base c with Some b => mdim top bot b | None => qc 0 end.

(** ** Preparing a safe half *)
Definition bare : list string :=
  ["m"; "g"; "s"; "A"; "K"; "mol"; "J"; "Pa"; "W"; "V"; "C"; "F"; "R"; "L"; "kg";
   "min"; "hr"; "ft"; "in"; "yd"; "lb"; "BTU"; "atm"; "bar"; "cP"; "acre"; "um"; "ug"; "uJ"; "uPa"].
Lemma safe_list n : safe_name n -> In n (flat_map (fun p => map (fun t => p +++ t) ["m"; "g"; "s"; "A"; "K"; "mol"; "J"; "Pa"; "W"; "V"; "C"; "F"; "R"; "L"])
   [""; "m"; "c"; "d"; "k"; "M"] ++ ["min"; "hr"; "ft"; "in"; "yd"; "lb"; "BTU"; "atm"; "bar"; "cP"; "acre"; "um"; "ug"; "uJ"; "uPa"]).
Proof.
  intros [[t [ht [p [hp ->]]]]|h]; apply in_or_app; [left|right; exact h].
  apply in_flat_map. exists p. split; [exact hp|]. apply in_map. exact ht.
Qed.
Lemma safe_bare n : safe_name n -> known_name n /\ n <> "" /\ (exists p y, split_prefix (BU n (eint 1)) = Ok (p, y) /\ In (bname y) bare).
Proof.
  intro h. apply safe_list in h.
  match type of h with In n ?l => assert (A : forallb (fun n => (match dict_get dim_table n with Some _ => true | None => false end)
    && negb (String.eqb n "") && match split_prefix (BU n (eint 1)) with Ok (_, y) => mem_str (bname y) bare | _ => false end) l = true)
    by (vm_compute; reflexivity) end.
  rewrite forallb_forall in A. specialize (A n h). apply andb_true_iff in A. destruct A as [A A3].
  apply andb_true_iff in A. destruct A as [A1 A2]. split; [|split].
  - unfold known_name. destruct (dict_get dim_table n); [discriminate|discriminate].
  - apply negb_true_iff, String.eqb_neq in A2. exact A2.
  - destruct (split_prefix (BU n (eint 1))) as [[p y]|]; [|discriminate]. exists p, y. split; [reflexivity|]. apply mem_str_In. exact A3.
Qed.
Lemma split_exp n e e' p y : split_prefix (BU n e) = Ok (p, y) -> split_prefix (BU n e') = Ok (p, BU (bname y) e').
Proof.
  unfold split_prefix. cbn [bname bexp]. destruct (String.eqb n "kg"); [intro h; injection h as <- <-; reflexivity|].
  destruct (get_prefix n) as [[p' r]|]; [|discriminate]. cbn [bind fst snd]. intro h. injection h as <- <-. reflexivity.
Qed.

Lemma bare_closed x p y : In (bname x) bare -> defn (bname x) = Some p -> In y (fst p ++ snd p) -> In (bname y) bare.
Proof.
  intros hx. unfold defn. cbn in hx.
  repeat (destruct hx as [<-|hx]; [cbn; intro h; try discriminate; injection h as <-; cbn; intro hy;
    repeat (destruct hy as [<-|hy]; [cbn; tauto|]); destruct hy|]).
  destruct hx.
Qed.
Definition WVcP (n : string) : Prop := In n ["W"; "V"; "cP"].
Lemma safe_strip l : safe_half l -> exists ps, mapM split_prefix l = Ok ps /\
  (forall y, In y (map snd ps) -> In (bname y) bare /\ fit y) /\ sparse WVcP (map snd ps).
Proof.
  intros [hn [hL [hd hs]]].
  assert (hm : exists ps, mapM split_prefix l = Ok ps /\ forall y, In y (map snd ps) -> In (bname y) bare).
  { clear hL hd hs. induction l as [|x l IH]; [exists nil; split; [reflexivity|intros y []]|].
    destruct IH as [ps [e h]]; [intros y hy; apply hn; right; exact hy|].
    destruct (safe_bare _ (hn x (or_introl eq_refl))) as [_ [_ [p [y [e1 e2]]]]]. destruct x as [n ex]. cbn [bname] in e1.
    exists ((p, BU (bname y) ex) :: ps). cbn [mapM]. rewrite (split_exp _ _ ex _ _ e1). cbn [bind]. rewrite e. split; [reflexivity|].
    cbn [map snd]. intros z [<-|hz]; [exact e2|apply h; exact hz]. }
  destruct hm as [ps [e hb]]. exists ps. split; [exact e|]. pose proof (mapM_strips l ps e) as hst. split.
  - intros y hy. split; [exact (hb y hy)|]. destruct (Forall2_in_r _ _ _ _ hst hy) as [x [hx [he hp]]]. split.
    + intros [h|h]; rewrite he; apply (hL x hx); rewrite h in hp.
      * right. exact hp.
      * left. destruct hp as [p [hp e']]. pose proof (hn x hx) as hsn.
        apply safe_list in hsn. rewrite e' in hsn |- *. cbn in hp.
        destruct hp as [<-|[<-|[<-|[<-|[<-|[<-|[]]]]]]]; [reflexivity|..]; exfalso; revert hsn;
          match goal with |- In ?a ?l -> _ => assert (A : mem_str a l = false) by (vm_compute; reflexivity); intro hi; apply mem_str_In in hi; congruence end.
    + intro h. rewrite he. exact (hd x _ hx h hp).
  - revert hs. generalize hst. generalize (map snd ps). clear. intros t hst hs.
    induction hst as [|x y l t [_ hx] f IH]; [exact I|]. split.
    + intro hd. destruct f as [|x' y' l t [_ hx'] f]; [exact I|].
      intro hw. exact (hs O x x' (bname y) (bname y') eq_refl eq_refl hd hx hw hx').
    + apply IH. intros i u v. exact (hs (S i) u v).
Qed.

Lemma bare_reach x : In (bname x) bare -> ~ WVcP (bname x) -> In (bname x) safe_reach.
Proof. generalize (bname x). intro n. unfold WVcP. cbn. intros h hn. repeat (destruct h as [<-|h]; [tauto|]). destruct h. Qed.

Lemma side_total top bot : safe_half top -> safe_half bot ->
  exists us vs (f : R), side_of tables0 top bot = Ok (us, vs, f) /\ f <> 0 /\ known_units (us ++ vs) /\
    forall c, class_total c us vs = dim_total c top bot.
Proof.
  intros s1 s2. destruct (safe_strip top s1) as [tp [e1 [b1 w1]]]. destruct (safe_strip bot s2) as [bp [e2 [b2 w2]]].
  assert (kn : forall x, In x (top ++ bot) -> known_name (bname x)).
  { intros x hx. apply in_app_or in hx. destruct hx as [hx|hx]; apply safe_bare; [apply s1|apply s2]; exact hx. }
  assert (nz : forall x, In x (top ++ bot) -> bname x <> EmptyString).
  { intros x hx. apply in_app_or in hx. destruct hx as [hx|hx]; apply safe_bare; [apply s1|apply s2]; exact hx. }
  destruct (prefixes_total top bot nz) as [t1 [bb1 ep]]. set (f1 := msize pscale top bot) in ep.
  assert (st : t1 = map snd tp /\ bb1 = map snd bp).
  { unfold deconstruct_unit_prefixes in ep. rewrite e1, e2 in ep. cbn [bind] in ep.
    destruct (prefix_loop false tp _); cbn [bind] in ep; [|discriminate]. destruct (prefix_loop true bp _); cbn [bind] in ep; [|discriminate].
    injection ep as <- <- _. auto. }
  destruct st as [-> ->].
  assert (f1p : 0 < f1) by apply msize_pos.
  destruct (deconstruct_ok true (map snd tp) (map snd bp)) as [t2 [bb2 [ed [hl _]]]].
  destruct (one_pass_clears (fun _ => True) WVcP) with (top := map snd tp) (bot := map snd bp) (t := t2) (b := bb2) as [c1 c2]; auto.
  { unfold WVcP. intros n h. cbn in *. tauto. }
  { intros n p _ hd x hx. split; [exact I|]. unfold WVcP. intro h. pose proof (defn_in n p x hd hx) as h'. cbn in h, h'.
    destruct h as [e|[e|[e|[]]]]; rewrite <- e in h'; intuition discriminate. }
  { intros x _. exact I. }
  { intros x _. exact I. }
  assert (pc : allb (fun x => In (bname x) bare /\ fit x) t2 /\ allb (fun x => In (bname x) bare /\ fit x) bb2).
  { refine (decon_closed _ _ _ _ _ _ _ ed b1 b2).
    intros x p y hx hd hy. pose proof (defn_in (bname x) p y hd hy) as hn. unfold fit. cbn [bname bexp].
    split; [exact (bare_closed x p y (proj1 hx) hd hy)|]. cbn in hn. split; intro h; exfalso.
    - destruct h as [e|e]; rewrite e in hn; intuition discriminate.
    - cbn in h. destruct h as [e|[e|[e|[e|[]]]]]; rewrite <- e in hn; intuition discriminate. }
  destruct pc as [pc1 pc2].
  destruct (base_total t2) as [us1 [e3 l1]]; [intros x hx; destruct (pc1 x hx); split; [apply bare_reach; auto|assumption]|].
  destruct (base_total bb2) as [vs1 [e4 l2]]; [intros x hx; destruct (pc2 x hx); split; [apply bare_reach; auto|assumption]|].
  destruct (l1 false (nmul (nq 1) f1)) as [us2 [f2 [e5 [z2 g1]]]].
  { cbn [nmul nq Rnum]. rewrite Q2R1. lra. }
  destruct (l2 true f2 z2) as [vs2 [f3 [e6 [z3 g2]]]].
  destruct (deconstruct_ok false (as_bu us2) (as_bu vs2)) as [t3 [b3 [ed2 [hl2 hd2]]]].
  destruct (decon_closed (fun x => In (bname x) stage_safe) (fun x p y hx hp hy => stage_safe_closed x p y hx hp hy) _ _ _ _ _ ed2 g1 g2) as [q1 q2].
  assert (hf : forall x, In x (t3 ++ b3) -> In (bname x) fin_safe).
  { intros x hx. apply stage_safe_fin; [|apply (hd2 eq_refl); exact hx]. apply in_app_or in hx. destruct hx; auto. }
  destruct (fin_base t3) as [us3 [e7 k1]]; [intros x hx; apply hf, in_or_app; auto|].
  destruct (fin_base b3) as [vs3 [e8 k2]]; [intros x hx; apply hf, in_or_app; auto|].
  assert (hs : side_of tables0 top bot = Ok (us3, vs3, f3)).
  { unfold side_of, conv_prepare. rewrite ep. cbn [bind]. rewrite ed. cbn [bind fst snd]. rewrite e3. cbn [bind]. rewrite e4. cbn [bind].
    unfold conv_factor. rewrite e5. cbn [bind fst snd]. rewrite e6. cbn [bind fst snd]. rewrite ed2. cbn [bind fst snd].
    rewrite e7. cbn [bind]. rewrite e8. reflexivity. }
  exists us3, vs3, f3. split; [exact hs|]. split; [exact z3|]. split.
  - intros u hu. apply in_app_or in hu. destruct hu; auto.
  - intro c. assert (hf' : forall x, In x (t3 ++ b3) -> In (bname x) fin_names) by (intros x hx; apply fin_safe_fin, hf, hx).
    pose proof (class_total_ctot c t3 b3 us3 vs3 hf' (base_named _ _ e7) (base_named _ _ e8)) as hc.
    assert (ht : forall x, In x t3 -> In (bname x) fin_safe) by (intros x hx; apply hf, in_or_app; auto).
    assert (hb : forall x, In x b3 -> In (bname x) fin_safe) by (intros x hx; apply hf, in_or_app; auto).
    unfold dim_total. destruct (cls_base c) as [bs|] eqn:eb.
    + apply QcR_inj. rewrite (side_dim _ _ _ _ _ bs kn hs).
      transitivity (lin (phi bs) t3 - lin (phi bs) b3).
      * rewrite hc, QcR_minus, (ctot_base c bs t3 eb ht), (ctot_base c bs b3 eb hb). reflexivity.
      * rewrite !lin_phi by (intros x hx; apply hf', in_or_app; auto).
        symmetry. etransitivity; [apply (Csum_ext _ (fun c => QcR (ctot c t3) * sref bs c + - (QcR (ctot c b3) * sref bs c)))|].
        -- intro d. rewrite (class_total_ctot d t3 b3 us3 vs3 hf' (base_named _ _ e7) (base_named _ _ e8)). rewrite QcR_minus. ring.
        -- rewrite <- Csum_add, Csum_opp. lra.
    + rewrite hc, (ctot_none c t3 eb ht), (ctot_none c b3 eb hb). apply Qc_is_canon. reflexivity.
Qed.

Lemma convert_total (a : multi_obj R) s pt pb : parse_units s = Ok (pt, pb) ->
  Forall safe_half [mtop a; mbot a; pt; pb] -> (forall b, mdim (mtop a) (mbot a) b = mdim pt pb b) ->
  exists r, multi_convert_to tables0 a s = Ok r.
Proof.
  intros hp hs hd. inversion hs as [|x1 x2 a1 hs1]; subst. inversion hs1 as [|x3 x4 a2 hs2]; subst.
  inversion hs2 as [|x5 x6 a3 hs3]; subst. inversion hs3 as [|x7 x8 a4 _]; subst.
  destruct (side_total _ _ a1 a2) as (lt & lb & lf & e1 & z1 & k1 & c1).
  destruct (side_total _ _ a3 a4) as (rt & rb & rf & e2 & z2 & k2 & c2).
  eexists. apply convert_eq. exists pt, pb, rt, rb, rf, lt, lb, lf. split; [exact hp|]. split; [exact e2|]. split; [exact e1|].
  split; [|split; [|split; [exact z2|reflexivity]]].
  - intros u hu. rewrite app_assoc in hu. apply in_app_or in hu. destruct hu as [hu|hu]; [apply k2|apply k1]; exact hu.
  - apply same_dims_iff. intro c. rewrite c1, c2. unfold dim_total. destruct (cls_base c); [apply hd|reflexivity].
Qed.
