(** * ConvCases: concrete conversions of compound units *)
From Coq Require Import String Ascii List ZArith QArith Qcanon Bool Reals Qreals Lia Lra.
From Verif Require Import Py Num UnitsData UnitsStruct Units NumFacts Spec SpecFacts StructFacts ExpandFacts PrefixFacts FactorFacts
  LawFacts WitnessFacts ConvSpec ConvFacts ConvLaws ConvDims ConvTotal.
Import ListNotations.
Local Open Scope string_scope.
Local Open Scope list_scope.
Local Open Scope R_scope.

(** ** The library's constants form a physical unit system *)
Lemma lib_si_pos : positive lib_si.
Proof. intro n. unfold lib_si. destruct (String.eqb n "lb"); [q2r; lra|apply si_pos]. Qed.
Lemma lib_si_eq n : n <> "lb" -> lib_si n = si n.
Proof. intro h. unfold lib_si. rewrite (proj2 (String.eqb_neq _ _) h). reflexivity. Qed.
Lemma lib_coherent : coherent lib_si.
Proof.
  destruct coherent_si as [h1 h2 h3 h4 h5 h6 h7 h8 h9]. constructor.
  - exact lib_si_pos.
  - intros p f s hp hs. rewrite !lib_si_eq; [apply h2; assumption| |].
    + intros ->. cbn in hs. repeat (destruct hs as [hs|hs]; [discriminate|]). destruct hs.
    + intro e. injection e as -> ->. cbn in hs. repeat (destruct hs as [hs|hs]; [discriminate|]). destruct hs.
  - rewrite !lib_si_eq by discriminate. exact h3.
  - rewrite !lib_si_eq by discriminate. exact h4.
  - rewrite !lib_si_eq by discriminate. exact h5.
  - rewrite !lib_si_eq by discriminate. exact h6.
  - rewrite !lib_si_eq by discriminate. exact h7.
  - rewrite !lib_si_eq by discriminate. exact h8.
  - rewrite !lib_si_eq by discriminate. exact h9.
Qed.
Lemma physical_lib : physical lib_si.
Proof.
  constructor.
  - exact lib_coherent.
  - assert (h : forallb (fun p => String.eqb (fst p) "lb" || match dict_get si_table (fst (snd p)) with
        | Some x => size_is (fst p) (snd (snd p) * x) | None => false end) multiples = true) by (vm_compute; reflexivity).
    assert (h' : forallb (fun p => negb (String.eqb (fst (snd p)) "lb")) multiples = true) by reflexivity.
    rewrite forallb_forall in h, h'. intros n s q hin. specialize (h _ hin). specialize (h' _ hin). cbn [fst snd] in h, h'.
    apply negb_true_iff, String.eqb_neq in h'. rewrite (lib_si_eq s h').
    destruct (String.eqb n "lb") eqn:e.
    + apply String.eqb_eq in e. subst n. cbn in hin.
      repeat (destruct hin as [hin|hin]; [try discriminate; injection hin as <- <-|]); [|destruct hin].
      si_val "kg" 1%Q. unfold lib_si. cbn [String.eqb Ascii.eqb Bool.eqb]. q2r. field.
    + rewrite lib_si_eq by (apply String.eqb_neq; exact e). cbn [orb] in h.
      destruct (dict_get si_table s) as [x|] eqn:ex; [|discriminate]. rewrite (size_is_si _ _ h), Q2R_mult. unfold si. rewrite ex. reflexivity.
  - rewrite !lib_si_eq by discriminate. si_val "L" (1 # 1000). si_val "m" 1%Q. q2r. field.
  - rewrite !lib_si_eq by discriminate. si_val "acre" (4046873 # 1000). si_val "m" 1%Q. q2r. field.
Qed.

(** ** Evaluating one side of a conversion *)
Lemma side_eval tb top bot tp bp d us vs us' vs' (f g : R) d' us2 vs2 :
  mapM split_prefix top = Ok tp -> mapM split_prefix bot = Ok bp ->
  deconstruct_units true (map snd tp) (map snd bp) = Ok d -> base_to_unit (fst d) = Ok us -> base_to_unit (snd d) = Ok vs ->
  (forall x, factor_loop tb false us x = Ok (us', x * f)) -> (forall x, factor_loop tb true vs x = Ok (vs', x * g)) ->
  deconstruct_units false (as_bu us') (as_bu vs') = Ok d' -> base_to_unit (fst d') = Ok us2 -> base_to_unit (snd d') = Ok vs2 ->
  side_of tb top bot = Ok (us2, vs2, msize pscale top bot * f * g).
Proof.
  intros h1 h2 h3 h4 h5 h6 h7 h8 h9 h10. unfold side_of, conv_prepare. rewrite (prefixes_eval _ _ _ _ h1 h2). cbn [bind]. rewrite h3. cbn [bind].
  rewrite h4. cbn [bind]. rewrite h5. cbn [bind]. unfold conv_factor. rewrite h6. cbn [bind fst snd]. rewrite h7. cbn [bind fst snd].
  rewrite h8. cbn [bind]. rewrite h9. cbn [bind]. rewrite h10. cbn [bind]. do 2 f_equal. cbn [nmul nq Rnum].
  replace (Q2R 1) with 1 by (q2r; field). ring.
Qed.
Lemma known_b (l : list (unit_obj R)) : forallb (fun u => match get_unit_class (un u) with Ok _ => true | Raise _ => false end) l = true -> known_units l.
Proof.
  rewrite forallb_forall. intros h u hu. specialize (h u hu). destruct (get_unit_class (un u)) as [c|]; [exists c; reflexivity|discriminate].
Qed.
(** Names without prefix have scale 1. *)
Lemma pscale_1 n : pscale_q n = 1%Q -> pscale n = 1.
Proof. intro h. rewrite pscale_eval, h. q2r. field. Qed.
Lemma msize_1 top bot : forallb (fun x => Qeq_bool (pscale_q (bname x)) 1) (top ++ bot) = true -> msize pscale top bot = 1.
Proof.
  intro h. assert (forall l, forallb (fun x => Qeq_bool (pscale_q (bname x)) 1) l = true -> usize pscale l = 1) as hu.
  { induction l as [|x l IH]; cbn; [reflexivity|]. rewrite andb_true_iff. intros [h1 h2]. rewrite (IH h2).
    apply Qeq_bool_iff, Qeq_eqR in h1. rewrite pscale_eval, h1. replace (Q2R 1) with 1 by (q2r; field).
    unfold Rpower. rewrite ln_1, Rmult_0_r, exp_0. ring. }
  rewrite forallb_app, andb_true_iff in h. destruct h as [h1 h2]. unfold msize. rewrite (hu _ h1), (hu _ h2). field.
Qed.
Ltac floop :=
  cbn -[Q2R Q2Qc pydiv];
  repeat match goal with |- context [e_is ?a ?b] => let y := eval vm_compute in (e_is a b) in change (e_is a b) with y end;
  repeat match goal with |- context [Q2R (this ?q)] => let y := eval vm_compute in (this q) in change (this q) with y end;
  cbn -[Q2R Q2Qc pydiv]; repeat (rewrite pydiv_ok by (q2r; lra); cbn -[Q2R Q2Qc pydiv]);
  apply f_equal, f_equal2; [reflexivity|]; q2r; try field.

(** ** 5 A K^-1 converted to A/K: the temperature factor is the exponent *)
Definition ak : multi_obj R := MO MMulti 5 [BU "A" (eint 1); BU "K" (eint (-1))] nil.
Definition ak_t : half := [BU "A" (eflt (qc 1))].
Definition ak_b : half := [BU "K" (eflt (qc 1))].
Lemma ak_parse : parse_units "A/K" = Ok (ak_t, ak_b).
Proof. vm_compute. repeat (f_equal; try (apply Qc_is_canon; reflexivity)). Qed.
Lemma side_val {A B : Type} (x : A) (y : B) (k k' : R) e : e = Ok (x, y, k) -> k = k' -> e = Ok (x, y, k').
Proof. intros -> ->. reflexivity. Qed.
Ltac side_tac f g := eapply side_val; [eapply (side_eval _ _ _ _ _ _ _ _ _ _ f g); [reflexivity|reflexivity|reflexivity|reflexivity|reflexivity|intro; floop|intro; floop|reflexivity|reflexivity|reflexivity]|rewrite msize_1 by reflexivity; try lra].
Definition one : R := Q2R 1.
Lemma one_1 : one = 1. Proof. unfold one. q2r. field. Qed.
Lemma ak_left : side_of tables0 (mtop ak) (mbot ak) = Ok ([UO Current one "A" (eint 1); UO Temperature one "K" (eint (-1))], nil, -1).
Proof. side_tac (-1) 1. Qed.
Lemma ak_right : side_of tables0 ak_t ak_b = Ok ([UO Current one "A" (eflt (qc 1))], [UO Temperature one "K" (eflt (qc 1))], 1).
Proof. side_tac 1 1. Qed.
Lemma ak_convert : multi_convert_to tables0 ak "A/K" = Ok (MO MMulti (-5) ak_t ak_b).
Proof.
  apply convert_eq. eexists ak_t, ak_b, _, _, _, _, _, _. split; [exact ak_parse|]. split; [exact ak_right|]. split; [exact ak_left|].
  split; [apply known_b; reflexivity|]. split; [reflexivity|]. split; [lra|]. cbn [mc mv ak]. f_equal. field.
Qed.
Lemma ak_refuted : exists a r : multi_obj R, exists s, adm_multi a /\ multi_convert_to tables0 a s = Ok r /\
  forall w, physical w -> qty w (VMulti r) <> qty w (VMulti a).
Proof.
  exists ak. eexists. exists "A/K". split; [split; adm|]. split; [exact ak_convert|]. intros w hw.
  assert (hp : positive w) by apply (co_pos w (ph_coherent w hw)).
  unfold qty. cbn [mtop mbot mv ak ak_t ak_b]. intro h. injection h as h.
  assert (p1 : 0 < msize w ak_t ak_b) by (apply msize_pos; exact hp).
  assert (p2 : 0 < msize w [BU "A" (eint 1); BU "K" (eint (-1))] nil) by (apply msize_pos; exact hp). lra.
Qed.

(** ** Conversions of equal dimension that fail *)
Lemma convert_no tb (a : multi_obj R) s pt pb rt rb rf lt lb lf : parse_units s = Ok (pt, pb) -> side_of tb pt pb = Ok (rt, rb, rf) ->
  side_of tb (mtop a) (mbot a) = Ok (lt, lb, lf) -> known_units (rt ++ rb ++ lt ++ lb) -> same_dims lt lb rt rb = false ->
  multi_convert_to tb a s = Raise EUnitConversionError.
Proof.
  intros ep e1 e2 hk hd. unfold multi_convert_to. rewrite ep. cbn [bind fst snd]. unfold side_of in e1, e2.
  destruct (conv_prepare pt pb) as [[[rt1 rb1] rf1]|]; cbn [bind] in *; [|discriminate].
  destruct (conv_prepare (mtop a) (mbot a)) as [[[lt1 lb1] lf1]|]; cbn [bind] in *; [|discriminate].
  rewrite e2. cbn [bind]. rewrite e1. cbn [bind]. destruct (proj2 (classes_known_ok _) hk) as [cs hcs]. rewrite hcs. cbn [bind].
  rewrite hd. reflexivity.
Qed.
(** N/m^2 to Pa: the newton is a base quantity for the dimension test, the pascal is expanded. *)
Definition npm (v : R) : multi_obj R := MO MMulti v [BU "N" (eflt (qc 1))] [BU "m" (eflt (qc 2))].
Definition pa_t : half := [BU "Pa" (eflt (qc 1))].
Lemma pa_parse : parse_units "Pa" = Ok (pa_t, nil).
Proof. vm_compute. repeat (f_equal; try (apply Qc_is_canon; reflexivity)). Qed.
Lemma npm_refuted v : (forall b, mdim (mtop (npm v)) (mbot (npm v)) b = mdim pa_t nil b) /\
  parse_units "Pa" = Ok (pa_t, nil) /\ multi_convert_to tables0 (npm v) "Pa" = Raise EUnitConversionError.
Proof.
  split; [intro b; destruct b; apply Qc_is_canon; reflexivity|]. split; [exact pa_parse|].
  eapply convert_no; [exact pa_parse| | | |].
  - side_tac 1 1. reflexivity.
  - side_tac 1 1. reflexivity.
  - apply known_b; reflexivity.
  - reflexivity.
Qed.
(** W*W: the single expansion pass leaves a watt, which has no class. *)
Definition ww (v : R) : multi_obj R := MO MMulti v [BU "W" (eflt (qc 1)); BU "W" (eflt (qc 1))] nil.
Lemma ww_prepare v : conv_prepare (T := R) (mtop (ww v)) (mbot (ww v)) = Raise EKeyError.
Proof. unfold conv_prepare. erewrite prefixes_eval; [|reflexivity|reflexivity]. reflexivity. Qed.
Lemma ww_refuted v s p : parse_units s = Ok p -> exists e, multi_convert_to tables0 (ww v) s = Raise e.
Proof.
  intro h. unfold multi_convert_to. rewrite h. cbn [bind].
  destruct (conv_prepare (fst p) (snd p)) as [[[rt rb] rf]|e]; [|exists e; reflexivity]. cbn [bind]. rewrite ww_prepare. eexists. reflexivity.
Qed.

(** ** Checking the hypotheses by computation *)
Definition prefixed_b (t n : string) : bool := existsb (fun p => String.eqb n (p +++ t)) [""; "m"; "c"; "d"; "k"; "M"].
Lemma prefixed_b_no t n : prefixed_b t n = false -> ~ prefixed_name t n.
Proof.
  intros h [p [hp ->]]. unfold prefixed_b in h. assert (existsb (fun q => String.eqb (p +++ t) (q +++ t)) [""; "m"; "c"; "d"; "k"; "M"] = true); [|congruence].
  apply existsb_exists. exists p. split; [exact hp|apply String.eqb_refl].
Qed.
Lemma prefixed_b_yes t n : prefixed_b t n = true -> prefixed_name t n.
Proof. intro h. apply existsb_exists in h. destruct h as [p [hp h]]. apply String.eqb_eq in h. exists p. auto. Qed.
Definition degrees_b (l : half) : bool :=
  forallb (fun x => forallb (fun t => negb (prefixed_b t (bname x)) || Qc_eq_bool (ev (bexp x)) (qc 1)) ["K"; "R"; "F"]) l.
Lemma degrees_b_ok l : degrees_b l = true -> degrees_linear l.
Proof.
  unfold degrees_b. rewrite forallb_forall. intros h x t hx ht hp. specialize (h x hx). rewrite forallb_forall in h. specialize (h t ht).
  apply orb_true_iff in h. destruct h as [h|h]; [apply negb_true_iff, prefixed_b_no in h; contradiction|apply Qceqb_eq; exact h].
Qed.
Definition after_b (D : list string) (l : half) : bool :=
  forallb (fun p => negb (existsb (fun d => prefixed_b d (bname (fst p))) derived_names) || negb (existsb (fun d => prefixed_b d (bname (snd p))) D))
    (combine l (tl l)).
Lemma nth_pair {A} (l : list A) i x y : nth_error l i = Some x -> nth_error l (S i) = Some y -> In (x, y) (combine l (tl l)).
Proof.
  revert i. induction l as [|a [|b l] IH]; intros [|i] h1 h2; cbn in h1, h2; try discriminate.
  - left. congruence.
  - right. apply (IH i); assumption.
Qed.
Lemma after_b_ok D l : after_b D l = true -> forall i x y d d', nth_error l i = Some x -> nth_error l (S i) = Some y ->
  In d derived_names -> prefixed_name d (bname x) -> In d' D -> ~ prefixed_name d' (bname y).
Proof.
  unfold after_b. rewrite forallb_forall. intros h i x y d d' h1 h2 hd hp hd' hp'. specialize (h _ (nth_pair l i x y h1 h2)). cbn [fst snd] in h.
  apply orb_true_iff in h. destruct h as [h|h]; apply negb_true_iff in h.
  - assert (hz : existsb (fun d => prefixed_b d (bname x)) derived_names = true); [|congruence]. apply existsb_exists. exists d. split; [exact hd|].
    destruct (prefixed_b d (bname x)) eqn:e; [reflexivity|]. apply prefixed_b_no in e. contradiction.
  - assert (hz : existsb (fun d => prefixed_b d (bname y)) D = true); [|congruence]. apply existsb_exists. exists d'. split; [exact hd'|].
    destruct (prefixed_b d' (bname y)) eqn:e; [reflexivity|]. apply prefixed_b_no in e. contradiction.
Qed.
Lemma convertible_b l : forallb (fun x => admissible_b (bname x)) l && after_b ["psi"; "C"] l && degrees_b l = true -> convertible_half l.
Proof.
  rewrite !andb_true_iff. intros [[h1 h2] h3]. split; [|split].
  - rewrite forallb_forall in h1. intros x hx. apply admissible_b_ok, h1, hx.
  - intros i x y d hx hy hd hp. split; apply (after_b_ok _ _ h2 i x y d _ hx hy hd hp); cbn; tauto.
  - apply degrees_b_ok, h3.
Qed.
Definition safe_b (n : string) : bool :=
  existsb (fun t => prefixed_b t n) ["m"; "g"; "s"; "A"; "K"; "mol"; "J"; "Pa"; "W"; "V"; "C"; "F"; "R"; "L"] ||
  mem_str n ["min"; "hr"; "ft"; "in"; "yd"; "lb"; "BTU"; "atm"; "bar"; "cP"; "acre"; "um"; "ug"; "uJ"; "uPa"].
Lemma safe_half_b l : forallb (fun x => safe_b (bname x)) l &&
  forallb (fun x => negb (String.eqb (bname x) "acre" || prefixed_b "L" (bname x)) || Qc_eq_bool (ev (bexp x)) (qc 1)) l &&
  forallb (fun x => negb (existsb (fun t => prefixed_b t (bname x)) ["K"; "C"; "R"; "F"]) || negb (Qc_eq_bool (ev (bexp x)) (qc 0))) l &&
  after_b ["W"; "V"; "cP"] l = true -> safe_half l.
Proof.
  rewrite !andb_true_iff, !forallb_forall. intros [[[h1 h2] h3] h4]. split; [|split; [|split]].
  - intros x hx. specialize (h1 x hx). apply orb_true_iff in h1. destruct h1 as [h|h].
    + apply existsb_exists in h. destruct h as [t [ht h]]. left. exists t. split; [exact ht|apply prefixed_b_yes, h].
    + right. apply mem_str_In, h.
  - intros x hx hp. specialize (h2 x hx). apply orb_true_iff in h2. destruct h2 as [h|h]; [|apply Qceqb_eq, h].
    apply negb_true_iff, orb_false_iff in h. destruct h as [ha hb]. apply String.eqb_neq in ha. apply prefixed_b_no in hb. tauto.
  - intros x t hx ht hp e. specialize (h3 x hx). apply orb_true_iff in h3. destruct h3 as [h|h]; apply negb_true_iff in h.
    + assert (hz : existsb (fun t => prefixed_b t (bname x)) ["K"; "C"; "R"; "F"] = true); [|congruence]. apply existsb_exists. exists t. split; [exact ht|].
      destruct (prefixed_b t (bname x)) eqn:e'; [reflexivity|]. apply prefixed_b_no in e'. contradiction.
    + rewrite (proj2 (Qceqb_eq _ _) e) in h. discriminate.
  - intros i x y d d' hx hy hd hp hd'. exact (after_b_ok _ _ h4 i x y d d' hx hy hd hp hd').
Qed.

(** 1.7 kW/m^2*K converted to BTU/hr*ft^2*F. *)
Definition htc : multi_obj R := MO (MSub "HeatTransferCoefficient") (17 / 10) [BU "kW" (eflt (qc 1))] [BU "m" (eflt (qc 2)); BU "K" (eflt (qc 1))].
Definition htc_t : half := [BU "BTU" (eflt (qc 1))].
Definition htc_b : half := [BU "hr" (eflt (qc 1)); BU "ft" (eflt (qc 2)); BU "F" (eflt (qc 1))].
Lemma htc_parse : parse_units "BTU/hr*ft^2*F" = Ok (htc_t, htc_b).
Proof. vm_compute. repeat (f_equal; try (apply Qc_is_canon; reflexivity)). Qed.
Lemma htc_convertible : Forall convertible_half [mtop htc; mbot htc; htc_t; htc_b].
Proof. apply Forall_forall. intros l [<-|[<-|[<-|[<-|[]]]]]; apply convertible_b; vm_compute; reflexivity. Qed.
Lemma htc_safe : Forall safe_half [mtop htc; mbot htc; htc_t; htc_b].
Proof. apply Forall_forall. intros l [<-|[<-|[<-|[<-|[]]]]]; apply safe_half_b; vm_compute; reflexivity. Qed.
Lemma htc_dims b : mdim (mtop htc) (mbot htc) b = mdim htc_t htc_b b.
Proof. destruct b; apply Qc_is_canon; reflexivity. Qed.
Lemma htc_converts : exists r, multi_convert_to tables0 htc "BTU/hr*ft^2*F" = Ok r.
Proof. exact (convert_total htc _ _ _ htc_parse htc_safe htc_dims). Qed.

(** ** A coulomb or psi after a derived unit is left as it is *)
Definition jc : multi_obj R := MO MMulti 5 [BU "J" (eint 1); BU "C" (eint 2)] nil.
Definition jc_t : half := [BU "J" (eflt (qc 1)); BU "A" (eflt (qc 2)); BU "s" (eflt (qc 2))].
Lemma jc_parse : parse_units "J*A^2*s^2" = Ok (jc_t, nil).
Proof. vm_compute. repeat (f_equal; try (apply Qc_is_canon; reflexivity)). Qed.
Definition jp : multi_obj R := MO MMulti 1 [BU "J" (eint 1); BU "psi" (eint 1)] nil.
Definition jp_t : half := [BU "J" (eflt (qc 1)); BU "Pa" (eflt (qc 1))].
Lemma jp_parse : parse_units "J*Pa" = Ok (jp_t, nil).
Proof. vm_compute. repeat (f_equal; try (apply Qc_is_canon; reflexivity)). Qed.

Lemma jc_convert : multi_convert_to tables0 jc "J*A^2*s^2" = Ok (MO MMulti 10 jc_t nil).
Proof.
  apply convert_eq. eexists jc_t, nil, _, _, 1, _, _, 2. split; [exact jc_parse|].
  split; [side_tac 1 1|]. split; [side_tac 2 1|].
  split; [apply known_b; reflexivity|]. split; [reflexivity|]. split; [lra|]. cbn [mc mv jc]. f_equal. field.
Qed.
Lemma QcR_eint z : QcR (ev (eint z)) = IZR z.
Proof. apply QcR_qc. Qed.
Lemma QcR_eflt z : QcR (ev (eflt (qc z))) = IZR z.
Proof. apply QcR_qc. Qed.
Lemma coulomb_refuted : exists a r : multi_obj R, exists s, adm_multi a /\ multi_convert_to tables0 a s = Ok r /\
  (forall b, mdim (mtop a) (mbot a) b = mdim (mtop r) (mbot r) b) /\ forall w, physical w -> qty w (VMulti r) <> qty w (VMulti a).
Proof.
  exists jc. eexists. exists "J*A^2*s^2". split; [split; adm|]. split; [exact jc_convert|]. split; [intros []; reflexivity|]. intros w hw.
  pose proof (ph_coherent w hw) as hc. assert (hp : positive w) by apply (co_pos w hc).
  unfold qty. cbn [mtop mbot mv jc]. intro h. injection h as h.
  assert (e : msize w [BU "J" (eint 1); BU "C" (eint 2)] nil = msize w jc_t nil).
  { rewrite !msize_lin. f_equal. f_equal. unfold jc_t. cbn [lin bname bexp]. rewrite !QcR_eint, !QcR_eflt.
    rewrite (co_C w hc), ln_mult by apply hp. lra. }
  assert (p1 : 0 < msize w jc_t nil) by (apply msize_pos; exact hp). rewrite e in h. lra.
Qed.
Lemma pow1 x : Rpowq x (qc 1) = Ok x.
Proof. rewrite Rpowq_int by (right; lia). f_equal. apply powerRZ_1. Qed.
Ltac psi_loop := cbn -[Q2R Q2Qc Rpowq e_is];
  repeat match goal with |- context [e_is ?a ?b] => let y := eval vm_compute in (e_is a b) in change (e_is a b) with y end; cbn -[Q2R Q2Qc Rpowq];
  repeat (rewrite pow1; cbn -[Q2R Q2Qc Rpowq]); apply f_equal, f_equal2; [reflexivity|]; q2r; field.
Lemma jp_convert : multi_convert_to tables0 jp "J*Pa" = Ok (MO MMulti (689476 / 100) jp_t nil).
Proof.
  apply convert_eq. eexists jp_t, nil, _, _, 1, _, _, (689476 / 100). split; [exact jp_parse|].
  split; [side_tac 1 1|]. split.
  { eapply side_val; [eapply (side_eval _ _ _ _ _ _ _ _ _ _ (689476 / 100) 1);
      [reflexivity|reflexivity|reflexivity|reflexivity|reflexivity|intro x; psi_loop|intro; floop|reflexivity|reflexivity|reflexivity]|rewrite msize_1 by reflexivity; lra]. }
  split; [apply known_b; reflexivity|]. split; [reflexivity|]. split; [lra|]. cbn [mc mv jp]. f_equal. field.
Qed.
Lemma psi_refuted : exists a r : multi_obj R, exists s, adm_multi a /\ multi_convert_to tables0 a s = Ok r /\
  qty lib_si (VMulti r) <> qty lib_si (VMulti a).
Proof.
  exists jp. eexists. exists "J*Pa". split; [split; adm|]. split; [exact jp_convert|].
  pose proof lib_coherent as hc. pose proof physical_lib as hw. assert (hp : positive lib_si) by apply (co_pos _ hc).
  unfold qty. cbn [mtop mbot mv jp]. intro h. injection h as h.
  set (w := lib_si) in *.
  assert (e : msize w [BU "J" (eint 1); BU "psi" (eint 1)] nil = w "J" * w "psi").
  { rewrite msize_lin. cbn [lin bname bexp]. rewrite !QcR_eint.
    replace (1 * ln (w "J") + (1 * ln (w "psi") + 0) - 0) with (ln (w "J") + ln (w "psi")) by lra.
    rewrite exp_plus, !exp_ln by apply hp. reflexivity. }
  assert (e' : msize w jp_t nil = w "J" * w "Pa").
  { rewrite msize_lin. unfold jp_t. cbn [lin bname bexp]. rewrite !QcR_eflt.
    replace (1 * ln (w "J") + (1 * ln (w "Pa") + 0) - 0) with (ln (w "J") + ln (w "Pa")) by lra.
    rewrite exp_plus, !exp_ln by apply hp. reflexivity. }
  rewrite e, e' in h. rewrite (co_psi _ hc) in h. subst w. rewrite !lib_si_eq in h by discriminate.
  revert h. si_val "J" 1%Q. si_val "Pa" 1%Q. si_val "lbf" (444822 # 100000). si_val "in" (254 # 10000). q2r. lra.
Qed.
