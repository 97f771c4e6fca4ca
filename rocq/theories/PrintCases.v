(** * PrintCases: which objects print, and examples *)
From Coq Require Import String Ascii List ZArith QArith Qcanon Bool Reals Qreals Lia Lra.
From Coq Require Import Floats.SpecFloat.
From Verif Require Import Py Num NumFacts UnitsData UnitsStruct Units Spec RangeSpec TextSpec TextFacts ShowFacts TextPropFacts Correlations Print PrintSpec PrintFacts PrintTextFacts.
Import ListNotations.
Local Open Scope string_scope.
Local Open Scope list_scope.

Lemma number_text v : held_num v -> exists n, num_str v = Ok (num_text n) /\ num_ok n /\
  match v with PInt z => (num_val n == inject_Z z)%Q | PFloat x => nearest64 (Q2R (num_val n)) x end.
Proof.
  destruct v as [z|x]; cbn [held_num num_str]; intro h.
  - destruct (show_Z_num z) as (n & h1 & _ & _ & h4 & h5). exists n. rewrite h4. auto.
  - destruct (float_text_ok x h) as (n & h1 & h2 & _ & h4 & _). exists n. auto.
Qed.
Lemma show_sup_prints n e : isf e = false -> exists s, show_sup n e = Ok s.
Proof.
  intro h. unfold show_sup, remove_zero. assert (k : forall f, isf f = false -> str_expo f = Ok (show_Z (trunc (ev f)))) by (intros f hf; unfold str_expo; rewrite hf; reflexivity).
  rewrite (k e h). cbn [bind]. destruct (str_in ".0" _); cbn [bind]; rewrite k by (exact h || reflexivity); eexists; reflexivity.
Qed.
Lemma show_bu_prints x : isf (bexp x) = false -> exists s, show_bu x = Ok s.
Proof. intro h. unfold show_bu. destruct (e_is (bexp x) 1); [eexists; reflexivity|apply show_sup_prints, h]. Qed.
Lemma unit_prints u : held_num (uv u) -> isf (ue u) = false -> exists s, unit_repr u = Ok s.
Proof.
  intros hv he. unfold unit_repr. destruct (number_text (uv u) hv) as (n & -> & _). cbn [bind]. destruct (e_is (ue u) 1); [eexists; reflexivity|].
  destruct (show_sup_prints (un u) (ue u) he) as (s & ->). eexists. reflexivity.
Qed.
Lemma show_bottom_prints l : (forall x, In x l -> isf (bexp x) = false) -> forall t acc, exists r, show_bottom l t acc = Ok r.
Proof.
  induction l as [|x l IH]; intros h t acc; [eexists; reflexivity|]. cbn [show_bottom]. assert (hx : isf (bexp x) = false) by (apply h; left; reflexivity).
  assert (hl : forall y, In y l -> isf (bexp y) = false) by (intros y hy; apply h; right; exact hy).
  destruct (e_is (bexp x) 1); [apply IH, hl|]. destruct (eltb (bexp x) (eint 0)).
  - destruct (show_sup_prints (bname x) (eopp (bexp x)) hx) as (s & ->). cbn [bind]. apply IH, hl.
  - destruct (show_sup_prints (bname x) (bexp x) hx) as (s & ->). cbn [bind]. apply IH, hl.
Qed.
Lemma multi_prints m : held_num (mv m) -> (forall x, In x (mtop m ++ mbot m) -> isf (bexp x) = false) -> exists s, multi_repr m = Ok s.
Proof.
  intros hv h. unfold multi_repr, get_unit_string.
  assert (k : exists ts, mapM show_bu (mtop m) = Ok ts).
  { assert (h' : forall x, In x (mtop m) -> isf (bexp x) = false) by (intros x hx; apply h, in_or_app; left; exact hx). clear h hv. induction (mtop m) as [|x l IH]; [eexists; reflexivity|]. cbn [mapM].
    destruct (show_bu_prints x (h' x (or_introl eq_refl))) as (s & ->). cbn [bind]. destruct IH as (ts & ->); [intros y hy; apply h'; right; exact hy|]. eexists. reflexivity. }
  destruct k as (ts & ->). cbn [bind]. destruct (number_text (mv m) hv) as (n & -> & _).
  assert (k : forall t acc, exists r, show_bottom (mbot m) t acc = Ok r) by (apply show_bottom_prints; intros x hx; apply h, in_or_app; right; exact hx).
  destruct (mbot m) as [|x l]; [eexists; reflexivity|]. destruct (k (join " * " ts) nil) as (r & ->). eexists. reflexivity.
Qed.
Lemma registered_names n c : dict_get UNIT_REGISTRY n = Some c -> name_text n = true /\ n <> "".
Proof.
  intro h. assert (all : forallb (fun q => name_text (fst q) && negb (String.eqb (fst q) "")) UNIT_REGISTRY = true) by (vm_compute; reflexivity).
  rewrite forallb_forall in all. assert (i : exists c', In (n, c') UNIT_REGISTRY).
  { revert h. generalize UNIT_REGISTRY. intro d. clear all. revert c. induction d as [|(k, v) d IH]; intros c h; [discriminate|]. cbn [dict_get] in h.
    destruct (dict_get d n) as [c'|] eqn:e; [destruct (IH c' eq_refl) as (c'' & i); exists c''; right; exact i|]. destruct (String.eqb k n) eqn:q; [|discriminate]. apply String.eqb_eq in q. subst. exists v. left. reflexivity. }
  destruct i as (c' & i). specialize (all _ i). cbn [fst] in all. apply andb_true_iff in all. destruct all as (a & b). split; [exact a|]. intros ->. discriminate b.
Qed.

(** ** BaseUnit *)
Lemma base_reads c (v : R) x s : expo_wf (bexp x) -> plain_text (bname x) = true -> bname x <> "" -> base_repr x = Ok s ->
  mk_multi c v s = Ok (MO c v [BU (bname x) (eflt (ev (bexp x)))] nil).
Proof.
  intros hw hp hn h. assert (k : exists f, factor_ok f /\ factor_text f = s /\ factor_unit f = (bname x, ev (bexp x))).
  { unfold base_repr in h. destruct (e_is (bexp x) 1) eqn:e1.
    - injection h as <-. exists (bname x, None). split; [split; [exact hn|split; [exact hp|exact I]]|]. split; [reflexivity|]. apply e_is_1 in e1. rewrite e1. reflexivity.
    - destruct (str_expo (bexp x)) as [t|] eqn:et; [|discriminate]. cbn [bind] in h. injection h as <-. destruct (str_expo_numeral _ _ hw et) as (n & n1 & n2 & n3 & ->).
      exists (bname x, Some n). split; [split; [exact hn|split; [exact hp|exact n1]]|]. split; [reflexivity|]. unfold factor_unit. cbn [fst snd]. f_equal. apply Qc_is_canon. cbn [this Q2Qc]. rewrite Qred_correct. exact n3. }
  destruct k as (f & k1 & <- & k3). assert (F : forall g, In g ([f] ++ []) -> factor_ok g) by (intros g [<-|[]]; exact k1).
  pose proof (parse_text [f] [] ltac:(discriminate) F) as P. pose proof (unit_text_ne [f] [] ltac:(discriminate) F) as N. unfold unit_text in P, N. cbn [map stars] in P, N. rewrite sapp_nil in P, N.
  unfold mk_multi. replace (String.eqb (factor_text f) "") with false by (symmetry; apply String.eqb_neq; exact N). rewrite P. cbn [bind fst snd]. unfold parsed. rewrite k3. replace (fst f) with (bname x) by (unfold factor_unit in k3; congruence). reflexivity.
Qed.

(** ** BTU in the text *)
Lemma prefix_head c n d s : String.prefix (String c n) (String d s) = Ascii.eqb c d && String.prefix n s.
Proof. cbn [String.prefix]. destruct (ascii_dec c d) as [->|h]; [rewrite Ascii.eqb_refl; reflexivity|]. apply Ascii.eqb_neq in h. rewrite h. reflexivity. Qed.
Lemma in_skip c n a b : has_char c a = false -> str_in (String c n) (a +++ b) = str_in (String c n) b.
Proof.
  induction a as [|d a IH]; intro h; [reflexivity|]. cbn [has_char] in h. apply orb_false_iff in h. destruct h as (h1 & h2). cbn [String.append].
  change (str_in (String c n) (String d (a +++ b))) with (String.prefix (String c n) (String d (a +++ b)) || str_in (String c n) (a +++ b)). rewrite prefix_head, Ascii.eqb_sym, h1, (IH h2). reflexivity.
Qed.
Lemma num_no_B v s : held_num v -> num_str v = Ok s -> has_char "B" s = false.
Proof.
  intros hv h. destruct (number_text v hv) as (n & e & (o1 & o2 & _ & o4) & _). rewrite e in h. injection h as <-.
  unfold num_text. assert (d : forall l, digits_ok l -> has_char "B" (digits_text l) = false) by (intros l; apply digits_no; reflexivity).
  assert (sg : forall t, has_char "B" (sign_text t) = false) by (intros [[|]|]; reflexivity). unfold frac_digits in o2.
  rewrite !has_char_app, sg, (d _ o1). destruct (nfrac n) as [f|]; [cbn [has_char String.append]; rewrite (d _ o2)|]; (destruct (nexp n) as [(t, l)|]; [|reflexivity]);
  cbn [has_char String.append]; rewrite has_char_app, sg, (d _ (proj1 o4)); reflexivity.
Qed.
Lemma unit_BTU u s r : held_num (uv u) -> unit_repr u = Ok s -> mentions_BTU (VUnit (UO (uc u) r (un u) (ue u))) = Ok (str_in "BTU" s).
Proof.
  intros hv h. unfold unit_repr in h. destruct (num_str (uv u)) as [v|] eqn:e; [|discriminate]. cbn [bind] in h. pose proof (num_no_B _ _ hv e) as nb.
  cbn [mentions_BTU un ue]. unfold show_bu. cbn [bexp bname]. destruct (e_is (ue u) 1).
  - injection h as <-. cbn [bind]. f_equal. rewrite (in_skip "B" "TU" v) by exact nb. symmetry. apply (in_skip "B" "TU" " "). reflexivity.
  - destruct (show_sup (un u) (ue u)) as [t|]; [|discriminate]. cbn [bind] in h |- *. injection h as <-. f_equal. rewrite (in_skip "B" "TU" v) by exact nb. symmetry. apply (in_skip "B" "TU" " "). reflexivity.
Qed.
Lemma multi_BTU m s r : held_num (mv m) -> multi_repr m = Ok s -> mentions_BTU (VMulti (MO (mc m) r (mtop m) (mbot m))) = Ok (str_in "BTU" s).
Proof.
  intros hv h. unfold multi_repr in h. cbn [mentions_BTU mtop mbot]. destruct (get_unit_string (mtop m) (mbot m)) as [t|]; [|discriminate]. cbn [bind] in h |- *. destruct (num_str (mv m)) as [v|] eqn:e; [|discriminate]. cbn [bind] in h. injection h as <-.
  f_equal. rewrite (in_skip "B" "TU" v) by exact (num_no_B _ _ hv e). symmetry. apply (in_skip "B" "TU" " "). reflexivity.
Qed.

(** ** Examples *)
Definition tenth : spec_float := S754_finite false 7205759403792794 (-56).
Definition two_thirds : spec_float := S754_finite false 6004799503160661 (-53).
Definition e22 : spec_float := S754_finite false 4768371582031250 21.
Definition tiny : spec_float := S754_finite false 1 (-1074).
Definition huge : spec_float := S754_finite false 9007199254740991 971.
Lemma floats_finite x : In x [tenth; two_thirds; e22; tiny; huge; S754_zero true] -> finite64 x.
Proof. intros [<-|[<-|[<-|[<-|[<-|[<-|[]]]]]]]; vm_compute; exact eq_refl || exact I. Qed.
Lemma floats_texts : map float_repr [tenth; two_thirds; e22; tiny; huge; S754_zero true] =
  [Ok "0.1"; Ok "0.6666666666666666"; Ok "1e+22"; Ok "5e-324"; Ok "1.7976931348623157e+308"; Ok "-0.0"].
Proof. vm_compute. reflexivity. Qed.

Definition flux : multi_obj pynum := MO MMulti (PFloat tenth) [BU "kg" (eint 1); BU "m" (eflt (Q2Qc (-5 # 2)))] [BU "s" (eint (-2)); BU "K" (eint 1)].
Definition flux' : multi_obj pynum := MO MMulti (PFloat tenth) [BU "kg" (eint 1); BU "m" (eflt (Q2Qc (-5 # 2)))] [BU "K" (eflt 1); BU "s" (eint (-2))].
Definition flux_text : string := "0.1 kg * m-².⁵ * s² / K".
Ltac fine := split; [reflexivity|split; [discriminate|split; [vm_compute; congruence|vm_compute; (left; reflexivity) || (right; discriminate)]]].
Lemma flux_case :
  held_num (mv flux) /\ (forall x, In x (mtop flux ++ mbot flux) -> printable x) /\ multi_repr flux = Ok flux_text /\
  held_num (mv flux') /\ (forall x, In x (mtop flux' ++ mbot flux') -> printable x) /\ multi_repr flux' = Ok flux_text /\ mbot flux <> mbot flux'.
Proof.
  split; [vm_compute; reflexivity|]. split; [intros x [<-|[<-|[<-|[<-|[]]]]]; fine|]. split; [vm_compute; reflexivity|].
  split; [vm_compute; reflexivity|]. split; [intros x [<-|[<-|[<-|[<-|[]]]]]; fine|]. split; [vm_compute; reflexivity|discriminate].
Qed.
Definition area : unit_obj pynum := UO Area (PInt (-3)) "ft^2" (eint 2).
Definition area_text : string := "-3 ft^2²".
Lemma area_case : held_num (uv area) /\ printable (BU (un area) (ue area)) /\ unit_repr area = Ok area_text.
Proof. split; [exact I|]. split; [fine|vm_compute; reflexivity]. Qed.

Lemma exponent_lost : exists a b : unit_obj pynum, exists s, unit_repr a = Ok s /\ unit_repr b = Ok s /\
  name_text (un a) = true /\ name_text (un b) = true /\ ev (ue a) <> ev (ue b) /\
  exists w : usys, (forall n, 0 < w n)%R /\ qty w (VUnit (UO (uc a) (num_R (uv a)) (un a) (ue a))) <> qty w (VUnit (UO (uc b) (num_R (uv b)) (un b) (ue b))).
Proof.
  exists (UO Length (PInt 2) "m" (eflt (Q2Qc (41 # 20)))), (UO Length (PInt 2) "m" (eint 2)), "2 m²".
  split; [vm_compute; reflexivity|]. split; [vm_compute; reflexivity|]. split; [reflexivity|]. split; [reflexivity|]. split; [discriminate|].
  exists (fun _ => 2%R). split; [intro; lra|]. cbn [qty uv un ue num_R]. intro h.
  assert (k : forall x y : R, Some x = Some y -> x = y) by (intros; congruence). apply k in h. apply Rmult_eq_reg_l in h; [|lra].
  assert (lt : forall p q : Qc, this p = (2 # 1)%Q -> this q = (41 # 20)%Q -> (Rpower 2 (QcR p) < Rpower 2 (QcR q))%R).
  { intros p q hp hq. apply Rpower_lt; [lra|]. unfold QcR, Q2R. rewrite hp, hq. cbn [Qnum Qden]. lra. }
  specialize (lt (ev (eint 2)) (ev (eflt (Q2Qc (41 # 20)))) eq_refl eq_refl). rewrite h in lt. exact (Rlt_irrefl _ lt).
Qed.
Lemma class_lost : exists a b : multi_obj pynum, exists s, multi_repr a = Ok s /\ multi_repr b = Ok s /\ mc a <> mc b.
Proof.
  exists (MO (MSub "MolecularWeight") (PInt 18) [BU "g" (eint 1)] [BU "mol" (eint 1)]), (MO MMulti (PInt 18) [BU "g" (eint 1)] [BU "mol" (eint 1)]), "18 g / mol".
  split; [vm_compute; reflexivity|]. split; [vm_compute; reflexivity|discriminate].
Qed.
