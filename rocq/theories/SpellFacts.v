(** * SpellFacts: proofs about spellings of the same unit *)
From Coq Require Import String Ascii List ZArith QArith Qcanon Bool Reals Qreals Lia Lra.
From Verif Require Import Py Num UnitsData UnitsStruct Units NumFacts Spec SpecFacts StructFacts OpFacts ClosureFacts LawFacts OpSpec OpExactFacts PrefixSpec PassSpec
  ConvSpec ReadSpec ReadFacts WitnessFacts PropFacts FactorFacts OpPropFacts ConvCases OrderSpec OrderFacts SpellSpec.
Import ListNotations.
Local Open Scope string_scope.
Local Open Scope list_scope.
Local Open Scope R_scope.

(** ** A sum over units depends on the exponents of the names only *)
Definition rsum (f : string -> R) (N : list string) : R := fold_right Rplus 0 (map f N).
Lemma rsum_add f g N : rsum (fun n => f n + g n) N = rsum f N + rsum g N.
Proof. unfold rsum. induction N as [|n N IH]; cbn; [ring|]. rewrite IH. ring. Qed.
Lemma rsum_ext f g N : (forall n, In n N -> f n = g n) -> rsum f N = rsum g N.
Proof. unfold rsum. induction N as [|n N IH]; intro h; cbn; [reflexivity|]. rewrite (h n) by (left; reflexivity). rewrite IH by (intros m hm; apply h; right; exact hm). reflexivity. Qed.
Lemma rsum_none m (v : R) N : ~ In m N -> rsum (fun n => if String.eqb m n then v else 0) N = 0.
Proof.
  unfold rsum. induction N as [|n N IH]; intro h; cbn; [reflexivity|]. rewrite IH by (intro; apply h; right; assumption).
  destruct (String.eqb_spec m n); [exfalso; apply h; left; congruence|ring].
Qed.
Lemma rsum_one m (v : R) N : NoDup N -> In m N -> rsum (fun n => if String.eqb m n then v else 0) N = v.
Proof.
  induction 1 as [|n N hn hd IH]; intro h; [destruct h|]. change (rsum ?f (n :: N)) with (f n + rsum f N).
  destruct h as [->|h].
  - rewrite String.eqb_refl, rsum_none by exact hn. ring.
  - rewrite IH by exact h. destruct (String.eqb_spec m n); [subst; contradiction|ring].
Qed.
Lemma lin_net phi N l : NoDup N -> (forall x, In x l -> In (bname x) N) -> lin phi l = rsum (fun n => QcR (net n l) * phi n) N.
Proof.
  intro hd. induction l as [|x l IH]; intro h.
  - cbn [lin net]. rewrite (rsum_ext _ (fun _ => 0)) by (intros; rewrite QcR_qc; ring). unfold rsum. induction N as [|n N IHN]; cbn; [reflexivity|]. inversion hd; subst. rewrite <- IHN by (auto; intros y []). ring.
  - rewrite lin_cons, IH by (intros y hy; apply h; right; exact hy).
    rewrite (rsum_ext (fun n => QcR (net n (x :: l)) * phi n) (fun n => (if String.eqb (bname x) n then QcR (ev (bexp x)) * phi (bname x) else 0) + QcR (net n l) * phi n)).
    + rewrite rsum_add, rsum_one; [reflexivity|exact hd|]. apply h. left. reflexivity.
    + intros n hn. cbn [net]. destruct (String.eqb_spec (bname x) n) as [<-|]; [rewrite QcR_plus|]; ring.
Qed.
Lemma lin_respelled phi t b t' b' : (forall n, net n t - net n b = net n t' - net n b')%Qc -> lin phi t - lin phi b = lin phi t' - lin phi b'.
Proof.
  intro h. set (N := nodup string_dec (map bname (t ++ b ++ t' ++ b'))).
  assert (hd : NoDup N) by apply NoDup_nodup.
  assert (hi : forall l, incl l (t ++ b ++ t' ++ b') -> forall x, In x l -> In (bname x) N).
  { intros l hl x hx. apply nodup_In, in_map, hl, hx. }
  rewrite (lin_net phi N t), (lin_net phi N b), (lin_net phi N t'), (lin_net phi N b'); auto;
    try (apply hi; intros y hy; rewrite !in_app_iff; auto).
  assert (g : forall p q, rsum (fun n => QcR (net n p) * phi n) N - rsum (fun n => QcR (net n q) * phi n) N = rsum (fun n => QcR (net n p - net n q)%Qc * phi n) N).
  { intros p q. unfold rsum. clear. induction N as [|n N IH]; cbn; [ring|]. unfold Qcminus in *. rewrite QcR_plus, QcR_opp in *. rewrite <- IH. ring. }
  rewrite !g. apply rsum_ext. intros n _. rewrite h. reflexivity.
Qed.

(** ** The quantity *)
Lemma respelled_qty a b : respelled a b -> forall w, qty w (VMulti a) = qty w (VMulti b).
Proof.
  intros (h1 & h2 & h3) w. cbn [qty]. unfold msize. rewrite h2, !usize_lin. f_equal. f_equal.
  pose proof (lin_respelled (fun n => ln (w n)) _ _ _ _ h3) as e. unfold Rdiv. rewrite <- !exp_Ropp, <- !exp_plus. f_equal. lra.
Qed.
Lemma respelled_mul a b o : respelled a b -> adm_multi a -> adm_multi b -> adm_multi o ->
  exists r r', py_mul (VMulti a) (VMulti o) = Ok r /\ py_mul (VMulti b) (VMulti o) = Ok r' /\
    forall w, coherent w -> qty w r = qty w r'.
Proof.
  intros h ha hb ho. pose proof (respelled_qty a b h) as hq.
  destruct (mul_mm a o ha ho) as [r [e [_ g]]]. destruct (mul_mm b o hb ho) as [r' [e' [_ g']]].
  exists (VMulti r), (VMulti r'). split; [exact e|]. split; [exact e'|]. intros w hw.
  rewrite (g w _ _ hw eq_refl eq_refl). symmetry. apply (g' w _ _ hw); [symmetry; exact (hq w)|reflexivity].
Qed.

(** ** Conversions *)
Definition stand_for (n : string) : string * Q := match dict_get read_sizes (root n) with Some p => p | None => ("", 1%Q) end.
Lemma read_sizes_pos n s q : dict_get read_sizes n = Some (s, q) -> (0 < q)%Q.
Proof. intro h. apply dict_get_in in h. cbn [In read_sizes] in h. repeat (destruct h as [h|h]; [injection h as _ _ <-; reflexivity|]). destruct h. Qed.
Lemma in_keys {A} (d : list (string * A)) n : In n (map fst d) -> dict_get d n <> None.
Proof.
  induction d as [|[k v] d IH]; intro h; [destruct h|]. cbn [dict_get]. destruct (dict_get d n) eqn:e; [discriminate|]. destruct h as [h|h]; cbn [fst] in *.
  - subst. rewrite String.eqb_refl. discriminate.
  - exfalso. apply IH; auto.
Qed.
Lemma not_key {A} (d : list (string * A)) n : (forall k, In k (map fst d) -> k <> n) -> dict_get d n = None.
Proof.
  intro h. destruct (dict_get d n) as [v|] eqn:e; [|reflexivity]. apply dict_get_in in e. exfalso. apply (h n); [|reflexivity]. apply (in_map fst) in e. exact e.
Qed.
Lemma apart (l m : list string) : forallb (fun n => negb (mem_str n l)) m = true -> forall n k, In n m -> In k l -> k <> n.
Proof.
  intros h n k hn hk e. subst k. rewrite forallb_forall in h. specialize (h n hn). apply negb_true_iff in h. unfold mem_str in h.
  assert (t : existsb (String.eqb n) l = true) by (apply existsb_exists; exists n; split; [exact hk|apply String.eqb_refl]). congruence.
Qed.
Lemma ordinary_stands n e : ordinary n -> stands false (BU (root n) e) = Some (Rpower (Q2R (snd (stand_for n))) (QcR (ev e)), (fst (stand_for n), 1%Z)).
Proof.
  intros [h1 h2]. unfold stands, stand_for. cbn [bname bexp].
  rewrite (not_key opened_sizes) by (intros k hk e0; rewrite e0 in hk; apply h2; exact hk).
  rewrite (not_key degree_sizes) by (intros k; apply (apart (map fst degree_sizes) (map fst read_sizes)); [reflexivity|exact h1]).
  rewrite (not_key bulk_sizes) by (intros k; apply (apart (map fst bulk_sizes) (map fst read_sizes)); [reflexivity|exact h1]).
  pose proof (in_keys read_sizes (root n) h1) as h. destruct (dict_get read_sizes (root n)) as [[s q]|]; [reflexivity|congruence].
Qed.
Lemma ordinary_marked l : (forall x, In x l -> ordinary (bname x)) -> marked (rooted l) = map (fun x => (false, BU (root (bname x)) (bexp x))) l.
Proof.
  intro h. rewrite marked_plain.
  - unfold rooted. rewrite map_map. reflexivity.
  - intros x hx. unfold rooted in hx. apply in_map_iff in hx. destruct hx as [y [<- hy]]. unfold is_derived. cbn [bname].
    destruct (in_dec string_dec (root (bname y)) derived_names) as [i|]; [|reflexivity]. destruct (h y hy). contradiction.
Qed.
Lemma ordinary_understood l : (forall x, In x l -> ordinary (bname x)) -> understood l.
Proof.
  intro h. split.
  - intros x hx e. destruct (h x hx) as [k _]. rewrite e in k. cbn in k. repeat (destruct k as [k|k]; [discriminate|]). destruct k.
  - intros k x hx. rewrite ordinary_marked in hx by exact h. apply in_map_iff in hx. destruct hx as [y [e hy]]. injection e as <- <-.
    rewrite (ordinary_stands _ _ (h y hy)). discriminate.
Qed.
Lemma ordinary_seen l : (forall x, In x l -> ordinary (bname x)) -> seen l = exp (lin (fun n => ln (pscale n) + ln (Q2R (snd (stand_for n)))) l).
Proof.
  intro h. unfold seen. rewrite ordinary_marked by exact h. rewrite map_map, usize_lin.
  induction l as [|x l IH]; [cbn; rewrite exp_0; ring|]. specialize (IH (fun y hy => h y (or_intror hy))).
  rewrite !lin_cons. cbn [map fold_right]. unfold number_of at 1. cbn [fst snd]. rewrite (ordinary_stands _ _ (h x (or_introl eq_refl))).
  rewrite Rmult_plus_distr_l, !exp_plus in *. rewrite <- IH. unfold Rpower. ring.
Qed.
Lemma ordinary_dim c l : (forall x, In x l -> ordinary (bname x)) -> QcR (seen_dim l c) = lin (fun n => IZR (vector (fst (stand_for n)) c)) l.
Proof.
  intro h. unfold seen_dim. rewrite ordinary_marked by exact h. rewrite map_map.
  induction l as [|x l IH]; [cbn; apply QcR_qc|]. specialize (IH (fun y hy => h y (or_intror hy))).
  rewrite lin_cons. cbn [map fold_right]. rewrite QcR_plus, IH. f_equal. unfold dim_of. cbn [fst snd]. rewrite (ordinary_stands _ _ (h x (or_introl eq_refl))).
  cbn [bexp]. rewrite !QcR_mult, !QcR_qc. ring.
Qed.
Lemma respelled_convert a b s r : respelled a b -> all_ordinary a -> all_ordinary b ->
  multi_convert_to tables0 a s = Ok r -> multi_convert_to tables0 b s = Ok r.
Proof.
  intros (h1 & h2 & h3) oa ob e. destruct (parse_units s) as [[pt pb]|x] eqn:hp; [|rewrite (convert_unparsed a s x hp) in e; discriminate].
  assert (o : (forall x, In x (mtop a) -> ordinary (bname x)) /\ (forall x, In x (mbot a) -> ordinary (bname x)) /\
              (forall x, In x (mtop b) -> ordinary (bname x)) /\ (forall x, In x (mbot b) -> ordinary (bname x))).
  { refine (conj _ (conj _ (conj _ _))); intros y hy; [apply oa|apply oa|apply ob|apply ob]; apply in_or_app; auto. }
  destruct o as (o1 & o2 & o3 & o4).
  apply (convert_exact a s pt pb r hp) in e. destruct e as (u1 & u2 & u3 & u4 & z1 & z2 & z3 & hd & ->).
  apply (convert_exact b s pt pb _ hp).
  split; [apply ordinary_understood; exact o3|]. split; [apply ordinary_understood; exact o4|]. do 2 (split; [assumption|]).
  split; [rewrite ordinary_seen by exact o4; apply Rgt_not_eq, exp_pos|]. do 2 (split; [assumption|]). split.
  - intro c. rewrite <- hd. apply QcR_inj. rewrite !QcR_minus, !ordinary_dim by assumption. symmetry. apply lin_respelled. exact h3.
  - rewrite h1, h2. f_equal. f_equal. f_equal. unfold seen_size. rewrite !ordinary_seen by assumption. unfold Rdiv. rewrite <- !exp_Ropp, <- !exp_plus. f_equal.
    pose proof (lin_respelled (fun n => ln (pscale n) + ln (Q2R (snd (stand_for n)))) _ _ _ _ h3). lra.
Qed.
Lemma respelled_target (a : multi_obj R) s s' pt pb pt' pb' r : parse_units s = Ok (pt, pb) -> parse_units s' = Ok (pt', pb') ->
  (forall n, net n pt - net n pb = net n pt' - net n pb')%Qc -> (forall x, In x (pt ++ pb ++ pt' ++ pb') -> ordinary (bname x)) ->
  multi_convert_to tables0 a s = Ok r -> exists r', multi_convert_to tables0 a s' = Ok r' /\ respelled r r'.
Proof.
  intros hp hp' h3 o e.
  assert (o' : (forall x, In x pt -> ordinary (bname x)) /\ (forall x, In x pb -> ordinary (bname x)) /\
              (forall x, In x pt' -> ordinary (bname x)) /\ (forall x, In x pb' -> ordinary (bname x))).
  { refine (conj _ (conj _ (conj _ _))); intros y hy; apply o; rewrite !in_app_iff; auto. }
  destruct o' as (o1 & o2 & o3 & o4).
  apply (convert_exact a s pt pb r hp) in e. destruct e as (u1 & u2 & u3 & u4 & z1 & z2 & z3 & hd & ->).
  eexists. split.
  - apply (convert_exact a s' pt' pb' _ hp'). do 2 (split; [assumption|]).
    split; [apply ordinary_understood; exact o3|]. split; [apply ordinary_understood; exact o4|]. split; [assumption|].
    split; [rewrite ordinary_seen by exact o3; apply Rgt_not_eq, exp_pos|]. split; [rewrite ordinary_seen by exact o4; apply Rgt_not_eq, exp_pos|]. split; [|reflexivity].
    intro c. rewrite hd. apply QcR_inj. rewrite !QcR_minus, !ordinary_dim by assumption. apply lin_respelled. exact h3.
  - split; [reflexivity|]. cbn [mv mtop mbot]. split; [|exact h3]. f_equal. f_equal. unfold seen_size. rewrite (ordinary_seen pt), (ordinary_seen pb), (ordinary_seen pt'), (ordinary_seen pb') by assumption.
    unfold Rdiv. rewrite <- !exp_Ropp, <- !exp_plus. f_equal.
    pose proof (lin_respelled (fun n => ln (pscale n) + ln (Q2R (snd (stand_for n)))) _ _ _ _ h3). lra.
Qed.

(** ** Equality and sums *)
Lemma respelled_sum a b : respelled a b ->
  ((exists r, py_add (VMulti a) (VMulti b) = Ok r) <-> shape (VMulti a) = shape (VMulti b)) /\
  ((exists r, py_sub (VMulti a) (VMulti b) = Ok r) <-> shape (VMulti a) = shape (VMulti b)).
Proof.
  intros (h1 & _). assert (hc : mcls_eqb (mc a) (mc b) = true) by (apply mcls_eqb_eq; exact h1).
  assert (k : half_eqb (mtop a) (mtop b) && half_eqb (mbot a) (mbot b) = true <-> shape (VMulti a) = shape (VMulti b)).
  { rewrite andb_true_iff, !half_eqb_same. cbn [shape]. split; [intros [-> ->]; reflexivity|intro h; split; congruence]. }
  cbn [py_add py_sub multi_add multi_sub]. rewrite hc.
  destruct (half_eqb (mtop a) (mtop b) && half_eqb (mbot a) (mbot b)).
  - assert (e : shape (VMulti a) = shape (VMulti b)) by (apply k; reflexivity). repeat split; intros; eauto; contradiction.
  - assert (e : shape (VMulti a) <> shape (VMulti b)) by (intro h; apply k in h; discriminate).
    repeat split; intros; try contradiction; match goal with h : exists _, _ |- _ => destruct h; discriminate end.
Qed.

(** ** Witnesses *)
Definition f1 (n : string) : bu := BU n (eflt (qc 1)).
Definition m_per_s : multi_obj R := MO MMulti 7 [f1 "m"] [f1 "s"].
Definition m_s_inv : multi_obj R := MO MMulti 7 [f1 "m"; BU "s" (eflt (qc (-1)))] nil.
Definition m_m : multi_obj R := MO MMulti 7 [f1 "m"; f1 "m"] [f1 "s"].
Definition m_sq : multi_obj R := MO MMulti 7 [BU "m" (eflt (qc 2))] [f1 "s"].
Lemma slash_refuted : exists a b : multi_obj R, mk_multi MMulti 7 "m/s" = Ok a /\ mk_multi MMulti 7 "m*s^-1" = Ok b /\ respelled a b /\
  py_eq (VMulti a) (VMulti b) = false /\ py_add (VMulti a) (VMulti b) = Raise ETypeError /\ py_sub (VMulti a) (VMulti b) = Raise ETypeError.
Proof.
  exists m_per_s, m_s_inv. split; [reflexivity|]. split; [reflexivity|]. split.
  - split; [reflexivity|]. split; [reflexivity|]. intro n. cbn [mtop mbot m_per_s m_s_inv net f1 bname bexp eflt ev].
    destruct (String.eqb "m" n), (String.eqb "s" n); apply Qc_is_canon; reflexivity.
  - split; [|split; reflexivity]. apply not_true_iff_false. intro h. apply multi_eq_exact in h. destruct h as (_ & _ & _ & h & _).
    destruct (h (BU "s" (eflt (qc (-1))))) as [y [hy [e _]]]; [right; left; reflexivity|]. destruct hy as [<-|[]]. discriminate.
Qed.
Lemma square_refuted : exists a b : multi_obj R, mk_multi MMulti 7 "m*m/s" = Ok a /\ mk_multi MMulti 7 "m^2/s" = Ok b /\ respelled a b /\
  py_eq (VMulti a) (VMulti b) = false /\ py_add (VMulti a) (VMulti b) = Raise ETypeError /\ py_sub (VMulti a) (VMulti b) = Raise ETypeError.
Proof.
  exists m_m, m_sq. split; [reflexivity|]. split; [reflexivity|]. split.
  - split; [reflexivity|]. split; [reflexivity|]. intro n. cbn [mtop mbot m_m m_sq net f1 bname bexp eflt ev].
    destruct (String.eqb "m" n), (String.eqb "s" n); apply Qc_is_canon; reflexivity.
  - split; [|split; reflexivity]. apply not_true_iff_false. intro h. apply multi_eq_exact in h. destruct h as (_ & _ & h & _).
    destruct (h (f1 "m")) as [y [hy [_ [e _]]]]; [left; reflexivity|]. destruct hy as [<-|[]]. cbn [f1 bexp eflt ev] in e. apply (f_equal this) in e. discriminate.
Qed.
Definition a_per_k : multi_obj R := MO MMulti 5 [f1 "A"] [f1 "K"].
Definition a_k_inv : multi_obj R := MO MMulti 5 [f1 "A"; BU "K" (eflt (qc (-1)))] nil.
Lemma seen_one n : In n ["A"; "K"] -> seen [f1 n] = 1.
Proof.
  intro h. cbn in h. destruct h as [<-|[<-|[]]]; unfold seen; cbn [usize f1 bname bexp eflt ev].
  - change (pscale "A") with 1. change (marked (rooted [f1 "A"])) with [(false, f1 "A")]. cbn [map fold_right]. unfold number_of. cbn [fst snd]. unfold stands. cbn. rewrite Rpower1l, one_pow. ring.
  - change (pscale "K") with 1. change (marked (rooted [f1 "K"])) with [(false, f1 "K")]. cbn [map fold_right]. unfold number_of. cbn [fst snd]. unfold stands. cbn. rewrite Rpower1l, Q2R1', QcR_qc. ring.
Qed.
Lemma seen_a_k_inv : seen (mtop a_k_inv) = -1.
Proof.
  unfold seen, a_k_inv. cbn [mtop usize f1 bname bexp eflt ev]. change (pscale "A") with 1. change (pscale "K") with 1. rewrite !Rpower1l.
  change (marked (rooted [f1 "A"; BU "K" (eflt (qc (-1)))])) with [(false, f1 "A"); (false, BU "K" (eflt (qc (-1))))].
  cbn [map fold_right]. unfold number_of. cbn [fst snd]. unfold stands. cbn. rewrite one_pow, Q2R1', QcR_qc. ring.
Qed.
Lemma seen_nil : seen nil = 1.
Proof. unfold seen. cbn. ring. Qed.
Lemma degree_refuted : exists a b r r' : multi_obj R, mk_multi MMulti 5 "A/K" = Ok a /\ mk_multi MMulti 5 "A*K^-1" = Ok b /\ respelled a b /\
  multi_convert_to tables0 a "A/K" = Ok r /\ mv r = 5 /\ multi_convert_to tables0 b "A/K" = Ok r' /\ mv r' = -5.
Proof.
  exists a_per_k, a_k_inv, a_per_k, (MO MMulti (-5) [f1 "A"] [f1 "K"]). split; [reflexivity|]. split; [reflexivity|]. split.
  - split; [reflexivity|]. split; [reflexivity|]. intro n. cbn [mtop mbot a_per_k a_k_inv net f1 bname bexp eflt ev].
    destruct (String.eqb "A" n), (String.eqb "K" n); apply Qc_is_canon; reflexivity.
  - assert (uA : understood [f1 "A"]) by (apply known_understood; reflexivity). assert (uK : understood [f1 "K"]) by (apply known_understood; reflexivity).
    assert (u : understood (mtop a_k_inv)) by (apply known_understood; reflexivity). assert (n : understood nil) by (apply known_understood; reflexivity).
    pose proof (seen_one "A" ltac:(cbn; auto)) as sA. pose proof (seen_one "K" ltac:(cbn; auto)) as sK.
    split; [|split; [reflexivity|split; [|reflexivity]]].
    + apply (convert_exact a_per_k "A/K" [f1 "A"] [f1 "K"]); [reflexivity|]. cbn [mtop mbot mc mv a_per_k]. unfold seen_size. rewrite sA, sK.
      do 4 (split; [assumption|]). do 3 (split; [lra|]). split; [reflexivity|]. unfold a_per_k. f_equal. field.
    + apply (convert_exact a_k_inv "A/K" [f1 "A"] [f1 "K"]); [reflexivity|]. unfold seen_size. rewrite seen_a_k_inv, sA, sK. change (mbot a_k_inv) with (@nil bu). rewrite seen_nil.
      do 4 (split; [assumption|]). do 3 (split; [lra|]). split; [intro c; destruct c; apply Qc_is_canon; reflexivity|]. unfold a_k_inv. cbn [mc mv]. f_equal. field.
Qed.
Definition velocity_a : multi_obj R := MO MMulti 3 [BU "km" (eflt (qc 2)); f1 "lb"] [f1 "hr"; f1 "ft"].
Definition velocity_b : multi_obj R := MO MMulti 3 [f1 "km"; BU "hr" (eflt (qc (-1))); f1 "mol"; f1 "km"] [f1 "ft"; BU "lb" (eflt (qc (-1))); f1 "mol"].
Lemma spelling_case : mk_multi MMulti 3 "km^2*lb/hr*ft" = Ok velocity_a /\ mk_multi MMulti 3 "km*hr^-1*mol*km/ft*lb^-1*mol" = Ok velocity_b /\
  respelled velocity_a velocity_b /\ adm_multi velocity_a /\ adm_multi velocity_b /\ all_ordinary velocity_a /\ all_ordinary velocity_b /\
  exists r, multi_convert_to tables0 velocity_a "m*kg/s" = Ok r.
Proof.
  split; [reflexivity|]. split; [reflexivity|]. split.
  - split; [reflexivity|]. split; [reflexivity|]. intro n. cbn [mtop mbot velocity_a velocity_b net f1 bname bexp eflt ev].
    destruct (String.eqb "km" n), (String.eqb "lb" n), (String.eqb "hr" n), (String.eqb "ft" n), (String.eqb "mol" n); apply Qc_is_canon; reflexivity.
  - split; [split; adm|]. split; [split; adm|].
    assert (o : all_ordinary velocity_a) by (intros x hx; cbn in hx; repeat (destruct hx as [<-|hx]; [split; [cbn; tauto|cbn; intuition discriminate]|]); destruct hx).
    split; [exact o|]. split; [intros x hx; cbn in hx; repeat (destruct hx as [<-|hx]; [split; [cbn; tauto|cbn; intuition discriminate]|]); destruct hx|].
    apply (convert_iff velocity_a "m*kg/s" [f1 "m"; f1 "kg"] [f1 "s"]); [reflexivity|].
    assert (q : forall x, In x ([f1 "m"; f1 "kg"] ++ [f1 "s"]) -> ordinary (bname x)) by (intros x hx; cbn in hx; repeat (destruct hx as [<-|hx]; [split; [cbn; tauto|cbn; intuition discriminate]|]); destruct hx).
    assert (u : forall l, incl l (mtop velocity_a ++ mbot velocity_a) \/ incl l ([f1 "m"; f1 "kg"] ++ [f1 "s"]) -> understood l /\ seen l <> 0).
    { intros l hl. assert (ol : forall x, In x l -> ordinary (bname x)) by (intros x hx; destruct hl as [hl|hl]; [apply o|apply q]; apply hl; exact hx).
      split; [apply ordinary_understood; exact ol|]. rewrite ordinary_seen by exact ol. apply Rgt_not_eq, exp_pos. }
    destruct (u (mtop velocity_a)) as [a1 a2]; [left; intros y hy; apply in_or_app; auto|]. destruct (u (mbot velocity_a)) as [a3 a4]; [left; intros y hy; apply in_or_app; auto|].
    destruct (u [f1 "m"; f1 "kg"]) as [a5 a6]; [right; intros y hy; apply in_or_app; auto|]. destruct (u [f1 "s"]) as [a7 a8]; [right; intros y hy; apply in_or_app; auto|].
    do 7 (split; [assumption|]). intro c. destruct c; apply Qc_is_canon; reflexivity.
Qed.
