(** * PrintTextFacts: a printed quantity tells its value and its units *)
From Coq Require Import String Ascii List ZArith QArith Qcanon Bool Reals Qreals Lia Lra Arith.
From Coq Require Import Floats.SpecFloat.
From Verif Require Import Py Num NumFacts UnitsData UnitsStruct Units Spec Rounding RoundSpec RangeSpec B64Facts B64Round TextSpec TextFacts ShowFacts TextPropFacts Print PrintSpec PrintFacts.
Import ListNotations.
Local Open Scope string_scope.
Local Open Scope list_scope.

(** ** Splitting texts *)
Lemma has_char_app c s t : has_char c (s +++ t) = has_char c s || has_char c t.
Proof. induction s as [|a s IH]; [reflexivity|]. cbn [String.append has_char]. rewrite IH. apply orb_assoc. Qed.
Lemma split_char c a : forall b r r', has_char c a = false -> has_char c b = false -> a +++ String c r = b +++ String c r' -> a = b /\ r = r'.
Proof.
  induction a as [|x a IH]; intros [|y b] r r' ha hb h; cbn [String.append has_char] in *.
  - injection h as ->. auto.
  - injection h as -> _. rewrite Ascii.eqb_refl in hb. discriminate.
  - injection h as -> _. rewrite Ascii.eqb_refl in ha. discriminate.
  - apply orb_false_iff in ha, hb. injection h as -> h. destruct (IH b r r' (proj2 ha) (proj2 hb) h) as (-> & ->). auto.
Qed.
Lemma no_split c a b r : has_char c a = false -> a = b +++ String c r -> False.
Proof. intros h ->. rewrite has_char_app in h. cbn [has_char] in h. rewrite Ascii.eqb_refl in h. rewrite orb_true_r in h. discriminate. Qed.
Lemma sapp_cancel_r a : forall b c, a +++ c = b +++ c -> a = b.
Proof.
  assert (L : forall x y, String.length (x +++ y) = (String.length x + String.length y)%nat) by (induction x; intro; cbn; [reflexivity|]; rewrite IHx; reflexivity).
  induction a as [|x a IH]; intros [|y b] c h; cbn [String.append] in h.
  - reflexivity.
  - exfalso. apply (f_equal String.length) in h. cbn [String.length] in h. rewrite L in h. lia.
  - exfalso. apply (f_equal String.length) in h. cbn [String.length] in h. rewrite L in h. lia.
  - injection h as -> h. f_equal. exact (IH b c h).
Qed.
Lemma free_blank s : blank_free s = true -> has_char " " s = false.
Proof.
  induction s as [|c s IH]; [reflexivity|]. cbn [blank_free has_char]. intro h. apply andb_true_iff in h. destruct h as (h1 & h2). rewrite (IH h2), orb_false_r.
  destruct (Ascii.eqb c " ") eqn:e; [|reflexivity]. apply Ascii.eqb_eq in e. subst c. discriminate h1.
Qed.

(** ** Numbers *)
Lemma show_Z_num z : exists n, num_ok n /\ nfrac n = None /\ nexp n = None /\ show_Z z = num_text n /\ (num_val n == inject_Z z)%Q.
Proof.
  destruct (show_Z_ok z) as (l & h1 & h2 & h3 & h4). exists (Numeral (sign_of z) l None None). split.
  - split; [exact h1|]. split; [intros ? []|]. split; [cbn; rewrite app_nil_r; exact h2|exact I].
  - split; [reflexivity|]. split; [reflexivity|]. split; [rewrite h4; unfold num_text; cbn [nsign nwhole nfrac nexp]; rewrite !sapp_nil; reflexivity|].
    unfold num_val. cbn [nsign nwhole nfrac nexp frac_digits List.length]. rewrite app_nil_r, h3, sign_of_abs. cbn. ring.
Qed.
Lemma digits_no c l : is_digit c = false -> digits_ok l -> has_char c (digits_text l) = false.
Proof.
  intro hc. induction l as [|d l IH]; intro h; [reflexivity|]. apply digits_ok_cons in h. destruct h as (h1 & h2). cbn [digits_text has_char]. rewrite (IH h2), orb_false_r.
  destruct (Ascii.eqb (ascii_of_nat (48 + d)) c) eqn:e; [|reflexivity]. apply Ascii.eqb_eq in e. subst c. pose proof (dch_digit d h1) as k. unfold dch in k. congruence.
Qed.
Lemma show_Z_plain z : has_char "." (show_Z z) = false /\ has_char "e" (show_Z z) = false.
Proof.
  destruct (show_Z_ok z) as (l & h1 & _ & _ & ->). rewrite !has_char_app, !digits_no by (reflexivity || exact h1).
  unfold sign_of. destruct (Z.ltb z 0); split; reflexivity.
Qed.
Lemma format_mark (t : string) z k : has_char "." (t +++ format z k) || has_char "e" (t +++ format z k) = true.
Proof.
  rewrite !has_char_app.
  assert (h : has_char "." (format z k) = true \/ has_char "e" (format z k) = true).
  { unfold format. destruct (_ || _); [right; rewrite has_char_app; apply orb_true_iff; right; reflexivity|left].
    destruct (Z.leb _ 0); [reflexivity|]. destruct (Z.leb _ _); rewrite !has_char_app; cbn [has_char]; rewrite ?orb_true_r; reflexivity. }
  destruct h as [-> | ->]; rewrite !orb_true_r; reflexivity.
Qed.
Lemma float_mark x s : finite64 x -> float_repr x = Ok s -> has_char "." s || has_char "e" s = true.
Proof.
  intros hx h. destruct x as [b|b| |b m e]; try contradiction; cbn [float_repr] in h.
  - injection h as <-. destruct b; reflexivity.
  - destruct (shortest 17 m e (decpt m e) 1) as [(z, k)|]; [|discriminate]. cbn [bind] in h. destruct (trim 17 z k) as (z', k'). injection h as <-. apply format_mark.
Qed.
Lemma num_text_val n n' : num_ok n -> num_ok n' -> num_text n = num_text n' -> Q2R (num_val n) = Q2R (num_val n').
Proof.
  intros h h' e. pose proof (py_float_numeral n h) as a. rewrite e, (py_float_numeral n' h') in a. apply Qeq_eqR.
  assert (k : forall x y : Qc, Ok x = Ok y -> this x = this y) by (intros x y q; congruence). apply k in a. change (Qred (num_val n') = Qred (num_val n)) in a.
  rewrite <- (Qred_correct (num_val n)), <- (Qred_correct (num_val n')), a. reflexivity.
Qed.
Lemma num_str_inj v w s : held_num v -> held_num w -> num_str v = Ok s -> num_str w = Ok s -> v = w.
Proof.
  intros hv hw ev ew. destruct v as [z|x], w as [z'|x']; cbn [num_str held_num] in *.
  - injection ev as <-. injection ew as ew. destruct (show_Z_num z) as (n & n1 & _ & _ & n4 & n5). destruct (show_Z_num z') as (n' & m1 & _ & _ & m4 & m5).
    rewrite n4, m4 in ew. pose proof (num_text_val n' n m1 n1 ew) as q. rewrite (Qeq_eqR _ _ n5), (Qeq_eqR _ _ m5) in q. unfold Q2R, inject_Z in q. cbn [Qnum Qden] in q. rewrite Rinv_1, !Rmult_1_r in q. apply eq_IZR in q. congruence.
  - injection ev as <-. pose proof (float_mark _ _ hw ew) as k. destruct (show_Z_plain z) as (a & b). rewrite a, b in k. discriminate.
  - injection ew as <-. pose proof (float_mark _ _ hv ev) as k. destruct (show_Z_plain z') as (a & b). rewrite a, b in k. discriminate.
  - destruct (float_text_ok x hv) as (n & n1 & n2 & n3 & n4 & _). destruct (float_text_ok x' hw) as (n' & m1 & m2 & m3 & m4 & _).
    assert (et : num_text n = num_text n') by congruence. rewrite (num_text_val n n' n2 m2 et) in n4. pose proof (nearest_unique _ _ _ n4 m4) as q. f_equal.
    destruct (Req_dec (SFR x) 0) as [z|z]; [|apply SFR_inj; assumption].
    assert (z' : SFR x' = 0%R) by (rewrite <- q; exact z). apply (SFR_zero x hv) in z. apply (SFR_zero x' hw) in z'. destruct z as (a & ->). destruct z' as (b & ->).
    cbn [float_repr] in ev, ew. rewrite <- ev in ew. destruct a, b; cbn in ew; congruence.
Qed.
Lemma num_str_free v s : held_num v -> num_str v = Ok s -> has_char " " s = false.
Proof.
  intros hv ev. destruct v as [z|x]; cbn [num_str held_num] in *.
  - injection ev as <-. destruct (show_Z_num z) as (n & n1 & _ & _ & -> & _). apply free_blank, num_free, n1.
  - destruct (float_text_ok x hv) as (n & n1 & n2 & _). rewrite n1 in ev. injection ev as <-. apply free_blank, num_free, n2.
Qed.

(** ** Factors *)
Definition tells (x : bu) (t : string) : Prop :=
  exists tail, t = bname x +++ tail /\ ((tail = "" /\ ev (bexp x) = Q2Qc 1) \/ exists n, num_ok n /\ nexp n = None /\ (num_val n == this (ev (bexp x)))%Q /\ tail = sup_num n).
Lemma shown_tells x t : shown x t -> tells x t.
Proof. intros [(h & ->)|(_ & n & h1 & h2 & h3 & ->)]; [exists ""; rewrite sapp_nil; auto|exists (sup_num n); split; [reflexivity|right; exists n; auto]]. Qed.
Lemma moved_tells x t : shown_moved x t -> tells x t.
Proof. intros (n & h1 & h2 & h3 & ->). exists (sup_num n). split; [reflexivity|]. right. exists n. auto. Qed.
Definition no_letter (s : string) : Prop := match s with EmptyString => True | String c _ => name_char c = false end.
Lemma sup_digit_head d : (d <= 9)%nat -> exists c r, sup_digit d = String c r /\ name_char c = false.
Proof. revert d. apply all_digits; eexists _, _; split; reflexivity. Qed.
Lemma sup_num_head n : num_ok n -> exists c r, sup_num n = String c r /\ name_char c = false.
Proof.
  intros (h1 & h2 & h3 & _). unfold sup_num. destruct (nsign n) as [[|]|]; cbn [sign_text String.append]; try (eexists _, _; split; reflexivity).
  destruct (nwhole n) as [|d l] eqn:e.
  - unfold frac_digits in h3. destruct (nfrac n) as [f|]; [eexists _, _; split; reflexivity|cbn in h3; congruence].
  - apply digits_ok_cons in h1. destruct (sup_digit_head d (proj1 h1)) as (c & r & hd & hl). cbn [sup_digits]. rewrite hd. cbn [String.append]. eexists _, _. split; [reflexivity|exact hl].
Qed.
Lemma letters_split a : forall b r r', name_text a = true -> name_text b = true -> no_letter r -> no_letter r' -> a +++ r = b +++ r' -> a = b /\ r = r'.
Proof.
  induction a as [|x a IH]; intros [|y b] r r' ha hb hr hr' h; cbn [String.append name_text] in *.
  - auto.
  - apply andb_true_iff in hb. rewrite h in hr. cbn in hr. destruct hb as (hb & _). congruence.
  - apply andb_true_iff in ha. rewrite <- h in hr'. cbn in hr'. destruct ha as (ha & _). congruence.
  - apply andb_true_iff in ha, hb. injection h as -> h. destruct (IH b r r' (proj2 ha) (proj2 hb) hr hr' h) as (-> & ->). auto.
Qed.
Lemma tells_inj x y t : name_text (bname x) = true -> name_text (bname y) = true -> tells x t -> tells y t -> name_exp x = name_exp y.
Proof.
  intros lx ly (a & -> & ha) (b & e & hb).
  assert (na : no_letter a) by (destruct ha as [(-> & _)|(n & n1 & _ & _ & ->)]; [exact I|destruct (sup_num_head n n1) as (c & r & -> & k); exact k]).
  assert (nb : no_letter b) by (destruct hb as [(-> & _)|(n & n1 & _ & _ & ->)]; [exact I|destruct (sup_num_head n n1) as (c & r & -> & k); exact k]).
  destruct (letters_split _ _ _ _ lx ly na nb e) as (en & et). unfold name_exp. rewrite en. f_equal.
  destruct ha as [(-> & va)|(n & n1 & n2 & n3 & ->)], hb as [(-> & vb)|(n' & m1 & m2 & m3 & ->)].
  - congruence.
  - exfalso. destruct (sup_num_head n' m1) as (c & r & k & _). rewrite k in et. discriminate.
  - exfalso. destruct (sup_num_head n n1) as (c & r & k & _). rewrite k in et. discriminate.
  - apply Qc_is_canon. rewrite <- n3, <- m3. apply sup_num_inj; assumption.
Qed.
Lemma letters_no c s : name_char c = false -> name_text s = true -> has_char c s = false.
Proof.
  intro hc. induction s as [|a s IH]; [reflexivity|]. cbn [name_text has_char]. intro h. apply andb_true_iff in h. rewrite (IH (proj2 h)), orb_false_r.
  destruct (Ascii.eqb a c) eqn:e; [|reflexivity]. apply Ascii.eqb_eq in e. subst. destruct h. congruence.
Qed.
Lemma sup_no c : In c [" "; "/"]%char -> forall n, num_ok n -> has_char c (sup_num n) = false.
Proof.
  intros hc n (h1 & h2 & _). assert (dg : forall l, digits_ok l -> has_char c (sup_digits l) = false).
  { induction l as [|d l IH]; intro h; [reflexivity|]. apply digits_ok_cons in h. cbn [sup_digits]. rewrite has_char_app, (IH (proj2 h)), orb_false_r. destruct h as (h & _). revert d h.
    destruct hc as [<-|[<-|[]]]; apply all_digits; reflexivity. }
  unfold sup_num. rewrite !has_char_app, (dg _ h1). replace (has_char c (sign_text (nsign n))) with false by (destruct hc as [<-|[<-|[]]], (nsign n) as [[|]|]; reflexivity).
  unfold frac_digits in h2. destruct (nfrac n) as [f|]; [|reflexivity]. cbn [String.append has_char]. rewrite (dg f h2). destruct hc as [<-|[<-|[]]]; reflexivity.
Qed.
Lemma tells_no c x t : In c [" "; "/"]%char -> name_text (bname x) = true -> tells x t -> has_char c t = false.
Proof.
  intros hc l (tail & -> & h). rewrite has_char_app, letters_no by (exact l || destruct hc as [<-|[<-|[]]]; reflexivity). cbn [orb].
  destruct h as [(-> & _)|(n & n1 & _ & _ & ->)]; [reflexivity|apply sup_no; assumption].
Qed.
Definition word (t : string) : Prop := t <> "" /\ has_char " " t = false /\ has_char "/" t = false.
Lemma tells_word x t : printable x -> tells x t -> word t.
Proof.
  intros (l & ne & _) h. split; [|split; apply (tells_no _ x); cbn; auto].
  destruct h as (tail & -> & _). destruct (bname x); [congruence|discriminate].
Qed.

(** ** Lists of factors *)
Lemma spaced_inj l : forall m, (forall t, In t l -> word t) -> (forall t, In t m -> word t) -> spaced l = spaced m -> l = m.
Proof.
  assert (two : forall x y (l : list string), spaced (x :: y :: l) = x +++ String " " (String "*" (String " " (spaced (y :: l))))) by reflexivity.
  induction l as [|x [|y l] IH]; intros [|x' [|y' m]] hl hm h.
  - reflexivity.
  - exfalso. cbn in h. destruct (hm x' (or_introl eq_refl)) as (c & _). congruence.
  - exfalso. rewrite two in h. cbn [spaced] in h. destruct (hm x' (or_introl eq_refl)) as (c & _). destruct x'; [congruence|discriminate].
  - exfalso. cbn in h. destruct (hl x (or_introl eq_refl)) as (c & _). congruence.
  - cbn [spaced] in h. congruence.
  - exfalso. rewrite two in h. cbn [spaced] in h. destruct (hl x (or_introl eq_refl)) as (_ & c & _). exact (no_split _ _ _ _ c h).
  - exfalso. rewrite two in h. cbn [spaced] in h. destruct (hl x (or_introl eq_refl)) as (c & _). destruct x; [congruence|discriminate].
  - exfalso. rewrite two in h. cbn [spaced] in h. destruct (hm x' (or_introl eq_refl)) as (_ & c & _). symmetry in h. exact (no_split _ _ _ _ c h).
  - rewrite !two in h. destruct (hl x (or_introl eq_refl)) as (_ & c & _). destruct (hm x' (or_introl eq_refl)) as (_ & c' & _).
    destruct (split_char " " x x' _ _ c c' h) as (-> & h'). f_equal. apply IH; [intros t ht; apply hl; right; exact ht|intros t ht; apply hm; right; exact ht|congruence].
Qed.
Lemma spaced_no l : (forall t, In t l -> word t) -> has_char "/" (spaced l) = false.
Proof.
  induction l as [|x [|y l] IH]; intro h; [reflexivity|apply h; left; reflexivity|].
  change (spaced (x :: y :: l)) with (x +++ " * " +++ spaced (y :: l)). rewrite !has_char_app, IH by (intros t ht; apply h; right; exact ht).
  destruct (h x (or_introl eq_refl)) as (_ & _ & ->). reflexivity.
Qed.
Lemma tells_lists l : forall m ts, (forall x, In x l -> name_text (bname x) = true) -> (forall x, In x m -> name_text (bname x) = true) ->
  Forall2 tells l ts -> Forall2 tells m ts -> map name_exp l = map name_exp m.
Proof.
  induction l as [|x l IH]; intros m ts hl hm a b; inversion a; subst; inversion b; subst; [reflexivity|]. cbn [map]. f_equal.
  - eapply tells_inj; [apply hl; left; reflexivity|apply hm; left; reflexivity|eassumption|assumption].
  - eapply IH; [intros z hz; apply hl; right; exact hz|intros z hz; apply hm; right; exact hz|eassumption|assumption].
Qed.
Lemma Forall2_imp {A B} (P Q : A -> B -> Prop) l m : (forall x y, P x y -> Q x y) -> Forall2 P l m -> Forall2 Q l m.
Proof. intros h f. induction f; constructor; auto. Qed.
Lemma words l ts : (forall x, In x l -> printable x) -> Forall2 tells l ts -> forall t, In t ts -> word t.
Proof.
  intros h f. induction f as [|x t l ts a f IH]; intros t' ht; [destruct ht|]. destruct ht as [<-|ht]; [apply (tells_word x); [apply h; left; reflexivity|exact a]|].
  apply IH; [intros z hz; apply h; right; exact hz|exact ht].
Qed.

(** ** Objects *)
Lemma unit_reads u s : held_num (uv u) -> printable (BU (un u) (ue u)) -> unit_repr u = Ok s ->
  exists v t, num_str (uv u) = Ok v /\ s = v +++ String " " t /\ shown (BU (un u) (ue u)) t.
Proof.
  intros hv (_ & _ & hs) h. unfold unit_repr in h. destruct (num_str (uv u)) as [v|] eqn:ev; [|discriminate]. cbn [bind] in h. exists v.
  assert (k : exists t, show_bu (BU (un u) (ue u)) = Ok t /\ s = v +++ String " " t).
  { unfold show_bu. cbn [bexp bname]. destruct (e_is (ue u) 1); [injection h as <-; eexists; split; reflexivity|].
    destruct (show_sup (un u) (ue u)) as [t|]; [|discriminate]. cbn [bind] in h. injection h as <-. eexists. split; reflexivity. }
  destruct k as (t & k1 & k2). exists t. split; [reflexivity|]. split; [exact k2|]. apply show_bu_ok; assumption.
Qed.
Lemma multi_reads m s : held_num (mv m) -> (forall x, In x (mtop m ++ mbot m) -> printable x) -> multi_repr m = Ok s ->
  exists v ts ns bs, num_str (mv m) = Ok v /\ Forall2 shown (mtop m) ts /\ Forall2 shown_moved (map flip_bu (filter negative (mbot m))) ns /\ Forall2 shown (below (mbot m)) bs /\
    s = v +++ String " " (spaced (ts ++ ns) +++ match mbot m with nil => "" | _ => " / " +++ spaced bs end).
Proof.
  intros hv hp h. unfold multi_repr in h. destruct (get_unit_string (mtop m) (mbot m)) as [g|] eqn:eg; [|discriminate]. cbn [bind] in h. destruct (num_str (mv m)) as [v|] eqn:ev; [|discriminate]. cbn [bind] in h. injection h as <-.
  destruct (unit_string_ok (mtop m) (mbot m) g) as (ts & ns & bs & f1 & f2 & f3 & ->); [intros x hx; destruct (hp x hx) as (_ & q2 & q3); split; assumption|exact eg|].
  exists v, ts, ns, bs. repeat split; assumption.
Qed.
Lemma multi_tells m s : held_num (mv m) -> (forall x, In x (mtop m ++ mbot m) -> printable x) -> multi_repr m = Ok s ->
  exists v A B, num_str (mv m) = Ok v /\
     s = v +++ String " " (spaced A +++ match mbot m with nil => "" | _ => " / " +++ spaced B end) /\ Forall2 tells (above (mtop m) (mbot m)) A /\ Forall2 tells (below (mbot m)) B /\
     (forall t, In t (A ++ B) -> word t) /\ (forall x, In x (above (mtop m) (mbot m) ++ below (mbot m)) -> name_text (bname x) = true).
Proof.
  intros hv hp h. destruct (multi_reads m s hv hp h) as (v & ts & ns & bs & ev & f1 & f2 & f3 & ->).
  exists v, (ts ++ ns), bs. split; [exact ev|]. split; [reflexivity|].
  assert (g1 : Forall2 tells (above (mtop m) (mbot m)) (ts ++ ns)) by (apply Forall2_app; [apply (Forall2_imp _ _ _ _ shown_tells f1)|apply (Forall2_imp _ _ _ _ moved_tells f2)]).
  assert (g2 : Forall2 tells (below (mbot m)) bs) by (apply (Forall2_imp _ _ _ _ shown_tells f3)). split; [exact g1|]. split; [exact g2|].
  assert (pa : forall x, In x (above (mtop m) (mbot m)) -> printable x).
  { intros x hx. unfold above in hx. apply in_app_or in hx. destruct hx as [hx|hx]; [apply hp, in_or_app; left; exact hx|]. apply in_map_iff in hx. destruct hx as (y & <- & hy). apply filter_In in hy.
    destruct (hp y (in_or_app _ _ _ (or_intror (proj1 hy)))) as (q1 & q2 & q3). split; [exact q1|]. split; [exact q2|apply showable_flip, q3]. }
  assert (pb : forall x, In x (below (mbot m)) -> printable x) by (intros x hx; apply filter_In in hx; apply hp, in_or_app; right; apply hx). split.
  - intros t ht. apply in_app_or in ht. destruct ht as [ht|ht]; [exact (words _ _ pa g1 t ht)|exact (words _ _ pb g2 t ht)].
  - intros x hx. apply in_app_or in hx. destruct hx as [hx|hx]; [apply pa, hx|apply pb, hx].
Qed.
Theorem unit_text_inj a b s : held_num (uv a) -> held_num (uv b) -> printable (BU (un a) (ue a)) -> printable (BU (un b) (ue b)) ->
  unit_repr a = Ok s -> unit_repr b = Ok s -> uv a = uv b /\ un a = un b /\ ev (ue a) = ev (ue b).
Proof.
  intros ha hb pa pb ea eb. destruct (unit_reads a s ha pa ea) as (v & t & v1 & v2 & v3). destruct (unit_reads b s hb pb eb) as (w & r & w1 & w2 & w3).
  destruct (split_char " " v w t r) as (-> & ->); [exact (num_str_free _ _ ha v1)|exact (num_str_free _ _ hb w1)|congruence|].
  split; [exact (num_str_inj _ _ _ ha hb v1 w1)|]. pose proof (tells_inj _ _ _ (proj1 pa) (proj1 pb) (shown_tells _ _ v3) (shown_tells _ _ w3)) as q. unfold name_exp in q. cbn [bname bexp] in q. split; congruence.
Qed.
Lemma slash (C D : string) : C +++ " / " +++ D = (C +++ " ") +++ String "/" (String " " D).
Proof. rewrite sapp_assoc. reflexivity. Qed.
Theorem mixed_text a b s : held_num (uv a) -> held_num (mv b) -> printable (BU (un a) (ue a)) -> (forall x, In x (mtop b ++ mbot b) -> printable x) ->
  unit_repr a = Ok s -> multi_repr b = Ok s -> uv a = mv b /\ mbot b = nil /\ map name_exp (mtop b) = [name_exp (BU (un a) (ue a))].
Proof.
  intros ha hb pa pb ea eb. destruct (unit_reads a s ha pa ea) as (v & t & v1 & v2 & v3). destruct (multi_tells b s hb pb eb) as (w & A & B & w1 & w2 & w3 & w4 & w5 & w6).
  destruct (split_char " " v w _ _ (num_str_free _ _ ha v1) (num_str_free _ _ hb w1) (eq_trans (eq_sym v2) w2)) as (-> & e). split; [exact (num_str_inj _ _ _ ha hb v1 w1)|].
  pose proof (tells_word _ _ pa (shown_tells _ _ v3)) as wt. destruct (mbot b) as [|y r] eqn:mb; [|exfalso; rewrite slash in e; exact (no_split _ _ _ _ (proj2 (proj2 wt)) e)].
  split; [reflexivity|]. rewrite sapp_nil in e. change t with (spaced [t]) in e. apply spaced_inj in e; [|intros x [<-|[]]; exact wt|intros x hx; apply w5, in_or_app; left; exact hx]. subst A.
  unfold above in w3, w6. cbn [filter map] in w3, w6. rewrite app_nil_r in w3, w6. apply (tells_lists _ [BU (un a) (ue a)] [t]); [intros x hx; apply w6, in_or_app; left; exact hx|intros x [<-|[]]; apply pa|exact w3|].
  constructor; [exact (shown_tells _ _ v3)|constructor].
Qed.
Theorem multi_text_inj a b s : held_num (mv a) -> held_num (mv b) -> (forall x, In x (mtop a ++ mbot a ++ mtop b ++ mbot b) -> printable x) ->
  multi_repr a = Ok s -> multi_repr b = Ok s ->
  mv a = mv b /\ map name_exp (above (mtop a) (mbot a)) = map name_exp (above (mtop b) (mbot b)) /\ map name_exp (below (mbot a)) = map name_exp (below (mbot b)).
Proof.
  intros ha hb hp ea eb. destruct (multi_tells a s ha) as (v & A & B & v1 & v2 & v3 & v4 & v5 & v6); [intros x hx; apply hp; rewrite app_assoc; apply in_or_app; left; exact hx|exact ea|].
  destruct (multi_tells b s hb) as (w & A' & B' & w1 & w2 & w3 & w4 & w5 & w6); [intros x hx; apply hp; rewrite app_assoc; apply in_or_app; right; exact hx|exact eb|].
  destruct (split_char " " v w _ _ (num_str_free _ _ ha v1) (num_str_free _ _ hb w1) (eq_trans (eq_sym v2) w2)) as (-> & e). split; [exact (num_str_inj _ _ _ ha hb v1 w1)|].
  assert (sA : has_char "/" (spaced A) = false) by (apply spaced_no; intros t ht; apply v5, in_or_app; left; exact ht).
  assert (sA' : has_char "/" (spaced A') = false) by (apply spaced_no; intros t ht; apply w5, in_or_app; left; exact ht).
  assert (k : spaced A = spaced A' /\ map name_exp (below (mbot a)) = map name_exp (below (mbot b))).
  { destruct (mbot a) as [|x l] eqn:ma, (mbot b) as [|y r] eqn:mb.
    - rewrite !sapp_nil in e. split; [exact e|reflexivity].
    - exfalso. rewrite sapp_nil, slash in e. exact (no_split _ _ _ _ sA e).
    - exfalso. rewrite sapp_nil, slash in e. symmetry in e. exact (no_split _ _ _ _ sA' e).
    - rewrite !slash in e. apply split_char in e; [|rewrite has_char_app, sA; reflexivity|rewrite has_char_app, sA'; reflexivity]. destruct e as (e1 & e2). split; [exact (sapp_cancel_r _ _ _ e1)|].
      injection e2 as e2. apply spaced_inj in e2; [|intros t ht; apply v5, in_or_app; right; exact ht|intros t ht; apply w5, in_or_app; right; exact ht]. subst B'.
      apply (tells_lists _ _ B); [intros z hz; apply v6, in_or_app; right; exact hz|intros z hz; apply w6, in_or_app; right; exact hz|exact v4|exact w4]. }
  destruct k as (k1 & k2). split; [|exact k2]. apply spaced_inj in k1; [|intros t ht; apply v5, in_or_app; left; exact ht|intros t ht; apply w5, in_or_app; left; exact ht]. subst A'.
  apply (tells_lists _ _ A); [intros z hz; apply v6, in_or_app; left; exact hz|intros z hz; apply w6, in_or_app; left; exact hz|exact v3|exact w3].
Qed.

(** ** Quantities *)
Lemma usize_names w l : forall m, map name_exp l = map name_exp m -> usize w l = usize w m.
Proof.
  induction l as [|x l IH]; intros [|y m] h; try discriminate; [reflexivity|]. cbn [map] in h. injection h as h1 h2 h3. cbn [usize]. rewrite h1, h2, (IH m h3). reflexivity.
Qed.
Lemma usize_app w l m : (usize w (l ++ m) = usize w l * usize w m)%R.
Proof. induction l as [|x l IH]; cbn [List.app usize]; [ring|]. rewrite IH. ring. Qed.
Lemma usize_pos w l : (0 < usize w l)%R.
Proof. induction l as [|x l IH]; cbn [usize]; [lra|]. apply Rmult_lt_0_compat; [apply exp_pos|exact IH]. Qed.
Lemma msize_printed w top bot : (msize w top bot = usize w (above top bot) / usize w (below bot))%R.
Proof.
  unfold msize, above, below. rewrite usize_app.
  assert (k : (usize w (map flip_bu (filter negative bot)) * usize w bot = usize w (filter (fun x => negb (negative x)) bot))%R).
  { induction bot as [|x l IH]; [cbn; ring|]. cbn [filter usize]. destruct (negative x) eqn:n; cbn [negb map usize].
    - cbn [flip_bu bname bexp]. replace (QcR (ev (eopp (bexp x)))) with (- QcR (ev (bexp x)))%R.
      + rewrite Rpower_Ropp. pose proof (exp_pos (QcR (ev (bexp x)) * ln (w (bname x)))) as p. fold (Rpower (w (bname x)) (QcR (ev (bexp x)))) in p. rewrite <- IH. field. lra.
      + unfold QcR. change (this (ev (eopp (bexp x)))) with (Qred (- this (ev (bexp x)))). rewrite (Qeq_eqR _ _ (Qred_correct _)). rewrite Q2R_opp. reflexivity.
    - rewrite <- IH. ring. }
  pose proof (usize_pos w bot). pose proof (usize_pos w (map flip_bu (filter negative bot))). rewrite <- k. field. lra.
Qed.
Theorem unit_same w a b s : held_num (uv a) -> held_num (uv b) -> printable (BU (un a) (ue a)) -> printable (BU (un b) (ue b)) ->
  unit_repr a = Ok s -> unit_repr b = Ok s ->
  qty w (VUnit (UO (uc a) (num_R (uv a)) (un a) (ue a))) = qty w (VUnit (UO (uc b) (num_R (uv b)) (un b) (ue b))).
Proof. intros h1 h2 h3 h4 h5 h6. destruct (unit_text_inj a b s h1 h2 h3 h4 h5 h6) as (e1 & e2 & e3). cbn [qty uv un ue]. rewrite e1, e2, e3. reflexivity. Qed.
Theorem multi_same w a b s : held_num (mv a) -> held_num (mv b) -> (forall x, In x (mtop a ++ mbot a ++ mtop b ++ mbot b) -> printable x) ->
  multi_repr a = Ok s -> multi_repr b = Ok s ->
  qty w (VMulti (MO (mc a) (num_R (mv a)) (mtop a) (mbot a))) = qty w (VMulti (MO (mc b) (num_R (mv b)) (mtop b) (mbot b))).
Proof.
  intros h1 h2 h3 h4 h5. destruct (multi_text_inj a b s h1 h2 h3 h4 h5) as (e1 & e2 & e3). cbn [qty mv mtop mbot]. rewrite e1, !msize_printed, (usize_names w _ _ e2), (usize_names w _ _ e3). reflexivity.
Qed.
Theorem mixed_same w a b s : held_num (uv a) -> held_num (mv b) -> printable (BU (un a) (ue a)) -> (forall x, In x (mtop b ++ mbot b) -> printable x) ->
  unit_repr a = Ok s -> multi_repr b = Ok s ->
  qty w (VUnit (UO (uc a) (num_R (uv a)) (un a) (ue a))) = qty w (VMulti (MO (mc b) (num_R (mv b)) (mtop b) (mbot b))).
Proof.
  intros h1 h2 h3 h4 h5 h6. destruct (mixed_text a b s h1 h2 h3 h4 h5 h6) as (e1 & e2 & e3). cbn [qty uv un ue mv mtop mbot]. unfold msize. rewrite e1, e2, (usize_names w (mtop b) [BU (un a) (ue a)] e3). cbn [usize bname bexp]. f_equal. field.
Qed.
