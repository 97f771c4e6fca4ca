(** * UnitBlankFacts: blanks in unit strings *)
From Coq Require Import String Ascii List ZArith QArith Qcanon Bool Reals.
From Verif Require Import Py Num UnitsStruct Units TextSpec UnitBlankSpec TextFacts ParseFacts.
Import ListNotations.
Local Open Scope string_scope.
Local Open Scope list_scope.

Lemma blank_is c : blank c = is_space c.
Proof. destruct c as [[] [] [] [] [] [] [] []]; reflexivity. Qed.
Lemma lstrip_all a s : all_blank a = true -> lstrip (a +++ s) = lstrip s.
Proof. induction a as [|c a IH]; intro h; [reflexivity|]. cbn [all_blank] in h. apply andb_true_iff in h. destruct h as [h1 h2]. rewrite blank_is in h1. cbn [String.append lstrip]. rewrite h1. exact (IH h2). Qed.
Lemma rstrip_all b : all_blank b = true -> rstrip b = "".
Proof. induction b as [|c b IH]; intro h; [reflexivity|]. cbn [all_blank] in h. apply andb_true_iff in h. destruct h as [h1 h2]. rewrite blank_is in h1. cbn [rstrip]. rewrite (IH h2), h1. reflexivity. Qed.
Lemma rstrip_tail s b : all_blank b = true -> rstrip (s +++ b) = rstrip s.
Proof. intro h. induction s as [|a s IH]; [exact (rstrip_all b h)|]. cbn [String.append rstrip]. rewrite IH. reflexivity. Qed.
Lemma all_blank_app a b : all_blank (a +++ b) = all_blank a && all_blank b.
Proof. induction a as [|c a IH]; [reflexivity|]. cbn. rewrite IH, andb_assoc. reflexivity. Qed.
Lemma rstrip_prefix x y : rstrip y <> "" -> rstrip (x +++ y) = x +++ rstrip y.
Proof.
  intro k. induction x as [|a x IH]; [reflexivity|]. cbn [String.append rstrip]. rewrite IH. destruct (x +++ rstrip y) eqn:e; [destruct x; [exact (False_ind _ (k e))|discriminate]|].
  cbn [String.eqb]. rewrite andb_false_r. reflexivity.
Qed.
Lemma strip_wide a s b : all_blank a = true -> all_blank b = true -> blank_free s = true -> s <> "" -> strip (a +++ s +++ b) = s.
Proof.
  intros ha hb hs hn. unfold strip. rewrite lstrip_all by exact ha. destruct s as [|c s]; [tauto|].
  pose proof hs as h. cbn [blank_free] in h. apply andb_true_iff in h. destruct h as [h _]. apply negb_true_iff in h. cbn [String.append lstrip]. rewrite h.
  change (String c (s +++ b)) with (String c s +++ b). rewrite rstrip_tail by exact hb. apply rstrip_free. exact hs.
Qed.
Lemma num_not_empty n : num_ok n -> num_text n <> "".
Proof. intros h e. destruct (body_head n h) as [c [s [k _]]]. change (num_text n) with (sign_text (nsign n) +++ body n) in e. rewrite k in e. destruct (sign_text (nsign n)); discriminate. Qed.
Lemma float_wide a n b : all_blank a = true -> all_blank b = true -> num_ok n -> py_float (a +++ num_text n +++ b) = Ok (Q2Qc (num_val n)).
Proof.
  intros ha hb hn. rewrite <- (py_float_numeral n hn). unfold py_float. rewrite strip_wide by first [assumption | apply num_free; exact hn | apply num_not_empty; exact hn].
  rewrite (strip_free (num_text n)) by (apply num_free; exact hn). reflexivity.
Qed.
Lemma blank_has c a : blank c = false -> all_blank a = true -> has_char c a = false.
Proof.
  intro k. induction a as [|x a IH]; intro h; [reflexivity|]. cbn [all_blank] in h. apply andb_true_iff in h. destruct h as [h1 h2]. cbn [has_char]. rewrite (IH h2), orb_false_r.
  apply Ascii.eqb_neq. intros ->. congruence.
Qed.
Lemma wide_chars f c : wide_ok f -> In c ["/"; "*"]%char -> has_char c (wide_text f) = false.
Proof.
  destruct f as [n [[[a e] b]|]]; intros [[_ [h1 h2]] h3] i; unfold wide_text; cbn [fst snd narrow] in *.
  - destruct h3 as [ha hb]. rewrite !has_char_app. rewrite (plain_no n c h1), (plain_no _ c (num_plain e h2)) by (cbn in *; tauto).
    rewrite (blank_has c a), (blank_has c b) by (assumption || (destruct i as [<-|[<-|[]]]; reflexivity)). destruct i as [<-|[<-|[]]]; reflexivity.
  - apply plain_no; [exact h1|cbn in *; tauto].
Qed.
(** One factor, with any blanks after it. *)
Lemma parse_wide f : wide_ok f -> parse_factor (wide_text f) = Ok (parsed (narrow f)).
Proof.
  destruct f as [n [[[a e] b]|]]; intros [[h0 [h1 h2]] h3]; unfold wide_text; cbn [fst snd narrow] in *; [|exact (parse_factor_ok (n, None) (conj h0 (conj h1 I)))].
  destruct h3 as [ha hb]. unfold parse_factor, parsed, factor_unit. cbn [fst snd narrow]. rewrite has_char_app. cbn [has_char String.append]. replace (Ascii.eqb "^" "^") with true by reflexivity.
  cbn [orb]. rewrite orb_true_r. rewrite (split_sep "^" n (a +++ num_text e +++ b)) by (apply plain_no; [exact h1|cbn; tauto]).
  rewrite split_none by (rewrite !has_char_app, (blank_has "^" a), (blank_has "^" b) by (assumption || reflexivity); rewrite (plain_no (num_text e)) by (apply num_plain, h2 || (cbn; tauto)); reflexivity).
  rewrite (float_wide a e b ha hb h2). reflexivity.
Qed.
Lemma last_wide f z : wide_ok f -> all_blank z = true -> exists g, wide_ok g /\ narrow g = narrow f /\ rstrip (wide_text f +++ z) = wide_text g /\ wide_text g <> "".
Proof.
  destruct f as [n [[[a e] b]|]]; intros [[h0 [h1 h2]] h3] hz; unfold wide_text, wide_ok, narrow; cbn [fst snd] in *.
  - destruct h3 as [ha hb]. exists (n, Some (a, e, "")). cbn [fst snd]. split; [split; [split; [exact h0|split; [exact h1|exact h2]]|split; [exact ha|reflexivity]]|]. split; [reflexivity|].
    split; [|destruct n; [tauto|discriminate]]. rewrite sapp_nil. rewrite rstrip_tail by exact hz.
    assert (k : rstrip (num_text e +++ b) = num_text e) by (rewrite rstrip_tail by exact hb; apply rstrip_free, num_free, h2). assert (ne : num_text e <> "") by (apply num_not_empty; exact h2).
    replace (n +++ "^" +++ a +++ num_text e +++ b) with ((n +++ "^" +++ a) +++ (num_text e +++ b)) by (rewrite !sapp_assoc; reflexivity).
    rewrite rstrip_prefix by (rewrite k; exact ne). rewrite k, !sapp_assoc. reflexivity.
  - exists (n, None). cbn [fst snd]. split; [split; [split; [exact h0|split; [exact h1|exact I]]|exact I]|]. split; [reflexivity|]. split; [|exact h0].
    rewrite rstrip_tail by exact hz. apply rstrip_free, plain_blank, h1.
Qed.

(** A half. *)
Lemma split_wide l : forall z, l <> nil -> (forall f, In f l -> wide_ok f) -> all_blank z = true ->
  mapM parse_factor (split_on "*" (rstrip (stars (map wide_text l) +++ z))) = Ok (map parsed (map narrow l)).
Proof.
  induction l as [|f l IH]; intros z hn h hz; [tauto|]. assert (hf : wide_ok f) by (apply h; left; reflexivity). destruct l as [|g l].
  - cbn [map stars]. destruct (last_wide f z hf hz) as [g [hg [e1 [e2 _]]]]. rewrite e2. rewrite split_none by (apply wide_chars; [exact hg|cbn; tauto]). cbn [mapM]. rewrite (parse_wide g hg), e1. reflexivity.
  - change (stars (map wide_text (f :: g :: l))) with (wide_text f +++ "*" +++ stars (map wide_text (g :: l))). rewrite !sapp_assoc. cbn [String.append].
    rewrite ParseFacts.rstrip_app by reflexivity. rewrite split_sep by (apply wide_chars; [exact hf|cbn; tauto]).
    change (map parsed (map narrow (f :: g :: l))) with (parsed (narrow f) :: map parsed (map narrow (g :: l))). remember (g :: l) as r. cbn [mapM]. rewrite (parse_wide f hf). cbn [bind].
    rewrite IH by (subst r; (discriminate || assumption || (intros x hx; apply h; right; exact hx))). reflexivity.
Qed.
Lemma wide_head l : l <> nil -> (forall f, In f l -> wide_ok f) -> exists c r, stars (map wide_text l) = String c r /\ is_space c = false.
Proof.
  intros hn h. destruct l as [|f l]; [tauto|]. assert (k : wide_ok f) by (apply h; left; reflexivity). destruct f as [n e]. destruct k as [[h0 [h1 _]] _]. cbn [fst narrow] in h0, h1.
  destruct n as [|c n]; [tauto|]. pose proof (plain_blank _ h1) as b. cbn [blank_free] in b. apply andb_true_iff in b. destruct b as [b _]. apply negb_true_iff in b.
  assert (w : exists t, wide_text (String c n, e) = String c t) by (destruct e as [[[? ?] ?]|]; eexists; reflexivity). destruct w as [t w].
  destruct l as [|g l]; cbn [map stars]; rewrite w; do 2 eexists; (split; [reflexivity|exact b]).
Qed.
Lemma half_wide a b l : l <> nil -> (forall f, In f l -> wide_ok f) -> all_blank a = true -> all_blank b = true -> parse_half (a +++ stars (map wide_text l) +++ b) = Ok (map parsed (map narrow l)).
Proof.
  intros hn h ha hb. unfold parse_half, strip. rewrite lstrip_all by exact ha. destruct (wide_head l hn h) as [c [r [e hc]]].
  assert (k : lstrip (stars (map wide_text l) +++ b) = stars (map wide_text l) +++ b) by (rewrite e; cbn [String.append lstrip]; rewrite hc; reflexivity).
  rewrite k. apply split_wide; assumption.
Qed.
Lemma stars_slash l : (forall f, In f l -> wide_ok f) -> has_char "/" (stars (map wide_text l)) = false.
Proof.
  induction l as [|f l IH]; intro h; [reflexivity|]. assert (k : has_char "/" (wide_text f) = false) by (apply wide_chars; [apply h; left; reflexivity|cbn; tauto]).
  destruct l as [|g l]; [exact k|]. change (stars (map wide_text (f :: g :: l))) with (wide_text f +++ "*" +++ stars (map wide_text (g :: l))). rewrite !has_char_app, k, IH by (intros x hx; apply h; right; exact hx). reflexivity.
Qed.
Theorem wide_unit_read c (v : R) a b d e top bot : top <> nil -> (forall f, In f (top ++ bot) -> wide_ok f) ->
  all_blank a = true -> all_blank b = true -> all_blank d = true -> all_blank e = true ->
  mk_multi c v (wide_unit a b d e top bot) = mk_multi c v (unit_text (map narrow top) (map narrow bot)) /\
  exists m, mk_multi c v (wide_unit a b d e top bot) = Ok m.
Proof.
  intros hn h ha hb hd he. assert (ht : forall f, In f top -> wide_ok f) by (intros; apply h, in_or_app; auto). assert (hbt : forall f, In f bot -> wide_ok f) by (intros; apply h, in_or_app; auto).
  assert (hnn : map narrow top <> nil) by (destruct top; [tauto|discriminate]).
  assert (ok : forall f, In f (map narrow top ++ map narrow bot) -> factor_ok f) by (intros f i; rewrite <- map_app in i; apply in_map_iff in i; destruct i as [g [<- i]]; apply (h g i)).
  assert (p : parse_units (wide_unit a b d e top bot) = Ok (map parsed (map narrow top), map parsed (map narrow bot))).
  { unfold parse_units, wide_unit. destruct bot as [|y bot].
    - rewrite sapp_nil. rewrite split_none by (rewrite !has_char_app, stars_slash, (blank_has "/" a), (blank_has "/" b) by (assumption || reflexivity); reflexivity). cbn [bind]. rewrite half_wide by assumption. reflexivity.
    - replace (a +++ stars (map wide_text top) +++ b +++ "/" +++ d +++ stars (map wide_text (y :: bot)) +++ e) with ((a +++ stars (map wide_text top) +++ b) +++ String "/" (d +++ stars (map wide_text (y :: bot)) +++ e)) by (rewrite !sapp_assoc; reflexivity).
      rewrite split_sep by (rewrite !has_char_app, stars_slash, (blank_has "/" a), (blank_has "/" b) by (assumption || reflexivity); reflexivity).
      rewrite split_none by (rewrite !has_char_app, stars_slash, (blank_has "/" d), (blank_has "/" e) by (assumption || reflexivity); reflexivity).
      rewrite (half_wide d e (y :: bot)) by (discriminate || assumption). cbn [bind]. rewrite half_wide by assumption. reflexivity. }
  assert (n1 : String.eqb (wide_unit a b d e top bot) "" = false).
  { destruct (wide_head top hn ht) as [x [r [k _]]]. unfold wide_unit. rewrite k. destruct a; reflexivity. }
  assert (n2 : String.eqb (unit_text (map narrow top) (map narrow bot)) "" = false).
  { unfold unit_text. destruct top as [|f top]; [tauto|]. assert (w : wide_ok f) by (apply ht; left; reflexivity). destruct f as [n x]. destruct w as [[h0 _] _]. cbn [narrow fst] in h0. destruct n as [|q n]; [tauto|].
    destruct top as [|g top]; destruct x as [[[? ?] ?]|]; reflexivity. }
  unfold mk_multi. rewrite n1, n2, p, (parse_text _ _ hnn ok). split; [reflexivity|]. eexists. reflexivity.
Qed.

(** Blanks around a star. *)
Theorem star_blanks c (v : R) f g : factor_ok f -> factor_ok g -> exists m, mk_multi c v (factor_text f +++ " * " +++ factor_text g) = Ok m /\ mbot m = nil /\
  map (fun x => (bname x, ev (bexp x))) (mtop m) =
  [(fst f +++ (match snd f with None => " " | Some _ => "" end), snd (factor_unit f)); (" " +++ fst g, snd (factor_unit g))].
Proof.
  intros hf hg. destruct (factor_chars f hf) as [f1 [f2 f3]]. destruct (factor_chars g hg) as [g1 [g2 g3]].
  assert (st : strip (factor_text f +++ " * " +++ factor_text g) = factor_text f +++ " * " +++ factor_text g).
  { assert (gn : factor_text g <> "") by (destruct hg as [k _]; destruct g as [n [e|]]; cbn [factor_text fst snd] in *; [destruct n; [tauto|discriminate]|exact k]).
    assert (fn : factor_text f <> "") by (destruct hf as [k _]; destruct f as [n [e|]]; cbn [factor_text fst snd] in *; [destruct n; [tauto|discriminate]|exact k]).
    unfold strip. assert (k : lstrip (factor_text f +++ " * " +++ factor_text g) = factor_text f +++ " * " +++ factor_text g).
    { destruct (factor_text f) as [|q t]; [tauto|]. cbn [blank_free] in f1. apply andb_true_iff in f1. destruct f1 as [f1 _]. apply negb_true_iff in f1. cbn [String.append lstrip]. rewrite f1. reflexivity. }
    rewrite k. rewrite <- sapp_assoc. rewrite rstrip_prefix; rewrite (rstrip_free (factor_text g) g1); [reflexivity|exact gn]. }
  assert (pf : parse_factor (factor_text f +++ " ") = Ok (BU (fst f +++ (match snd f with None => " " | Some _ => "" end)) (eflt (snd (factor_unit f))))).
  { destruct f as [n [e|]]; destruct hf as [h0 [h1 h2]]; cbn [fst snd factor_text factor_unit] in *.
    - rewrite !sapp_assoc, sapp_nil. exact (parse_wide (n, Some ("", e, " ")) (conj (conj h0 (conj h1 h2)) (conj eq_refl eq_refl))).
    - unfold parse_factor. rewrite has_char_app, (plain_no n) by (exact h1 || (cbn; tauto)). reflexivity. }
  assert (pg : parse_factor (" " +++ factor_text g) = Ok (BU (" " +++ fst g) (eflt (snd (factor_unit g))))).
  { destruct g as [n [e|]]; destruct hg as [h0 [h1 h2]]; cbn [fst snd factor_text factor_unit] in *.
    - unfold parse_factor. rewrite !has_char_app. cbn [has_char String.append]. replace (Ascii.eqb "^" "^") with true by reflexivity. cbn [orb]. rewrite !orb_true_r.
      change (String " " (n +++ String "^" (num_text e))) with ((" " +++ n) +++ String "^" (num_text e)). rewrite split_sep by (rewrite has_char_app, (plain_no n) by (exact h1 || (cbn; tauto)); reflexivity).
      rewrite split_none by (apply plain_no; [apply num_plain; exact h2|cbn; tauto]). rewrite (py_float_numeral e h2). reflexivity.
    - unfold parse_factor. rewrite has_char_app, (plain_no n) by (exact h1 || (cbn; tauto)). reflexivity. }
  unfold mk_multi. assert (ne : String.eqb (factor_text f +++ " * " +++ factor_text g) "" = false) by (destruct (factor_text f); reflexivity). rewrite ne.
  unfold parse_units. rewrite split_none by (rewrite !has_char_app, f3, g3; reflexivity). cbn [bind]. unfold parse_half. rewrite st.
  replace (factor_text f +++ " * " +++ factor_text g) with ((factor_text f +++ " ") +++ String "*" (" " +++ factor_text g)) by (rewrite !sapp_assoc; reflexivity).
  rewrite split_sep by (rewrite has_char_app, f2; reflexivity). rewrite split_none by (rewrite has_char_app, g2; reflexivity). cbn [mapM]. rewrite pf, pg. cbn [bind].
  eexists. split; [reflexivity|]. split; reflexivity.
Qed.
