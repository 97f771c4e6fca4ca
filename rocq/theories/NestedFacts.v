(** * NestedFacts: formulas with any number of groups *)
From Coq Require Import String Ascii List ZArith QArith Qcanon Qabs Bool Lia.
From Verif Require Import Py Balance BalanceSpec BalanceFacts.
Import ListNotations.
Local Open Scope string_scope.
Local Open Scope list_scope.

(** Induction over formulas. *)
Lemma item_rect_list (P : item -> Prop) : (forall s n, P (Atom s n)) -> (forall g n, Forall P g -> P (Group g n)) -> forall i, P i.
Proof.
  intros ha hg. fix IH 1. intros [s n|g n]; [apply ha|]. apply hg. induction g as [|i g IHg]; constructor; [apply IH|exact IHg].
Qed.
Lemma well_list g : fold_right (fun j P => well j /\ P) True g <-> Forall well g.
Proof. induction g as [|i g IH]; cbn [fold_right]; [split; constructor|]. rewrite IH. split; [intros [a b]; constructor; assumption|intro h; inversion h; tauto]. Qed.
Lemma plain_well i : plain_atom i -> well i.
Proof. destruct i; [auto|intros []]. Qed.
Lemma plain_wells f : Forall plain_atom f -> Forall well f.
Proof. apply Forall_impl, plain_well. Qed.

(** ** Elements of a text *)
Fixpoint item_pairs (i : item) : list (string * string) := match i with Atom s n => [(s, n)] | Group g _ => flat_map item_pairs g end.
Definition pairs (f : formula) : list (string * string) := flat_map item_pairs f.
Lemma fe_skip n s : all_digits n -> find_elements None (n +++ s) = find_elements None s.
Proof.
  induction n as [|c n IH]; [reflexivity|]. intros [hc hn]. cbn [append find_elements close_match app]. rewrite (proj1 (digit_not c hc)). apply IH. exact hn.
Qed.
Lemma item_stops i s : well i -> stops (item_text i +++ s).
Proof. destruct i as [sy n|g n]; intro h; [apply (atom_stops (Atom sy n)); exact h|]. cbn. split; reflexivity. Qed.
Lemma text_cons i f : formula_text (i :: f) = item_text i +++ formula_text f.
Proof. reflexivity. Qed.
Lemma wells_stop f s : Forall well f -> stops s -> stops (formula_text f +++ s).
Proof. intros h hs. destruct h as [|i f hi hf]; [exact hs|]. rewrite text_cons, app_ass. apply item_stops. exact hi. Qed.
Lemma fe_items f : Forall (fun i => well i -> forall cur s, stops s -> find_elements cur (item_text i +++ s) = close_match cur ++ item_pairs i ++ find_elements None s) f ->
  Forall well f -> forall cur s, stops s -> find_elements cur (formula_text f +++ s) = close_match cur ++ pairs f ++ find_elements None s.
Proof.
  induction f as [|i f IH]; intros hi hw cur s hs; [apply fe_stop; exact hs|]. inversion hi; inversion hw; subst. rewrite text_cons, app_ass.
  rewrite H1 by (assumption || apply wells_stop; assumption). rewrite (IH H2 H6 None s hs). unfold pairs. cbn [flat_map close_match app]. rewrite <- app_assoc. reflexivity.
Qed.
Lemma fe_item i : well i -> forall cur s, stops s -> find_elements cur (item_text i +++ s) = close_match cur ++ item_pairs i ++ find_elements None s.
Proof.
  induction i as [sy n|g n IH] using item_rect_list; intros h cur s hs; [apply (fe_atom cur (Atom sy n)); assumption|].
  destruct h as [_ [hn hg]]. apply well_list in hg. cbn [item_text item_pairs]. fold (formula_text g) (pairs g).
  replace (("(" +++ formula_text g +++ ")" +++ n) +++ s) with (String "(" (formula_text g +++ (String ")" (n +++ s)))) by (cbn [append]; rewrite !app_ass; reflexivity).
  rewrite fe_stop by (split; reflexivity). f_equal. cbn [find_elements]. replace (is_upper "(") with false by reflexivity. cbn [close_match app].
  rewrite (fe_items g IH hg) by (split; reflexivity). cbn [close_match app]. f_equal. cbn [find_elements]. replace (is_upper ")") with false by reflexivity. cbn [close_match app].
  apply fe_skip. exact hn.
Qed.
Lemma fe_formula f s : Forall well f -> stops s -> find_elements None (formula_text f +++ s) = pairs f ++ find_elements None s.
Proof. intros h hs. apply (fe_items f (proj2 (Forall_forall _ f) (fun i _ => fe_item i)) h None s hs). Qed.
Lemma fe_text f : Forall well f -> find_elements None (formula_text f) = pairs f.
Proof. intro h. rewrite <- (app_nil (formula_text f)), fe_formula by (exact h || exact I). apply app_nil_r. Qed.
(** Digits after the last parenthesis do not matter. *)
Lemma fe_tail n a : forall cur, all_digits n -> find_elements cur (a +++ String ")" n) = find_elements cur (a +++ ")").
Proof.
  intros cur hn. revert cur. induction a as [|c a IH]; intro cur.
  - cbn [append]. rewrite !(fe_stop cur) by (split; reflexivity). f_equal. cbn [find_elements close_match app]. replace (is_upper ")") with false by reflexivity.
    rewrite <- (app_nil n), fe_skip by exact hn. reflexivity.
  - cbn [append find_elements]. destruct (match cur with Some (l, d) => _ | None => None end); [apply IH|]. f_equal. apply IH.
Qed.

(** ** Counting *)
Lemma dict_of d s m l : find_elements None s = l ->
  (forall e, count (get_chemical_dict d s m) e = (count d e + total (fun p => if String.eqb (fst p) e then pair_value p else 0) l * m)%Z) /\
  (forall e, In e (map fst (get_chemical_dict d s m)) <-> In e (map fst d) \/ In e (map fst l)).
Proof. intros <-. unfold get_chemical_dict. split; intro e; [apply fold_count|apply fold_keys]. Qed.
Lemma pairs_item e i : well i -> total (fun p => if String.eqb (fst p) e then pair_value p else 0%Z) (item_pairs i) = item_written e i.
Proof.
  induction i as [s n|g n IH] using item_rect_list; intro h.
  - cbn [item_pairs total fold_right fst item_written]. rewrite pair_value_atom by apply h. destruct (String.eqb s e); lia.
  - destruct h as [_ [_ hg]]. apply well_list in hg. cbn [item_pairs item_written]. clear n. induction g as [|i g IHg]; [reflexivity|]. inversion IH; inversion hg; subst.
    cbn [flat_map]. rewrite total_app, H1 by assumption. cbn [total fold_right]. f_equal. apply IHg; assumption.
Qed.
Lemma pairs_total f e : Forall well f -> total (fun p => if String.eqb (fst p) e then pair_value p else 0%Z) (pairs f) = written f e.
Proof.
  intro h. unfold written, pairs. induction h as [|i f hi hf IH]; [reflexivity|]. cbn [flat_map]. rewrite total_app, pairs_item by exact hi. cbn [total fold_right]. f_equal. exact IH.
Qed.
Lemma pairs_symbols f : map fst (pairs f) = formula_symbols f.
Proof.
  unfold pairs, formula_symbols. induction f as [|i f IH]; [reflexivity|]. cbn [flat_map]. rewrite map_app, IH. f_equal.
  clear. induction i as [s n|g n IH] using item_rect_list; [reflexivity|]. cbn [item_pairs item_symbols]. induction IH as [|i g hi hg IHg]; [reflexivity|].
  cbn [flat_map]. rewrite map_app, hi, IHg. reflexivity.
Qed.
Lemma written_plain f e : Forall plain_atom f -> written f e = atoms f e.
Proof. intro h. unfold written, atoms. induction h as [|i f hi hf IH]; [reflexivity|]. cbn [total fold_right]. f_equal; [|exact IH]. destruct i; [reflexivity|destruct hi]. Qed.

(** ** Parentheses *)
Definition plainly (c : ascii) : Prop := alnum c \/ c = "("%char \/ c = ")"%char.
Fixpoint all_plainly (s : string) : Prop := match s with EmptyString => True | String c s => plainly c /\ all_plainly s end.
Lemma plainly_app s s' : all_plainly (s +++ s') <-> all_plainly s /\ all_plainly s'.
Proof. induction s as [|c s IH]; cbn; [tauto|]. rewrite IH. tauto. Qed.
Lemma alnum_plainly s : all_alnum s -> all_plainly s.
Proof. induction s as [|c s IH]; cbn; [tauto|]. intros [h1 h2]. split; [left; exact h1|auto]. Qed.
Lemma wells_plainly f : Forall well f -> all_plainly (formula_text f).
Proof.
  assert (K : forall i, well i -> all_plainly (item_text i)).
  { induction i as [s n|g n IH] using item_rect_list; intro h.
    - apply alnum_plainly. pose proof (alnum_atoms [Atom s n] (Forall_cons (P := plain_atom) (Atom s n) h (Forall_nil plain_atom))) as k. unfold formula_text in k. cbn [concat_with fold_right] in k. rewrite app_nil in k. exact k.
    - destruct h as [_ [hn hg]]. apply well_list in hg. cbn [item_text append]. split; [right; left; reflexivity|]. apply plainly_app. split.
      + induction g as [|i g IHg]; [exact I|]. inversion IH; inversion hg; subst. cbn [concat_with fold_right]. apply plainly_app. split; [auto|]. apply IHg; assumption.
      + cbn [append]. split; [right; right; reflexivity|]. apply alnum_plainly, alnum_digits. exact hn. }
  induction 1 as [|i f hi hf IH]; [exact I|]. rewrite text_cons. apply plainly_app. split; [apply K; exact hi|exact IH].
Qed.
Lemma plainly_special s : all_plainly s -> any_char regex_special s = false /\ has_char "010" s = false.
Proof.
  induction s as [|a s IH]; intro h; [split; reflexivity|]. destruct h as [ha hs]. destruct (IH hs) as [h1 h2]. cbn [any_char has_char]. rewrite h1, h2, !orb_false_r.
  destruct ha as [ha|[->| ->]]; [|split; reflexivity|split; reflexivity]. pose proof (any_special (String a "") (conj ha I)) as k. cbn [any_char] in k. rewrite orb_false_r in k.
  split; [exact k|]. apply alnum_neq; [odd|exact ha].
Qed.
(** The text after the parenthesis that closes first. *)
Lemma cut_before c s t : has_char c s = false -> cut_first c (s +++ t) = match cut_first c t with Some (a, b) => Some (s +++ a, b) | None => None end.
Proof.
  induction s as [|a s IH]; intro h; [cbn; destruct (cut_first c t) as [[? ?]|]; reflexivity|]. cbn [has_char] in h. apply orb_false_iff in h. destruct h as [h1 h2].
  cbn [append cut_first]. rewrite h1, IH by exact h2. destruct (cut_first c t) as [[? ?]|]; reflexivity.
Qed.
Definition closes (f : formula) : Prop := forall s, stops s ->
  match first_subscript f with
  | None => has_char ")" (formula_text f) = false
  | Some k => exists a r, cut_first ")" (formula_text f +++ s) = Some (a, k +++ r) /\ stops r /\ all_digits k
  end.
Definition closes_item (i : item) : Prop := forall s, stops s ->
  match item_subscript i with
  | None => has_char ")" (item_text i) = false
  | Some k => exists a r, cut_first ")" (item_text i +++ s) = Some (a, k +++ r) /\ stops r /\ all_digits k
  end.
Lemma close_list f : Forall closes_item f -> Forall well f -> closes f.
Proof.
  induction f as [|i f IH]; intros hc hw s hs; [reflexivity|]. inversion hc; inversion hw; subst. unfold first_subscript. cbn [first_some fold_right]. rewrite text_cons.
  pose proof (wells_stop f s H6 hs) as hst. specialize (H1 _ hst). destruct (item_subscript i) as [k|].
  - rewrite app_ass. exact H1.
  - specialize (IH H2 H6 s hs). unfold first_subscript in IH. fold (first_some item_subscript f). destruct (first_some item_subscript f) as [k|].
    + destruct IH as [a [r [h1 h2]]]. rewrite app_ass, cut_before by exact H1. rewrite h1. eauto.
    + rewrite has_char_app, H1. exact IH.
Qed.
Lemma close_item i : well i -> closes_item i.
Proof.
  induction i as [s n|g n IH] using item_rect_list; intros h t ht.
  - cbn [item_subscript]. apply has_char_alnum; [odd|]. pose proof (alnum_atoms [Atom s n] (Forall_cons (P := plain_atom) (Atom s n) h (Forall_nil plain_atom))) as k. unfold formula_text in k. cbn [concat_with fold_right] in k. rewrite app_nil in k. exact k.
  - destruct h as [_ [hn hg]]. apply well_list in hg. cbn [item_subscript item_text]. fold (formula_text g).
    assert (hc : closes g). { apply close_list; [|exact hg]. rewrite Forall_forall in *. intros i hi. apply IH; [exact hi|apply hg; exact hi]. }
    replace (("(" +++ formula_text g +++ ")" +++ n) +++ t) with ("(" +++ formula_text g +++ String ")" (n +++ t)) by (cbn [append]; rewrite !app_ass; reflexivity).
    specialize (hc (String ")" (n +++ t)) (conj eq_refl eq_refl)). unfold first_subscript in hc. destruct (first_some item_subscript g) as [k|].
    + destruct hc as [a [r [h1 h2]]]. rewrite cut_before by reflexivity. rewrite h1. eauto.
    + rewrite (cut_before ")" "(") by reflexivity. rewrite cut_first_app by exact hc. exists ("(" +++ formula_text g), t. split; [reflexivity|]. split; [exact ht|exact hn].
Qed.
Lemma close_formula f : Forall well f -> closes f.
Proof. intro h. apply close_list; [|exact h]. rewrite Forall_forall in *. intros i hi. apply close_item, h, hi. Qed.
Lemma open_none f : Forall plain_atom f -> first_subscript f = None.
Proof. unfold first_subscript. induction 1 as [|i f hi hf IH]; [reflexivity|]. cbn [first_some fold_right]. destruct i; [exact IH|destruct hi]. Qed.
Lemma span_subscript f x m y n : spans f x m y n -> first_subscript f = first_subscript m /\ exists k, first_subscript m = Some k.
Proof.
  intros [-> [hx [_ [[g [k [m' ->]]] _]]]]. unfold first_subscript.
  assert (e : forall z, first_some item_subscript (x ++ z) = first_some item_subscript z).
  { intro z. induction hx as [|i x hi hx IH]; [reflexivity|]. cbn [app first_some fold_right]. destruct i; [exact IH|destruct hi]. }
  rewrite e. cbn [app first_some fold_right item_subscript]. destruct (first_some item_subscript g); split; eauto.
Qed.
(** The text of what lies between the parentheses. *)
Lemma span_text m m' g k (m2 : formula) g2 n : m = Group g k :: m' -> m = m2 ++ [Group g2 n] -> Forall well m ->
  exists t, formula_text m = String "(" (t +++ String ")" n) /\ t <> "".
Proof.
  intros h1 h2 hw. destruct m2 as [|i m2].
  - cbn [app] in h2. subst m. injection h2 as -> -> ->. inversion hw as [|? ? hi _]; subst. destruct hi as [hne [_ hg]]. apply well_list in hg.
    exists (formula_text g2). split; [rewrite text_cons; cbn [item_text append formula_text concat_with fold_right]; rewrite app_ass; cbn [append]; rewrite app_nil; reflexivity|].
    destruct hg as [|i g hi hg]; [tauto|]. rewrite text_cons. destruct i as [s m|gg m]; [|discriminate]. destruct hi as [[[c [_ ->]]|[c [d [_ [_ ->]]]]] _]; discriminate.
  - assert (e : i = Group g k) by (rewrite h1 in h2; cbn [app] in h2; congruence). subst i. rewrite h2. exists (formula_text g +++ ")" +++ k +++ formula_text m2 +++ "(" +++ formula_text g2). split.
    + cbn [app]. rewrite text_cons. unfold formula_text at 1. rewrite concat_app. fold (formula_text m2). cbn [item_text concat_with fold_right append]. rewrite app_nil, !app_ass. cbn [append]. rewrite !app_ass. reflexivity.
    + destruct (formula_text g); discriminate.
Qed.
Lemma drop_all n s : all_digits n -> stops s -> drop_digits (n +++ s) = s.
Proof.
  intros h hs. induction n as [|c n IH]; [destruct s as [|c s]; [reflexivity|]; destruct hs as [hd _]; cbn; rewrite hd; reflexivity|].
  destruct h as [hc hn]. cbn. rewrite (proj2 (digit_iff c) hc). apply IH. exact hn.
Qed.
Theorem any_groups f x m y n : Forall well f -> spans f x m y n ->
  match first_subscript m with
  | Some (String c _) => digit c /\ exists d, parse_molecule (formula_text f) = Ok d /\ NoDup (map fst d) /\
      (forall e, In e (map fst d) <-> In e (formula_symbols f)) /\
      (forall e k, In (e, k) d -> k = (Z.of_nat (nat_of_ascii c) - 48) * written m e + (if String.eqb n "" then written f e else atoms x e + atoms y e))%Z
  | _ => parse_molecule (formula_text f) = Raise EIndexError \/ parse_molecule (formula_text f) = Raise EValueError
  end.
Proof.
  intros hw hs. destruct (span_subscript _ _ _ _ _ hs) as [es [k ek]]. destruct hs as [-> [hx [hy [[g [k1 [m1 em]]] [m2 [g2 em2]]]]]].
  assert (hm : Forall well m) by (apply Forall_app in hw; destruct hw as [_ hw]; apply Forall_app in hw; apply hw).
  destruct (span_text m m1 g k1 m2 g2 n em em2 hm) as [t [et ht]].
  assert (hn : all_digits n). { rewrite em2 in hm. apply Forall_app in hm. destruct hm as [_ hm]. inversion hm as [|? ? hi _]; subst. apply hi. }
  pose proof (alnum_atoms x hx) as ax. pose proof (alnum_atoms y hy) as ay.
  pose proof (close_formula _ hw "" I) as hc. rewrite es, ek, app_nil in hc. destruct hc as [a [r [hc [hr hk]]]]. rewrite ek.
  pose proof (wells_plainly _ hw) as hp. destruct (plainly_special _ hp) as [_ hnl].
  assert (etext : formula_text (x ++ m ++ y) = formula_text x +++ String "(" (t +++ String ")" (n +++ formula_text y))).
  { unfold formula_text. rewrite !concat_app. fold (formula_text x) (formula_text m) (formula_text y). rewrite et. cbn [append]. rewrite app_ass. reflexivity. }
  assert (sp : any_char regex_special t = false).
  { pose proof (wells_plainly m hm) as k'. rewrite et in k'. cbn [all_plainly] in k'. destruct k' as [_ k']. apply plainly_app in k'. apply (plainly_special t). apply k'. }
  assert (pg : paren_group (formula_text (x ++ m ++ y)) = Some (formula_text x, t, n +++ formula_text y)).
  { rewrite etext. unfold paren_group. rewrite cut_first_app by (apply has_char_alnum; [odd|exact ax]).
    rewrite cut_last_app by (apply has_char_alnum; [odd|apply alnum_app; split; [apply alnum_digits; exact hn|exact ay]]).
    destruct (String.eqb_spec t ""); [contradiction|reflexivity]. }
  unfold parse_molecule. rewrite hnl, pg, hc. destruct k as [|c k].
  - cbn [append]. destruct r as [|c r]; [left; reflexivity|]. right. cbn [int_of_next]. rewrite (proj1 hr). reflexivity.
  - destruct hk as [hdc _]. split; [exact hdc|]. cbn [append int_of_next]. rewrite (proj2 (digit_iff c) hdc). cbn [bind]. rewrite sp.
    assert (e1 : find_elements None (String "(" (t +++ ")")) = pairs m).
    { rewrite <- (fe_text m hm), et. change (String "(" (t +++ String ")" n)) with (String "(" t +++ String ")" n). rewrite fe_tail by exact hn. reflexivity. }
    destruct (dict_of [] _ (digit_val c) _ e1) as [d1 d2]. change ("(" +++ t +++ ")") with (String "(" (t +++ ")")). set (dg := get_chemical_dict [] (String "(" (t +++ ")")) (digit_val c)) in *.
    assert (nd : NoDup (map fst dg)) by (apply nodup_dict; constructor).
    assert (sy : forall e, In e (formula_symbols (x ++ m ++ y)) <-> In e (formula_symbols x) \/ In e (formula_symbols m) \/ In e (formula_symbols y)).
    { intro e. unfold formula_symbols. rewrite !flat_map_app, !in_app_iff. tauto. }
    assert (sty : stops (formula_text y)) by (rewrite <- (app_nil (formula_text y)); apply atoms_stops; [exact hy|exact I]).
    destruct n as [|b n].
    + cbn [append String.eqb]. assert (st : starts_digit (formula_text y) = false) by (destruct (formula_text y); [reflexivity|apply sty]). rewrite st.
      destruct (dict_of dg _ 1 _ (fe_text _ hw)) as [f1 f2]. eexists. split; [reflexivity|]. pose proof (nodup_dict dg (formula_text (x ++ m ++ y)) 1 nd) as nd'. split; [exact nd'|]. split.
      * intro e. rewrite f2, d2, !pairs_symbols, sy. cbn [map In]. tauto.
      * intros e z hz. apply (count_in _ e z nd') in hz. destruct hz as [_ ->]. rewrite f1, d1, !pairs_total by assumption. cbn [count find]. unfold digit_val. lia.
    + cbn [append String.eqb starts_digit drop_digits]. destruct hn as [hb hn]. rewrite (proj2 (digit_iff b) hb), drop_all by assumption.
      replace (formula_text x +++ formula_text y) with (formula_text (x ++ y)) by apply concat_app.
      assert (hxy : Forall plain_atom (x ++ y)) by (apply Forall_app; split; assumption).
      destruct (dict_of dg _ 1 _ (fe_text _ (plain_wells _ hxy))) as [f1 f2]. eexists. split; [reflexivity|]. pose proof (nodup_dict dg (formula_text (x ++ y)) 1 nd) as nd'. split; [exact nd'|]. split.
      * intro e. rewrite f2, d2, !pairs_symbols, sy. cbn [map In]. unfold formula_symbols. rewrite flat_map_app, in_app_iff. tauto.
      * intros e z hz. apply (count_in _ e z nd') in hz. destruct hz as [_ ->]. rewrite f1, d1, !pairs_total by (assumption || apply plain_wells; exact hxy).
        rewrite (written_plain (x ++ y)) by exact hxy. unfold atoms at 1. rewrite total_app. fold (atoms x e) (atoms y e). cbn [count find]. unfold digit_val. lia.
Qed.
(** Every formula is of this form, or has no group. *)
Theorem span_exists f : Forall well f -> Forall plain_atom f \/ exists x m y n, spans f x m y n.
Proof.
  intro h.
  assert (L : forall l, Forall well l -> Forall plain_atom l \/ exists x g k z, l = x ++ Group g k :: z /\ Forall plain_atom x).
  { clear. induction 1 as [|i l hi hl IH]; [left; constructor|]. destruct i as [s n|g n].
    - destruct IH as [IH|[x [g [k [z [-> hx]]]]]]; [left; constructor; [exact hi|exact IH]|]. right. exists (Atom s n :: x), g, k, z. split; [reflexivity|]. constructor; [exact hi|exact hx].
    - right. exists [], g, n, l. split; [reflexivity|constructor]. }
  destruct (L f h) as [hp|[x [g [k [z [-> hx]]]]]]; [left; exact hp|]. right.
  assert (hr : Forall well (rev z)) by (apply Forall_app in h; destruct h as [_ h]; inversion h; subst; apply Forall_rev; assumption).
  destruct (L (rev z) hr) as [hp|[y [g2 [n [w [ew hy]]]]]].
  - exists x, [Group g k], z, k. split; [reflexivity|]. split; [exact hx|]. split; [rewrite <- (rev_involutive z); apply Forall_rev; exact hp|]. split; [exists g, k, []; reflexivity|exists [], g; reflexivity].
  - exists x, (Group g k :: rev w ++ [Group g2 n]), (rev y), n. assert (ez : z = rev w ++ [Group g2 n] ++ rev y).
    { rewrite <- (rev_involutive z), ew, rev_app_distr. cbn [rev]. rewrite <- app_assoc. reflexivity. }
    split; [rewrite ez; cbn [app]; rewrite <- !app_assoc; reflexivity|]. split; [exact hx|]. split; [apply Forall_rev; exact hy|].
    split; [exists g, k, (rev w ++ [Group g2 n]); reflexivity|exists (Group g k :: rev w), g2; reflexivity].
Qed.
Lemma total_parts x m y e : atoms (x ++ m ++ y) e = (atoms x e + atoms m e + atoms y e)%Z /\ written (x ++ m ++ y) e = (written x e + written m e + written y e)%Z.
Proof. unfold atoms, written. rewrite !total_app. split; lia. Qed.
Theorem any_groups_right f x m y n c k d : Forall well f -> spans f x m y n -> first_subscript m = Some (String c k) -> parse_molecule (formula_text f) = Ok d ->
  dictionary_of f d <-> (forall e, In e (formula_symbols f) -> atoms m e = (Z.of_nat (nat_of_ascii c) - 48 + (if String.eqb n "" then 1 else 0)) * written m e)%Z.
Proof.
  intros hw hs hk hd. pose proof (any_groups f x m y n hw hs) as h. rewrite hk in h. destruct h as [_ [d' [hd' [nd [hkeys hv]]]]]. rewrite hd in hd'.
  assert (d' = d) by congruence. subst d'. destruct hs as [ef [hx [hy _]]].
  assert (key : forall e z, In (e, z) d -> (z = atoms f e <-> atoms m e = (Z.of_nat (nat_of_ascii c) - 48 + (if String.eqb n "" then 1 else 0)) * written m e)%Z).
  { intros e z hz. apply hv in hz. rewrite hz, ef. destruct (total_parts x m y e) as [-> ->]. rewrite (written_plain x) by exact hx. rewrite (written_plain y) by exact hy.
    destruct (String.eqb n ""); lia. }
  unfold dictionary_of. split.
  - intros [_ h] e he. apply hkeys in he. apply in_map_iff in he. destruct he as [[e' z] [<- hz]]. apply (key e' z hz). apply h in hz. apply hz.
  - intro h. split; [exact nd|]. intros e z. split.
    + intro hz. assert (he : In e (formula_symbols f)) by (apply hkeys; apply in_map_iff; exists (e, z); split; [reflexivity|exact hz]). split; [exact he|]. apply (key e z hz), h, he.
    + intros [he ->]. pose proof he as he'. apply hkeys in he'. apply in_map_iff in he'. destruct he' as [[e' z] [<- hz]]. cbn [fst] in *. replace (atoms f e') with z; [exact hz|]. apply (key e' z hz), h, he.
Qed.
(** For the cases. *)
Ltac well_tac := repeat match goal with
  | |- Forall _ [] => constructor
  | |- Forall _ (_ :: _) => constructor
  | |- well _ => cbn [well fold_right]
  | |- plain_atom _ => cbn [plain_atom]
  | |- all_digits _ => cbn [all_digits]
  | |- _ /\ _ => split
  | |- True => exact I
  | |- _ :: _ <> [] => discriminate
  | |- digit _ => unfold digit; cbn; lia
  | |- symbol (String _ "") => left; eexists; split; [|reflexivity]; unfold capital; cbn; lia
  | |- symbol (String _ (String _ "")) => right; eexists; eexists; split; [|split; [|reflexivity]]; unfold capital, small; cbn; lia
  end.
