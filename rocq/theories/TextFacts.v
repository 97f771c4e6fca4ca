(** * TextFacts: numerals and unit strings *)
From Coq Require Import String Ascii List ZArith QArith Qcanon Qpower Bool Lia.
From Verif Require Import Py UnitsStruct TextSpec StripFacts.
Import ListNotations.
Local Open Scope string_scope.
Local Open Scope list_scope.

Lemma sapp_assoc a b c : (a +++ b) +++ c = a +++ (b +++ c).
Proof. induction a; cbn; [reflexivity|]. now rewrite IHa. Qed.
Lemma sapp_nil a : a +++ "" = a.
Proof. induction a; cbn; [reflexivity|]. now rewrite IHa. Qed.

(** ** Digits *)
Definition dch (d : nat) : ascii := ascii_of_nat (48 + d).
Lemma all_digits (P : nat -> Prop) : P 0%nat -> P 1%nat -> P 2%nat -> P 3%nat -> P 4%nat -> P 5%nat -> P 6%nat -> P 7%nat -> P 8%nat -> P 9%nat ->
  forall d, (d <= 9)%nat -> P d.
Proof. intros. do 10 (destruct d; [assumption|]). lia. Qed.
Lemma dch_digit d : (d <= 9)%nat -> is_digit (dch d) = true.
Proof. revert d. apply all_digits; reflexivity. Qed.
Lemma dch_val d : (d <= 9)%nat -> digit_val (dch d) = Z.of_nat d.
Proof. revert d. apply all_digits; reflexivity. Qed.
Lemma digits_ok_cons d l : digits_ok (d :: l) <-> (d <= 9)%nat /\ digits_ok l.
Proof. unfold digits_ok. cbn. firstorder. subst; auto. Qed.
Lemma digits_ok_app l m : digits_ok (l ++ m) <-> digits_ok l /\ digits_ok m.
Proof. unfold digits_ok. setoid_rewrite in_app_iff. firstorder. Qed.

Definition no_digit (s : string) : Prop := match s with EmptyString => True | String c _ => is_digit c = false /\ c <> "_"%char end.
Definition dval_from (a : Z) (l : list nat) : Z := fold_left (fun a d => 10 * a + Z.of_nat d)%Z l a.
Lemma take_digits_text l acc n s : digits_ok l -> no_digit s ->
  take_digits acc n (digits_text l +++ s) = (dval_from acc l, (n + List.length l)%nat, s).
Proof.
  revert acc n. induction l as [|d l IH]; intros acc n hd hs.
  - cbn [digits_text String.append List.length dval_from fold_left]. rewrite Nat.add_0_r.
    destruct s as [|c s]; cbn [take_digits]; [reflexivity|]. destruct hs as [h1 h2]. rewrite h1.
    replace (Ascii.eqb c "_") with false; [reflexivity|]. symmetry. apply Ascii.eqb_neq. exact h2.
  - apply digits_ok_cons in hd. destruct hd as [h1 h2]. cbn [digits_text String.append take_digits].
    change (ascii_of_nat (48 + d)) with (dch d). rewrite (dch_digit d h1), IH by assumption. rewrite (dch_val d h1).
    cbn [List.length dval_from fold_left]. replace (acc * 10 + Z.of_nat d)%Z with (10 * acc + Z.of_nat d)%Z by lia.
    f_equal. f_equal. lia.
Qed.
Lemma dval_from_app a l m : dval_from a (l ++ m) = dval_from (dval_from a l) m.
Proof. unfold dval_from. apply fold_left_app. Qed.
Lemma dval_from_val a l : dval_from a l = (a * 10 ^ Z.of_nat (List.length l) + digits_val l)%Z.
Proof.
  change (digits_val l) with (dval_from 0 l). revert a. induction l as [|d l IH]; intro a.
  - cbn. lia.
  - change (dval_from a (d :: l)) with (dval_from (10 * a + Z.of_nat d) l).
    change (dval_from 0 (d :: l)) with (dval_from (10 * 0 + Z.of_nat d) l).
    rewrite (IH (10 * a + Z.of_nat d)%Z), (IH (10 * 0 + Z.of_nat d)%Z). cbn [List.length]. rewrite Nat2Z.inj_succ, Z.pow_succ_r by lia. ring.
Qed.

(** ** Blanks *)
Fixpoint blank_free (s : string) : bool :=
  match s with EmptyString => true | String c s' => negb (is_space c) && blank_free s' end.
Lemma blank_free_app a b : blank_free (a +++ b) = blank_free a && blank_free b.
Proof. induction a; cbn; [reflexivity|]. rewrite IHa. now rewrite andb_assoc. Qed.
Lemma rstrip_free s : blank_free s = true -> rstrip s = s.
Proof.
  induction s as [|c s IH]; cbn; [reflexivity|]. intro h. apply andb_true_iff in h. destruct h as [h1 h2].
  rewrite (IH h2). apply negb_true_iff in h1. rewrite h1. reflexivity.
Qed.
Lemma strip_free s : blank_free s = true -> strip s = s.
Proof.
  intro h. unfold strip. replace (lstrip s) with s; [apply rstrip_free; exact h|].
  destruct s as [|c s]; [reflexivity|]. cbn in *. apply andb_true_iff in h. destruct h as [h1 _]. apply negb_true_iff in h1. rewrite h1. reflexivity.
Qed.
Lemma digits_free l : digits_ok l -> blank_free (digits_text l) = true.
Proof.
  induction l as [|d l IH]; intro h; [reflexivity|]. apply digits_ok_cons in h. destruct h as [h1 h2]. cbn [digits_text blank_free].
  rewrite (IH h2), andb_true_r. revert d h1. apply all_digits; reflexivity.
Qed.
Lemma num_free n : num_ok n -> blank_free (num_text n) = true.
Proof.
  intros [h1 [h2 [_ h3]]]. unfold num_text, frac_digits in *. rewrite !blank_free_app. rewrite (digits_free _ h1).
  assert (blank_free (sign_text (nsign n)) = true) as -> by (destruct (nsign n) as [[]|]; reflexivity).
  cbn [andb]. apply andb_true_iff. split.
  - destruct (nfrac n) as [f|]; [|reflexivity]. cbn. rewrite (digits_free _ h2). reflexivity.
  - destruct (nexp n) as [[s e]|]; [|reflexivity]. cbn. rewrite blank_free_app, (digits_free _ (proj1 h3)). destruct s as [[]|]; reflexivity.
Qed.

(** ** float() of a numeral *)
Definition body (n : numeral) : string :=
  digits_text (nwhole n)
  +++ (match nfrac n with None => "" | Some f => "." +++ digits_text f end)
  +++ (match nexp n with None => "" | Some (s, e) => "e" +++ sign_text s +++ digits_text e end).
Definition digit_or_dot (c : ascii) : Prop := is_digit c = true \/ c = "."%char.
Lemma body_head n : num_ok n -> exists c s, body n = String c s /\ digit_or_dot c.
Proof.
  intros [h1 [h2 [h3 _]]]. unfold body. destruct (nwhole n) as [|d l] eqn:e.
  - unfold frac_digits in *. destruct (nfrac n) as [f|]; [|cbn in h3; congruence]. cbn. eexists _, _. split; [reflexivity|]. right. reflexivity.
  - cbn. eexists _, _. split; [reflexivity|]. left. apply digits_ok_cons in h1. apply (dch_digit d). tauto.
Qed.
Lemma dd_cases c : digit_or_dot c -> In c ["0"; "1"; "2"; "3"; "4"; "5"; "6"; "7"; "8"; "9"; "."]%char.
Proof.
  intros [h| ->]; [|cbn; tauto]. unfold is_digit in h. apply andb_true_iff in h. destruct h as [h1 h2].
  apply Nat.leb_le in h1. apply Nat.leb_le in h2. rewrite <- (ascii_nat_embedding c).
  assert (k : (nat_of_ascii c - 48 <= 9)%nat) by lia. replace (nat_of_ascii c) with (48 + (nat_of_ascii c - 48))%nat by lia.
  generalize dependent (nat_of_ascii c - 48)%nat. apply (all_digits (fun d => In (ascii_of_nat (48 + d)) _)); cbn; tauto.
Qed.
Lemma take_sign_text s t : (forall c r, t = String c r -> c <> "-"%char /\ c <> "+"%char) -> take_sign (sign_text s +++ t) = (sign_val s, t).
Proof.
  intro h. destruct s as [[]|]; [reflexivity|reflexivity|]. cbn [sign_text String.append sign_val].
  destruct t as [|c r]; [reflexivity|]. destruct (h c r eq_refl) as [h1 h2]. cbn [take_sign].
  apply Ascii.eqb_neq in h1, h2. rewrite h1, h2. reflexivity.
Qed.
Lemma dd_sign c : digit_or_dot c -> c <> "-"%char /\ c <> "+"%char.
Proof. intro h. apply dd_cases in h. cbn in h. repeat (destruct h as [<-|h]; [split; discriminate|]). contradiction. Qed.
Lemma dd_special c r : digit_or_dot c -> mem_str (str_lower (String c r)) ["inf"; "infinity"; "nan"] = false.
Proof.
  intro h. apply dd_cases in h. cbn in h.
  repeat (destruct h as [<-|h]; [reflexivity|]). contradiction.
Qed.
Definition exp_text (o : option (option bool * list nat)) : string :=
  match o with None => "" | Some (s, e) => "e" +++ sign_text s +++ digits_text e end.
Lemma digits_text_sign l c r : digits_ok l -> digits_text l = String c r -> c <> "-"%char /\ c <> "+"%char.
Proof.
  intros h e. apply dd_sign. left. destruct l as [|d l]; [discriminate|]. cbn [digits_text] in e.
  apply (f_equal (fun s => match s with String x _ => x | _ => c end)) in e. rewrite <- e. apply digits_ok_cons in h. apply (dch_digit d). tauto.
Qed.
Lemma Q2Qc_eq (a b : Q) : a == b -> Q2Qc a = Q2Qc b.
Proof. intro h. apply Qc_is_canon. cbn. now rewrite !Qred_correct. Qed.

Lemma py_float_numeral n : num_ok n -> py_float (num_text n) = Ok (Q2Qc (num_val n)).
Proof.
  intro h. pose proof h as hh. unfold py_float. rewrite (strip_free _ (num_free n h)).
  change (num_text n) with (sign_text (nsign n) +++ body n).
  destruct (body_head n h) as [c [r [eb hc]]]. rewrite take_sign_text.
  2:{ intros c' r' e. rewrite eb in e. injection e as <- <-. apply dd_sign. exact hc. }
  rewrite eb, (dd_special c r hc), <- eb. clear c r eb hc.
  destruct h as [h1 [h2 [h3 h4]]]. unfold body. change (match nexp n with None => "" | Some (s, e) => "e" +++ sign_text s +++ digits_text e end) with (exp_text (nexp n)).
  assert (ne : no_digit (exp_text (nexp n))).
  { destruct (nexp n) as [[s e]|]; cbn; [split; [reflexivity|discriminate]|exact I]. }
  assert (fin : forall m k sg, 
     match exp_text (nexp n) with
     | EmptyString => Ok (Q2Qc (inject_Z (sg * m) * pow10 (- k)))
     | String c r =>
         if Ascii.eqb (lower c) "e" then
           let '(esg, r) := take_sign r in
           let '(e, ne, r') := take_digits 0 0 r in
           match r' with
           | EmptyString => if Nat.eqb ne 0 then Raise EValueError else Ok (Q2Qc (inject_Z (sg * m) * pow10 (esg * e - k)))
           | String _ _ => Raise EValueError
           end
         else Raise EValueError
     end = Ok (Q2Qc (inject_Z (sg * m) * pow10 (match nexp n with None => 0 | Some (s, e) => sign_val s * digits_val e end - k)))).
  { intros m k sg. destruct (nexp n) as [[s e]|]; [|reflexivity]. cbn [exp_text String.append]. cbn [lower nat_of_ascii].
    replace (Ascii.eqb (lower "e") "e") with true by reflexivity.
    rewrite take_sign_text by (intros c r; apply digits_text_sign; exact (proj1 h4)).
    rewrite <- (sapp_nil (digits_text e)), take_digits_text by (exact (proj1 h4) || exact I).
    cbn [Nat.add]. destruct e as [|d e]; [destruct h4; congruence|]. cbn [List.length Nat.eqb]. reflexivity. }
  unfold frac_digits, num_val in *. unfold frac_digits in *. destruct (nfrac n) as [f|].
  - rewrite take_digits_text by (exact h1 || (cbn; split; [reflexivity|discriminate])). cbn [String.append].
    replace (Ascii.eqb "." ".") with true by reflexivity.
    rewrite take_digits_text by assumption. rewrite !Nat.add_0_l.
    replace (Nat.eqb (List.length (nwhole n) + List.length f) 0) with false.
    2:{ symmetry. apply Nat.eqb_neq. rewrite <- app_length. destruct (nwhole n ++ f); [congruence|cbn; lia]. }
    rewrite fin. change (digits_val (nwhole n ++ f)) with (dval_from 0 (nwhole n ++ f)).
    rewrite dval_from_app, (dval_from_val (dval_from 0 (nwhole n)) f).
    change (dval_from 0 f) with (digits_val f). reflexivity.
  - cbn [String.append]. rewrite take_digits_text by assumption. rewrite app_nil_r in *. rewrite Nat.add_0_l.
    assert (E : Nat.eqb (List.length (nwhole n)) 0 = false) by (apply Nat.eqb_neq; destruct (nwhole n); [congruence|cbn; lia]).
    specialize (fin (digits_val (nwhole n)) 0%Z (sign_val (nsign n))).
    change (dval_from 0 (nwhole n)) with (digits_val (nwhole n)).
    destruct (nexp n) as [[s e]|].
    + cbn [exp_text String.append] in *. replace (Ascii.eqb "e" ".") with false by reflexivity. rewrite E. rewrite fin. reflexivity.
    + cbn [exp_text] in *. rewrite E. rewrite fin. reflexivity.
Qed.

(** ** Splitting and joining *)
Lemma has_char_app c a b : has_char c (a +++ b) = has_char c a || has_char c b.
Proof. induction a; cbn; [reflexivity|]. rewrite IHa. now rewrite orb_assoc. Qed.
Lemma split_ne c s : split_on c s <> nil.
Proof. induction s; cbn; [discriminate|]. destruct (Ascii.eqb a c); [discriminate|]. destruct (split_on c s); congruence. Qed.
Lemma split_none c s : has_char c s = false -> split_on c s = [s].
Proof.
  induction s as [|a s IH]; cbn; [reflexivity|]. intro h. apply orb_false_iff in h. destruct h as [h1 h2]. rewrite h1, (IH h2). reflexivity.
Qed.
Lemma split_sep c a b : has_char c a = false -> split_on c (a +++ String c b) = a :: split_on c b.
Proof.
  induction a as [|x a IH]; cbn; intro h.
  - rewrite Ascii.eqb_refl. reflexivity.
  - apply orb_false_iff in h. destruct h as [h1 h2]. rewrite h1, (IH h2). reflexivity.
Qed.
Lemma split_stars l : l <> nil -> (forall x, In x l -> has_char "*" x = false) -> split_on "*" (stars l) = l.
Proof.
  induction l as [|x l IH]; intros hn h; [congruence|]. destruct l as [|y l].
  - cbn. apply split_none. apply h. left. reflexivity.
  - change (stars (x :: y :: l)) with (x +++ String "*" (stars (y :: l))). rewrite split_sep by (apply h; left; reflexivity).
    f_equal. apply IH; [discriminate|]. intros z hz. apply h. right. exact hz.
Qed.

(** Texts free of the separators. *)
Lemma plain_no s c : plain_text s = true -> In c ["/"; "*"; "^"]%char -> has_char c s = false.
Proof.
  intros h hc. induction s as [|a s IH]; [reflexivity|]. cbn in h. apply andb_true_iff in h. destruct h as [h1 h2]. cbn [has_char]. rewrite (IH h2), orb_false_r.
  unfold plain_char in h1. apply negb_true_iff, orb_false_iff in h1. destruct h1 as [h1 _]. apply orb_false_iff in h1. destruct h1 as [h1 h3].
  apply orb_false_iff in h1. destruct h1 as [h1 h4]. cbn in hc. destruct hc as [<-|[<-|[<-|[]]]]; assumption.
Qed.
Lemma plain_blank s : plain_text s = true -> blank_free s = true.
Proof.
  induction s as [|a s IH]; [reflexivity|]. cbn. intro h. apply andb_true_iff in h. destruct h as [h1 h2]. rewrite (IH h2), andb_true_r.
  unfold plain_char in h1. apply negb_true_iff, orb_false_iff in h1. destruct h1 as [_ h1]. rewrite blank_space in h1. now rewrite h1.
Qed.
Lemma plain_app a b : plain_text (a +++ b) = plain_text a && plain_text b.
Proof. induction a; cbn; [reflexivity|]. rewrite IHa. now rewrite andb_assoc. Qed.
Lemma digits_plain l : digits_ok l -> plain_text (digits_text l) = true.
Proof.
  induction l as [|d l IH]; intro h; [reflexivity|]. apply digits_ok_cons in h. destruct h as [h1 h2]. cbn [digits_text plain_text].
  rewrite (IH h2), andb_true_r. revert d h1. apply all_digits; reflexivity.
Qed.
Lemma num_plain n : num_ok n -> plain_text (num_text n) = true.
Proof.
  intros [h1 [h2 [_ h3]]]. unfold num_text, frac_digits in *. rewrite !plain_app. rewrite (digits_plain _ h1).
  assert (plain_text (sign_text (nsign n)) = true) as -> by (destruct (nsign n) as [[]|]; reflexivity).
  cbn [andb]. apply andb_true_iff. split.
  - destruct (nfrac n) as [f|]; [|reflexivity]. cbn. rewrite (digits_plain _ h2). reflexivity.
  - destruct (nexp n) as [[s e]|]; [|reflexivity]. cbn. rewrite plain_app, (digits_plain _ (proj1 h3)). destruct s as [[]|]; reflexivity.
Qed.

Lemma factor_chars f : factor_ok f -> blank_free (factor_text f) = true /\ has_char "*" (factor_text f) = false /\ has_char "/" (factor_text f) = false.
Proof.
  intros [_ [h1 h2]]. destruct f as [n [e|]]; unfold factor_text; cbn [fst snd] in *.
  - pose proof (num_plain e h2) as h3. rewrite blank_free_app, !has_char_app. cbn [blank_free has_char String.append].
    rewrite (plain_blank _ h1), (plain_blank _ h3), !(plain_no _ _ h1), !(plain_no _ _ h3) by (cbn; tauto). repeat split.
  - rewrite (plain_blank _ h1), !(plain_no _ _ h1) by (cbn; tauto). repeat split.
Qed.
Definition parsed (f : factor) : bu := BU (fst f) (eflt (snd (factor_unit f))).
Lemma parse_factor_ok f : factor_ok f -> parse_factor (factor_text f) = Ok (parsed f).
Proof.
  intros [_ [h1 h2]]. unfold parse_factor, parsed, factor_unit, factor_text. destruct f as [n [e|]]; cbn [fst snd] in *.
  - rewrite has_char_app. cbn [has_char String.append]. replace (Ascii.eqb "^" "^") with true by reflexivity.
    rewrite orb_true_r. rewrite (split_sep "^" n (num_text e)) by (apply plain_no; [exact h1|cbn; tauto]).
    rewrite (split_none "^" (num_text e)) by (apply plain_no; [apply num_plain; exact h2|cbn; tauto]).
    rewrite (py_float_numeral e h2). reflexivity.
  - rewrite (plain_no n) by (exact h1 || (cbn; tauto)). do 3 f_equal.
Qed.
Lemma stars_chars l : (forall f, In f l -> factor_ok f) -> blank_free (stars (map factor_text l)) = true /\ has_char "/" (stars (map factor_text l)) = false.
Proof.
  induction l as [|f l IH]; intro h; [split; reflexivity|].
  destruct (factor_chars f) as [h1 [_ h3]]; [apply h; left; reflexivity|].
  destruct IH as [h4 h5]; [intros g hg; apply h; right; exact hg|].
  destruct l as [|g l]; [split; assumption|].
  change (stars (map factor_text (f :: g :: l))) with (factor_text f +++ "*" +++ stars (map factor_text (g :: l))).
  rewrite !blank_free_app, !has_char_app, h1, h3, h4, h5. split; reflexivity.
Qed.
Lemma parse_half_ok l : l <> nil -> (forall f, In f l -> factor_ok f) -> parse_half (stars (map factor_text l)) = Ok (map parsed l).
Proof.
  intros hn h. unfold parse_half. rewrite strip_free by (apply stars_chars; exact h). rewrite split_stars.
  - clear hn. induction l as [|f l IH]; [reflexivity|]. cbn [map mapM]. rewrite parse_factor_ok by (apply h; left; reflexivity).
    cbn [bind]. rewrite IH by (intros g hg; apply h; right; exact hg). reflexivity.
  - destruct l; [congruence|discriminate].
  - intros x hx. apply in_map_iff in hx. destruct hx as [f [<- hf]]. apply factor_chars. apply h. exact hf.
Qed.
Lemma parse_text top bot : top <> nil -> (forall f, In f (top ++ bot) -> factor_ok f) ->
  parse_units (unit_text top bot) = Ok (map parsed top, map parsed bot).
Proof.
  intros hn h. assert (ht : forall f, In f top -> factor_ok f) by (intros; apply h, in_or_app; auto).
  assert (hb : forall f, In f bot -> factor_ok f) by (intros; apply h, in_or_app; auto).
  unfold parse_units, unit_text. destruct bot as [|b bot].
  - rewrite sapp_nil. rewrite split_none by (apply stars_chars; exact ht). cbn [bind]. rewrite (parse_half_ok top hn ht). reflexivity.
  - change ("/" +++ stars (map factor_text (b :: bot))) with (String "/" (stars (map factor_text (b :: bot)))).
    rewrite split_sep by (apply stars_chars; exact ht). rewrite split_none by (apply stars_chars; exact hb).
    rewrite (parse_half_ok (b :: bot)) by (discriminate || exact hb). cbn [bind]. rewrite (parse_half_ok top hn ht). reflexivity.
Qed.
