(** * ParseFacts: which unit strings are accepted, and as what *)
From Coq Require Import String Ascii List ZArith QArith Qcanon Bool Lia.
From Verif Require Import Py UnitsStruct TextSpec TextFacts.
Import ListNotations.
Local Open Scope string_scope.
Local Open Scope list_scope.

(** ** What float() accepts *)
Lemma squeeze_app a b : squeeze (a +++ b) = squeeze a +++ squeeze b.
Proof. induction a as [|c a IH]; cbn; [reflexivity|]. rewrite IH. destruct (Ascii.eqb c "_"); reflexivity. Qed.
Lemma digit_inv c : is_digit c = true -> exists d, (d <= 9)%nat /\ c = dch d.
Proof.
  intro h. unfold is_digit in h. apply andb_true_iff in h. destruct h as [h1 h2]. apply Nat.leb_le in h1. apply Nat.leb_le in h2.
  exists (nat_of_ascii c - 48)%nat. split; [lia|]. unfold dch. replace (48 + (nat_of_ascii c - 48))%nat with (nat_of_ascii c) by lia.
  symmetry. apply ascii_nat_embedding.
Qed.
Lemma squeeze_digit d s : (d <= 9)%nat -> squeeze (String (dch d) s) = String (dch d) (squeeze s).
Proof. revert d. apply all_digits; reflexivity. Qed.
Lemma take_digits_inv s : forall acc n a k r, take_digits acc n s = (a, k, r) ->
  exists l, digits_ok l /\ squeeze s = digits_text l +++ squeeze r /\ a = dval_from acc l /\ k = (n + List.length l)%nat.
Proof.
  induction s as [|c s IH]; intros acc n a k r h; cbn [take_digits] in h.
  - injection h as <- <- <-. exists nil. split; [intros ? []|]. cbn. auto.
  - destruct (is_digit c) eqn:hd.
    + destruct (digit_inv c hd) as [d [h1 ->]]. apply IH in h. destruct h as [l [g1 [g2 [g3 g4]]]].
      exists (d :: l). split; [apply digits_ok_cons; auto|]. rewrite (squeeze_digit d s h1), g2. split; [reflexivity|].
      rewrite (dch_val d h1) in g3. split; [|cbn; lia]. rewrite g3. change (dval_from acc (d :: l)) with (dval_from (10 * acc + Z.of_nat d) l). replace (acc * 10 + Z.of_nat d)%Z with (10 * acc + Z.of_nat d)%Z by ring. reflexivity.
    + destruct (Ascii.eqb c "_" && Nat.ltb 0 n && starts_digit s) eqn:hu.
      * apply andb_true_iff in hu. destruct hu as [hu _]. apply andb_true_iff in hu. destruct hu as [hu _].
        apply IH in h. destruct h as [l [g1 [g2 [g3 g4]]]]. exists l. split; [exact g1|]. cbn [squeeze]. rewrite hu. auto.
      * injection h as <- <- <-. exists nil. split; [intros ? []|]. cbn [digits_text String.append dval_from fold_left List.length]. auto.
Qed.
Lemma take_sign_inv s z r : take_sign s = (z, r) -> exists sg, s = sign_text sg +++ r /\ z = sign_val sg.
Proof.
  destruct s as [|c s]; cbn [take_sign]; intro h.
  - injection h as <- <-. exists None. auto.
  - destruct (Ascii.eqb c "-") eqn:h1; [apply Ascii.eqb_eq in h1; subst; injection h as <- <-; exists (Some true); auto|].
    destruct (Ascii.eqb c "+") eqn:h2; [apply Ascii.eqb_eq in h2; subst; injection h as <- <-; exists (Some false); auto|].
    injection h as <- <-. exists None. auto.
Qed.
Lemma squeeze_sign sg : squeeze (sign_text sg) = sign_text sg.
Proof. destruct sg as [[]|]; reflexivity. Qed.
Lemma lower_e c : Ascii.eqb (lower c) "e" = true -> c = "e"%char \/ c = "E"%char.
Proof.
  intro h. apply Ascii.eqb_eq in h. unfold lower in h.
  destruct (Nat.leb 65 (nat_of_ascii c) && Nat.leb (nat_of_ascii c) 90) eqn:e; [|auto].
  right. apply andb_true_iff in e. destruct e as [e1 e2]. apply Nat.leb_le in e1, e2.
  apply (f_equal nat_of_ascii) in h. rewrite nat_ascii_embedding in h by lia.
  assert (k : nat_of_ascii c = 69%nat) by (change (nat_of_ascii "e") with 101%nat in h; lia).
  rewrite <- (ascii_nat_embedding c), k. reflexivity.
Qed.

Lemma exp_part s2 sg m k q :
  match s2 with
  | EmptyString => Ok (Q2Qc (inject_Z (sg * m) * pow10 (- k)))
  | String c r =>
      if Ascii.eqb (lower c) "e" then
        let '(esg, r) := take_sign r in
        let '(e, ne, r') := take_digits 0 0 r in
        match r' with
        | EmptyString => if Nat.eqb ne 0 then Raise EValueError else Ok (Q2Qc (inject_Z (sg * m) * pow10 (esg * e - k)))
        | String _ _ => Raise EValueError
        end
      else Raise EValueError
  end = Ok q ->
  exists o, squeeze s2 = exp_text o /\ match o with None => True | Some (_, e) => digits_ok e /\ e <> nil end /\
    q = Q2Qc (inject_Z (sg * m) * pow10 (match o with None => 0 | Some (s, e) => sign_val s * digits_val e end - k)).
Proof.
  intro h. destruct s2 as [|c r].
  - injection h as <-. exists None. split; [reflexivity|]. split; [exact I|]. reflexivity.
  - destruct (Ascii.eqb (lower c) "e") eqn:hc; [|discriminate]. apply lower_e in hc.
    destruct (take_sign r) as [esg r1] eqn:hs. destruct (take_digits 0 0 r1) as [[e ne] r'] eqn:hd.
    destruct r' as [|? ?]; [|discriminate]. destruct (Nat.eqb ne 0) eqn:hn; [discriminate|]. apply Nat.eqb_neq in hn. injection h as <-.
    apply take_sign_inv in hs. destruct hs as [sg' [-> ->]]. apply take_digits_inv in hd. destruct hd as [l [g1 [g2 [g3 g4]]]].
    exists (Some (sg', l)). split; [|split].
    + cbn [exp_text]. transitivity (String "e" (squeeze (sign_text sg' +++ r1))); [destruct hc as [-> | ->]; reflexivity|].
      rewrite squeeze_app, squeeze_sign, g2. cbn [squeeze]. rewrite sapp_nil. reflexivity.
    + split; [exact g1|]. destruct l; [cbn in g4; lia|discriminate].
    + rewrite g3. reflexivity.
Qed.
Lemma py_float_reads s q : py_float s = Ok q -> number_reads s q.
Proof.
  intro h. unfold number_reads. exists (strip s). cut (exists n, num_ok n /\ squeeze (strip s) = num_text n /\ q = Q2Qc (num_val n)).
  { intros [n k]. exists n. split; [apply StripFacts.strip_trims|exact k]. }
  revert h. unfold py_float. generalize (strip s). clear s. intros s h.
  destruct (take_sign s) as [sg s1] eqn:hs. destruct (mem_str _ _); [discriminate|].
  apply take_sign_inv in hs. destruct hs as [sgn [-> ->]].
  destruct (take_digits 0 0 s1) as [[m n] s2] eqn:hd. apply take_digits_inv in hd. destruct hd as [l [g1 [g2 [g3 g4]]]]. cbn in g4.
  assert (C : (exists r, s2 = String "." r) \/ (forall f r, s2 = String f r -> Ascii.eqb f "." = false)).
  { destruct s2 as [|c r]; [right; discriminate|]. destruct (Ascii.eqb c ".") eqn:e.
    - left. apply Ascii.eqb_eq in e. subst. exists r. reflexivity.
    - right. intros f r' k. injection k as <- <-. exact e. }
  destruct C as [[r ->]|C].
  - replace (Ascii.eqb "." ".") with true in h by reflexivity.
    destruct (take_digits 0 0 r) as [[m' n'] r'] eqn:hd. apply take_digits_inv in hd. destruct hd as [f [f1 [f2 [f3 f4]]]]. cbn in f4.
    destruct (Nat.eqb (n + n') 0) eqn:hn; [discriminate|]. apply Nat.eqb_neq in hn.
    apply exp_part in h. destruct h as [o [o1 [o2 o3]]].
    exists (Numeral sgn l (Some f) o). split; [|split].
    + split; [exact g1|]. split; [exact f1|]. split; [|exact o2]. cbn. destruct l, f; try discriminate. cbn in *. lia.
    + rewrite squeeze_app, squeeze_sign, g2. unfold num_text. cbn [nsign nwhole nfrac nexp]. f_equal. f_equal.
      change (squeeze (String "." r)) with (String "." (squeeze r)). rewrite f2, o1. cbn. reflexivity.
    + rewrite o3. unfold num_val, frac_digits, pow10. cbn [nsign nwhole nfrac nexp]. f_equal.
      change (digits_val (l ++ f)) with (dval_from 0 (l ++ f)). rewrite dval_from_app, (dval_from_val (dval_from 0 l) f).
      rewrite g3, f3, f4. reflexivity.
  - assert (H : (if Nat.eqb n 0 then Raise EValueError else
       match s2 with
       | EmptyString => Ok (Q2Qc (inject_Z (sign_val sgn * m) * pow10 (- 0)))
       | String c r =>
           if Ascii.eqb (lower c) "e" then
             let '(esg, r) := take_sign r in
             let '(e, ne, r') := take_digits 0 0 r in
             match r' with
             | EmptyString => if Nat.eqb ne 0 then Raise EValueError else Ok (Q2Qc (inject_Z (sign_val sgn * m) * pow10 (esg * e - 0)))
             | String _ _ => Raise EValueError
             end
           else Raise EValueError
       end) = Ok q).
    { destruct s2 as [|c r]; [exact h|]. rewrite (C c r eq_refl) in h. exact h. }
    clear h. destruct (Nat.eqb n 0) eqn:hn; [discriminate|]. apply Nat.eqb_neq in hn.
    apply exp_part in H. destruct H as [o [o1 [o2 o3]]]. exists (Numeral sgn l None o). split; [|split].
    + split; [exact g1|]. split; [intros ? []|]. split; [|exact o2]. cbn. rewrite app_nil_r. destruct l; [cbn in *; lia|discriminate].
    + rewrite squeeze_app, squeeze_sign, g2, o1. unfold num_text. cbn [nsign nwhole nfrac nexp]. reflexivity.
    + rewrite o3. unfold num_val, frac_digits. cbn [nsign nwhole nfrac nexp List.length Z.of_nat]. rewrite app_nil_r, g3. reflexivity.
Qed.

(** ** Which exceptions *)
Definition text_exn (e : exn) : Prop := e = EValueError \/ e = Unmodelled.
Lemma py_float_exn s e : py_float s = Raise e -> text_exn e.
Proof.
  unfold py_float, text_exn. intro h. destruct (take_sign (strip s)) as [sg s1]. destruct (mem_str _ _); [injection h as <-; auto|].
  destruct (take_digits 0 0 s1) as [[m n] s2].
  repeat match type of h with
  | context [match ?x with _ => _ end] => destruct x
  end; try discriminate; injection h as <-; auto.
Qed.
Lemma parse_factor_exn s e : parse_factor s = Raise e -> text_exn e.
Proof.
  unfold parse_factor. destruct (has_char "^" s); [|discriminate].
  destruct (split_on "^" s) as [|a [|b [|c l]]]; intro h; try (injection h as <-; left; reflexivity).
  destruct (py_float b) eqn:hb; [discriminate|]. cbn in h. injection h as <-. exact (py_float_exn _ _ hb).
Qed.
Lemma mapM_exn {A B} (f : A -> res B) (P : exn -> Prop) l e : (forall x y, In x l -> f x = Raise y -> P y) -> mapM f l = Raise e -> P e.
Proof.
  induction l as [|x l IH]; intros hf h; [discriminate|]. cbn in h. destruct (f x) eqn:hx.
  - cbn in h. destruct (mapM f l) eqn:hl; [discriminate|]. cbn in h. injection h as <-. apply IH; [|reflexivity]. intros z y hz. apply hf. right. exact hz.
  - cbn in h. injection h as <-. eapply hf; [left; reflexivity|exact hx].
Qed.
Lemma mapM_fail {A B} (f : A -> res B) l e : mapM f l = Raise e -> exists x e', In x l /\ f x = Raise e'.
Proof.
  revert e. induction l as [|x l IH]; intro e; [discriminate|]. cbn. destruct (f x) eqn:hx.
  - cbn. destruct (mapM f l) as [|e1] eqn:hl; [discriminate|]. intros _. destruct (IH e1 eq_refl) as [y [e' [h1 h2]]]. exists y, e'. auto.
  - intros _. exists x, e0. auto.
Qed.
Lemma mapM_in_fail {A B} (f : A -> res B) l x e : In x l -> f x = Raise e -> exists e', mapM f l = Raise e'.
Proof.
  induction l as [|y l IH]; intros hi hf; [contradiction|]. cbn. destruct hi as [->|hi].
  - rewrite hf. cbn. eauto.
  - destruct (f y); [|cbn; eauto]. cbn. destruct (IH hi hf) as [e' ->]. cbn. eauto.
Qed.
Lemma parse_half_exn s e : parse_half s = Raise e -> text_exn e.
Proof. apply mapM_exn. intros x y _. apply parse_factor_exn. Qed.
Lemma parse_units_exn s e : parse_units s = Raise e -> text_exn e.
Proof.
  unfold parse_units. destruct (split_on "/" s) as [|t [|b [|c l]]]; cbn [bind].
  1,2,4: destruct (parse_half s) eqn:h; [discriminate|]; cbn; intro k; injection k as <-; exact (parse_half_exn _ _ h).
  destruct (parse_half b) as [bs|e'] eqn:hb.
  - cbn [bind]. destruct (parse_half t) eqn:h; [discriminate|]. cbn. intro k. injection k as <-. exact (parse_half_exn _ _ h).
  - pose proof (parse_half_exn _ _ hb) as [-> | ->].
    + cbn [bind]. destruct (parse_half s) eqn:h; [discriminate|]. cbn. intro k. injection k as <-. exact (parse_half_exn _ _ h).
    + cbn. intro k. injection k as <-. right. reflexivity.
Qed.

(** ** Splitting undone *)
Lemma count_has c s : has_char c s = false <-> count_char c s = O.
Proof.
  induction s as [|a s IH]; cbn; [tauto|]. rewrite orb_false_iff, IH. destruct (Ascii.eqb a c); [|cbn; tauto].
  split; [intros [h _]; discriminate|discriminate].
Qed.
Lemma split_cons c s : exists x l, split_on c s = x :: l /\ count_char c x = O /\
  match l with nil => s = x | _ => exists r, s = x +++ String c r /\ split_on c r = l end.
Proof.
  induction s as [|a s IH].
  - exists "", nil. repeat split.
  - cbn [split_on]. destruct (Ascii.eqb a c) eqn:e.
    + apply Ascii.eqb_eq in e. subst a. exists "", (split_on c s). split; [reflexivity|]. split; [reflexivity|].
      destruct (split_on c s) eqn:hs; [exfalso; exact (split_ne _ _ hs)|]. exists s. auto.
    + destruct IH as [x [l [h1 [h2 h3]]]]. rewrite h1. exists (String a x), l. split; [reflexivity|]. split; [cbn; rewrite e; exact h2|].
      destruct l as [|y l]; [congruence|]. destruct h3 as [r [-> h3]]. exists r. auto.
Qed.
Lemma split_star_inv s : exists parts, parts <> nil /\ split_on "*" s = parts /\ s = stars parts /\ (forall p, In p parts -> count_char "*" p = O).
Proof.
  remember (String.length s) as k eqn:hk. assert (hle : (String.length s <= k)%nat) by lia. clear hk. revert s hle.
  induction k as [|k IH]; intros s hle.
  - destruct s; [|cbn in hle; lia]. exists [""]. repeat split; try discriminate. intros p [<-|[]]. reflexivity.
  - destruct (split_cons "*" s) as [x [l [h1 [h2 h3]]]]. exists (x :: l). split; [discriminate|]. split; [exact h1|]. destruct l as [|y l].
    + subst. split; [reflexivity|]. intros p [<-|[]]. exact h2.
    + destruct h3 as [r [-> h3]]. destruct (IH r) as [parts [g1 [g2 [g3 g4]]]].
      { assert (L : String.length (x +++ String "*" r) = (String.length x + S (String.length r))%nat) by (clear; induction x; cbn; congruence). lia. }
      rewrite h3 in g2. subst parts. split; [rewrite g3 at 1; reflexivity|]. intros p [<-|hp]; auto.
Qed.
Lemma parse_factor_reads s x : parse_factor s = Ok x -> factor_reads s x.
Proof.
  unfold parse_factor, factor_reads. destruct (has_char "^" s) eqn:h.
  - destruct (split_cons "^" s) as [u [l [h1 [h2 h3]]]]. rewrite h1.
    destruct l as [|e [|? ?]]; try discriminate. destruct h3 as [r [-> h3]].
    destruct (split_cons "^" r) as [u' [l' [k1 [k2 k3]]]]. rewrite k1 in h3. injection h3 as -> ->. subst r.
    destruct (py_float e) eqn:he; [|discriminate]. cbn. intro k. injection k as <-. cbn. split; [exact h2|]. right. exists e.
    split; [reflexivity|]. split; [exact k2|]. apply py_float_reads. exact he.
  - intro k. injection k as <-. cbn. apply count_has in h. split; [exact h|]. left. split; [reflexivity|]. reflexivity.
Qed.
Lemma mapM_Forall2 {A B} (f : A -> res B) (R : A -> B -> Prop) l l' : (forall x y, f x = Ok y -> R x y) -> mapM f l = Ok l' -> Forall2 R l l'.
Proof.
  intro hf. revert l'. induction l as [|x l IH]; intros l' h; cbn in h.
  - injection h as <-. constructor.
  - destruct (f x) eqn:hx; [|discriminate]. cbn in h. destruct (mapM f l) eqn:hl; [|discriminate]. cbn in h. injection h as <-. constructor; auto.
Qed.
Lemma parse_half_reads s l : parse_half s = Ok l -> half_reads s l.
Proof.
  unfold parse_half, half_reads. intro h. destruct (split_star_inv (strip s)) as [parts [h1 [h2 [h3 h4]]]].
  exists parts. split; [exact h1|]. split; [rewrite <- h3; apply StripFacts.strip_trims|]. split; [|exact h4]. rewrite h2 in h. eapply mapM_Forall2; [|exact h]. exact parse_factor_reads.
Qed.
Lemma count_app c a b : count_char c (a +++ b) = (count_char c a + count_char c b)%nat.
Proof. induction a; cbn; [reflexivity|]. rewrite IHa. lia. Qed.

(** ** A failing bottom half makes the whole string fail *)
Lemma lstrip_app a b : (exists c r, b = String c r /\ is_space c = false) -> lstrip (a +++ b) = lstrip a +++ b.
Proof.
  intros [c [r [-> h]]]. induction a as [|x a IH]; cbn; [rewrite h; reflexivity|]. destruct (is_space x); [exact IH|reflexivity].
Qed.
Lemma rstrip_app a c b : is_space c = false -> rstrip (a +++ String c b) = a +++ String c (rstrip b).
Proof.
  intro h. induction a as [|x a IH]; cbn.
  - rewrite h. reflexivity.
  - rewrite IH. destruct (is_space x); [|reflexivity]. destruct a; reflexivity.
Qed.
Lemma rstrip_lstrip s : rstrip (lstrip s) = lstrip (rstrip s).
Proof.
  induction s as [|c s IH]; [reflexivity|]. cbn. destruct (is_space c) eqn:h; cbn.
  - rewrite IH. destruct (String.eqb (rstrip s) "") eqn:e.
    + apply String.eqb_eq in e. rewrite e. reflexivity.
    + cbn. rewrite h. reflexivity.
  - rewrite h. reflexivity.
Qed.
Lemma split_app c a b : exists la x y lb, split_on c a = la ++ [x] /\ split_on c b = y :: lb /\ split_on c (a +++ b) = la ++ [x +++ y] ++ lb.
Proof.
  induction a as [|ch a IH].
  - destruct (split_cons c b) as [y [lb [h1 _]]]. exists nil, "", y, lb. repeat split; assumption.
  - destruct IH as [la [x [y [lb [h1 [h2 h3]]]]]]. cbn [split_on String.append]. rewrite h1, h3. destruct (Ascii.eqb ch c).
    + exists ("" :: la), x, y, lb. repeat split; assumption.
    + destruct la as [|z la]; cbn.
      * exists nil, (String ch x), y, lb. repeat split; assumption.
      * exists (String ch z :: la), x, y, lb. repeat split; assumption.
Qed.
Lemma split_lstrip s : exists h l, split_on "*" s = h :: l /\ split_on "*" (lstrip s) = lstrip h :: l.
Proof.
  induction s as [|c s IH]; [exists "", nil; split; reflexivity|]. destruct IH as [h [l [h1 h2]]]. cbn [lstrip split_on].
  destruct (is_space c) eqn:hs.
  - replace (Ascii.eqb c "*") with false. 2:{ symmetry. apply Ascii.eqb_neq. intros ->. discriminate. }
    rewrite h1, h2. exists (String c h), l. split; [reflexivity|]. cbn. rewrite hs. reflexivity.
  - cbn [split_on]. destruct (Ascii.eqb c "*") eqn:e.
    + exists "", (split_on "*" s). split; reflexivity.
    + rewrite h1. exists (String c h), l. split; [reflexivity|]. cbn. rewrite hs. reflexivity.
Qed.
Lemma count_lstrip h : count_char "^" (lstrip h) = count_char "^" h.
Proof.
  induction h as [|c h IH]; [reflexivity|]. cbn. destruct (is_space c) eqn:e; [|reflexivity]. rewrite IH.
  replace (Ascii.eqb c "^") with false; [reflexivity|]. symmetry. apply Ascii.eqb_neq. intros ->. discriminate.
Qed.
Lemma split_length c s : List.length (split_on c s) = S (count_char c s).
Proof.
  induction s as [|a s IH]; [reflexivity|]. cbn. destruct (Ascii.eqb a c); cbn; [congruence|]. destruct (split_on c s); cbn in *; congruence.
Qed.
Lemma parse_factor_raise h : (exists e, parse_factor h = Raise e) <->
  (2 <= count_char "^" h)%nat \/ (exists n t e, count_char "^" n = O /\ count_char "^" t = O /\ h = n +++ String "^" t /\ py_float t = Raise e).
Proof.
  unfold parse_factor. destruct (has_char "^" h) eqn:hc.
  - pose proof (split_length "^" h) as L. destruct (split_cons "^" h) as [u [l [h1 [h2 h3]]]]. rewrite h1 in *. cbn in L.
    destruct l as [|t [|? ?]].
    + exfalso. subst. rewrite (proj2 (count_has _ _) h2) in hc. discriminate.
    + cbn in L. destruct h3 as [r [-> h3]]. destruct (split_cons "^" r) as [u' [l' [k1 [k2 k3]]]]. rewrite k1 in h3. injection h3 as -> ->. subst r.
      split.
      * intros [e he]. right. exists u, t. destruct (py_float t) eqn:ht; [discriminate|]. eauto.
      * intros [h|[n [t' [e [e1 [e2 [e3 e4]]]]]]]; [lia|].
        assert (t' = t) as ->.
        { assert (X : split_on "^" (u +++ String "^" t) = split_on "^" (n +++ String "^" t')) by congruence.
          rewrite !split_sep in X by (apply count_has; assumption). rewrite !split_none in X by (apply count_has; assumption). congruence. }
        rewrite e4. cbn. eauto.
    + cbn in L. split; [intros _; left; lia|eauto].
  - apply count_has in hc. split; [intros [e h']; discriminate|]. intros [h'|[n [t [e [_ [_ [-> _]]]]]]]; [lia|].
    rewrite count_app in hc. cbn in hc. lia.
Qed.
Lemma lstrip_suffix h t : exists p, h = p +++ lstrip h /\ (forall x, lstrip h = x +++ String "^" t -> h = (p +++ x) +++ String "^" t).
Proof.
  assert (E : exists p, h = p +++ lstrip h).
  { induction h as [|c h [p IH]]; [exists ""; reflexivity|]. cbn. destruct (is_space c); [exists (String c p); cbn; congruence|exists ""; reflexivity]. }
  destruct E as [p E]. exists p. split; [exact E|]. intros x hx. rewrite E, hx. symmetry. apply sapp_assoc.
Qed.
Lemma bottom_fails t b e : parse_half b = Raise e -> exists e', parse_half (t +++ String "/" b) = Raise e'.
Proof.
  unfold parse_half. intro h. apply mapM_fail in h. destruct h as [f [e0 [hi hf]]].
  assert (S : strip (t +++ String "/" b) = (lstrip t +++ "/") +++ rstrip b).
  { unfold strip. rewrite lstrip_app by (eexists _, _; split; reflexivity). rewrite rstrip_app by reflexivity. rewrite sapp_assoc. reflexivity. }
  rewrite S. clear S. unfold strip in hi. rewrite rstrip_lstrip in hi.
  destruct (split_lstrip (rstrip b)) as [hd [l [h1 h2]]]. rewrite h2 in hi.
  destruct (split_app "*" (lstrip t +++ "/") (rstrip b)) as [la [x [y [lb [g1 [g2 g3]]]]]]. rewrite g3. rewrite h1 in g2. injection g2 as <- <-.
  destruct hi as [<-|hi].
  - assert (R : exists e', parse_factor (x +++ hd) = Raise e').
    { apply parse_factor_raise. apply (ex_intro (fun e => parse_factor (lstrip hd) = Raise e)) in hf. apply parse_factor_raise in hf.
      rewrite count_lstrip in hf. destruct hf as [k|[n [tt [e1 [k1 [k2 [k3 k4]]]]]]]; [left; rewrite count_app; lia|].
      destruct (Nat.eq_dec (count_char "^" x) 0) as [z|z].
      - right. destruct (lstrip_suffix hd tt) as [p [p1 p2]]. specialize (p2 n k3). exists (x +++ p +++ n), tt, e1.
        rewrite p2. split.
        + pose proof (count_lstrip hd) as C. rewrite k3 in C. rewrite p2 in C. rewrite !count_app in C. rewrite !count_app. cbn in C. lia.
        + split; [exact k2|]. split; [now rewrite !sapp_assoc|exact k4].
      - left. pose proof (count_lstrip hd) as C. rewrite k3 in C. rewrite count_app in C. cbn in C. rewrite count_app. lia. }
    destruct R as [e' R]. eapply mapM_in_fail; [|exact R]. apply in_or_app. right. left. reflexivity.
  - eapply mapM_in_fail; [|exact hf]. apply in_or_app. right. right. exact hi.
Qed.

Lemma parse_units_reads s top bot : (count_char "/" s <= 1)%nat -> parse_units s = Ok (top, bot) -> unit_reads s top bot.
Proof.
  intros hc h. pose proof (split_length "/" s) as L. unfold parse_units in h. destruct (split_cons "/" s) as [t [l [h1 [h2 h3]]]]. rewrite h1 in *. cbn in L.
  destruct l as [|b [|? ?]]; [| |cbn in L; lia].
  - subst t. cbn [bind] in h. destruct (parse_half s) eqn:e; [|discriminate]. cbn in h. injection h as <- <-. left. split; [exact h2|]. split; [|reflexivity].
    apply parse_half_reads. exact e.
  - destruct h3 as [r [-> h3]]. destruct (split_cons "/" r) as [u' [l' [k1 [k2 k3]]]]. rewrite k1 in h3. injection h3 as -> ->. subst r.
    destruct (parse_half b) as [bs|eb] eqn:hb.
    + cbn [bind] in h. destruct (parse_half t) eqn:e; [|discriminate]. cbn in h. injection h as <- <-. right. exists t, b.
      repeat (split; [reflexivity || assumption|]). split; apply parse_half_reads; assumption.
    + exfalso. destruct (bottom_fails t b eb hb) as [e' k]. destruct (parse_half_exn _ _ hb) as [-> | ->].
      * cbn [bind] in h. rewrite k in h. discriminate.
      * discriminate.
Qed.
Lemma parse_two_slashes s top bot : (2 <= count_char "/" s)%nat -> parse_units s = Ok (top, bot) -> bot = nil /\ half_reads s top.
Proof.
  intros hc h. pose proof (split_length "/" s) as L. unfold parse_units in h. destruct (split_on "/" s) as [|t [|b [|c l]]]; cbn in L; try lia.
  cbn [bind] in h. destruct (parse_half s) eqn:e; [|discriminate]. cbn in h. injection h as <- <-. split; [reflexivity|]. apply parse_half_reads. exact e.
Qed.
