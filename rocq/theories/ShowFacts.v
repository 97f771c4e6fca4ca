(** * ShowFacts: exponents as text, and the displayed form of units *)
From Coq Require Import String Ascii List ZArith QArith Qcanon Qpower Bool Lia.
From Verif Require Import Py UnitsStruct TextSpec TextFacts ParseFacts.
Import ListNotations.
Local Open Scope string_scope.
Local Open Scope list_scope.

(** ** str of an integer *)
Lemma digits_val_app l d : digits_val (l ++ [d]) = (10 * digits_val l + Z.of_nat d)%Z.
Proof. unfold digits_val. rewrite fold_left_app. reflexivity. Qed.
Lemma digits_text_app l m : digits_text (l ++ m) = digits_text l +++ digits_text m.
Proof. induction l; cbn [digits_text List.app String.append]; [reflexivity|]. now rewrite IHl. Qed.
Lemma show_digits_ok f : forall z acc, (0 <= z < 2 ^ Z.of_nat f)%Z -> (0 < f)%nat -> exists l,
  digits_ok l /\ l <> nil /\ show_digits f z acc = digits_text l +++ acc /\ digits_val l = z /\
  (List.length l = 1%nat \/ (10 ^ (Z.of_nat (List.length l) - 1) <= z)%Z).
Proof.
  induction f as [|f IH]; intros z acc hz hf; [lia|]. cbn [show_digits].
  assert (D : (0 <= z mod 10 < 10)%Z) by (apply Z.mod_pos_bound; lia).
  assert (C : digit_char (z mod 10) = dch (Z.to_nat (z mod 10))).
  { unfold digit_char, dch. f_equal. lia. }
  assert (E : z = (10 * (z / 10) + z mod 10)%Z) by (apply Z.div_mod; lia).
  assert (dk : (Z.to_nat (z mod 10) <= 9)%nat) by lia.
  rewrite C. destruct (Z.eqb (z / 10) 0) eqn:hq.
  - apply Z.eqb_eq in hq. exists [Z.to_nat (z mod 10)]. split; [intros d [<-|[]]; exact dk|]. split; [discriminate|].
    split; [reflexivity|]. split; [|left; reflexivity]. unfold digits_val. cbn [fold_left]. rewrite Z2Nat.id by lia. lia.
  - apply Z.eqb_neq in hq. assert (P : (0 < z / 10)%Z) by (assert (0 <= z / 10)%Z by (apply Z.div_pos; lia); lia).
    assert (P2 : (z / 10 < 2 ^ Z.of_nat f)%Z). { rewrite Nat2Z.inj_succ, Z.pow_succ_r in hz by lia. lia. }
    destruct (IH (z / 10)%Z (String (dch (Z.to_nat (z mod 10))) acc)) as [l [h1 [h2 [h3 [h4 h5]]]]]; [lia| |].
    { destruct f; [cbn in P2; lia|lia]. }
    exists (l ++ [Z.to_nat (z mod 10)]). split; [apply digits_ok_app; split; [exact h1|intros d [<-|[]]; exact dk]|].
    split; [destruct l; discriminate|]. split.
    { rewrite h3, digits_text_app. change (digits_text [Z.to_nat (z mod 10)]) with (String (dch (Z.to_nat (z mod 10))) ""). rewrite sapp_assoc. reflexivity. }
    split; [rewrite digits_val_app, h4, Z2Nat.id by lia; lia|].
    right. rewrite app_length, Nat.add_comm. cbn [List.length Nat.add]. rewrite Nat2Z.inj_succ.
    replace (Z.succ (Z.of_nat (List.length l)) - 1)%Z with (Z.of_nat (List.length l)) by lia.
    destruct h5 as [h5|h5]; [rewrite h5; change (10 ^ Z.of_nat 1)%Z with 10%Z; lia|].
    assert (L : (0 < Z.of_nat (List.length l))%Z) by (destruct l; [congruence|cbn; lia]).
    replace (Z.of_nat (List.length l)) with (Z.succ (Z.of_nat (List.length l) - 1)) by lia. rewrite Z.pow_succ_r by lia. lia.
Qed.
Lemma show_nonneg_ok z : (0 <= z)%Z -> exists l, digits_ok l /\ l <> nil /\ show_nonneg z = digits_text l /\ digits_val l = z /\
  (List.length l = 1%nat \/ (10 ^ (Z.of_nat (List.length l) - 1) <= z)%Z).
Proof.
  intro h. destruct (show_digits_ok (S (Z.to_nat (Z.log2 z))) z "") as [l [h1 [h2 [h3 [h4 h5]]]]]; [|lia|].
  - split; [exact h|]. rewrite Nat2Z.inj_succ, Z2Nat.id by apply Z.log2_nonneg.
    destruct (Z.eq_dec z 0) as [->|]; [reflexivity|]. apply Z.log2_spec. lia.
  - exists l. rewrite sapp_nil in h3. auto.
Qed.
Lemma digits_text_len l : String.length (digits_text l) = List.length l.
Proof. induction l; cbn [digits_text String.length List.length]; congruence. Qed.
Fixpoint zeros (n : nat) : list nat := match n with O => nil | S k => O :: zeros k end.
Lemma pad_zeros_text n l : pad_zeros n (digits_text l) = digits_text (zeros n ++ l).
Proof. induction n as [|n IH]; [reflexivity|]. cbn [pad_zeros zeros List.app digits_text]. rewrite IH. reflexivity. Qed.
Lemma zeros_val n l : digits_val (zeros n ++ l) = digits_val l.
Proof. induction n as [|n IH]; [reflexivity|]. cbn [zeros List.app]. unfold digits_val in *. cbn [fold_left]. exact IH. Qed.
Lemma zeros_ok n : digits_ok (zeros n).
Proof. induction n; [intros ? []|]. apply digits_ok_cons. split; [lia|assumption]. Qed.
Lemma zeros_len n : List.length (zeros n) = n.
Proof. induction n; cbn; congruence. Qed.
Lemma show_padded_ok k z : (0 < k)%nat -> (0 <= z < 10 ^ Z.of_nat k)%Z -> exists l, digits_ok l /\ show_padded k z = digits_text l /\ digits_val l = z /\ List.length l = k.
Proof.
  intros hk hz. unfold show_padded. destruct (show_nonneg_ok z) as [l [h1 [h2 [h3 [h4 h5]]]]]; [lia|]. rewrite h3, digits_text_len.
  assert (L : (List.length l <= k)%nat).
  { destruct h5 as [h5|h5]; [lia|]. destruct (le_lt_dec (List.length l) k) as [|c]; [assumption|]. exfalso.
    assert (10 ^ Z.of_nat k <= 10 ^ (Z.of_nat (List.length l) - 1))%Z by (apply Z.pow_le_mono_r; lia). lia. }
  exists (zeros (k - List.length l) ++ l). split; [apply digits_ok_app; split; [apply zeros_ok|exact h1]|].
  split; [apply pad_zeros_text|]. split; [rewrite zeros_val; exact h4|]. rewrite app_length, zeros_len. lia.
Qed.
Lemma dec_places_ok f : forall n d k, (0 < d)%Z -> dec_places f n d = Some k -> ((n * 10 ^ Z.of_nat k) mod d = 0)%Z.
Proof.
  induction f as [|f IH]; intros n d k hd h; cbn [dec_places] in h; destruct (Z.eqb (n mod d) 0) eqn:e.
  - injection h as <-. apply Z.eqb_eq in e. cbn. now rewrite Z.mul_1_r.
  - discriminate.
  - injection h as <-. apply Z.eqb_eq in e. cbn. now rewrite Z.mul_1_r.
  - destruct (dec_places f (n * 10) d) as [k'|] eqn:hk; [|discriminate]. injection h as <-. apply IH in hk; [|exact hd].
    rewrite Nat2Z.inj_succ, Z.pow_succ_r by lia. rewrite Z.mul_assoc. exact hk.
Qed.
Lemma dec_places_pos f n d k : dec_places f n d = Some k -> (n mod d <> 0)%Z -> (0 < k)%nat.
Proof.
  destruct f; cbn; destruct (Z.eqb (n mod d) 0) eqn:e; intros h hn; try (apply Z.eqb_eq in e; contradiction); [discriminate|].
  destruct (dec_places f (n * 10) d); [|discriminate]. injection h as <-. lia.
Qed.

(** ** str of an exponent *)
Definition sign_of (z : Z) : option bool := if Z.ltb z 0 then Some true else None.
Lemma sign_of_abs z : (sign_val (sign_of z) * Z.abs z = z)%Z.
Proof. unfold sign_of. destruct (Z.ltb z 0) eqn:e; cbn [sign_val]; [apply Z.ltb_lt in e|apply Z.ltb_ge in e]; lia. Qed.
Lemma show_Z_ok z : exists l, digits_ok l /\ l <> nil /\ digits_val l = Z.abs z /\ show_Z z = sign_text (sign_of z) +++ digits_text l.
Proof.
  unfold show_Z, sign_of. destruct (Z.ltb z 0) eqn:e.
  - apply Z.ltb_lt in e. destruct (show_nonneg_ok (- z)) as [l [h1 [h2 [h3 [h4 _]]]]]; [lia|]. exists l. rewrite h3. repeat split; auto. lia.
  - apply Z.ltb_ge in e. destruct (show_nonneg_ok z) as [l [h1 [h2 [h3 [h4 _]]]]]; [lia|]. exists l. rewrite h3. repeat split; auto. lia.
Qed.
Lemma den1 q : Qden q = 1%positive -> (q == inject_Z (Qnum q))%Q.
Proof. destruct q as [n d]. cbn. intros ->. reflexivity. Qed.
Lemma quot1 n : Z.quot n 1 = n.
Proof. apply Z.quot_1_r. Qed.
(** The text is a plain decimal: [str_parts] also tells the digits. *)
Lemma str_expo_int e s : expo_wf e -> Qden (this (ev e)) = 1%positive -> str_expo e = Ok s ->
  exists l, digits_ok l /\ l <> nil /\ digits_val l = Z.abs (Qnum (this (ev e))) /\
    s = num_text (Numeral (sign_of (Qnum (this (ev e)))) l (if isf e then Some [0%nat] else None) None).
Proof.
  intros hw hd h. unfold str_expo in h. destruct (show_Z_ok (Qnum (this (ev e)))) as [l [h1 [h2 [h3 h4]]]]. exists l. split; [exact h1|]. split; [exact h2|]. split; [exact h3|].
  destruct (isf e) eqn:hf; cbn [negb] in h.
  - destruct (Z.leb _ _); [discriminate|]. unfold is_int in h. rewrite hd in h. replace (Pos.eqb 1 1) with true in h by reflexivity.
    injection h as <-. rewrite h4. unfold num_text. cbn [nsign nwhole nfrac nexp]. rewrite !sapp_assoc, sapp_nil. reflexivity.
  - injection h as <-. unfold trunc. rewrite hd, quot1, h4. unfold num_text. cbn [nsign nwhole nfrac nexp]. rewrite !sapp_nil. reflexivity.
Qed.
Lemma str_expo_frac e s : Qden (this (ev e)) <> 1%positive -> expo_wf e -> str_expo e = Ok s ->
  exists l f, digits_ok l /\ digits_ok f /\ l <> nil /\ f <> nil /\ isf e = true /\
    s = num_text (Numeral (sign_of (Qnum (this (ev e)))) l (Some f) None) /\
    (digits_val (l ++ f) * Zpos (Qden (this (ev e))) = Z.abs (Qnum (this (ev e))) * 10 ^ Z.of_nat (List.length f))%Z /\
    (digits_val f < 10 ^ Z.of_nat (List.length f))%Z.
Proof.
  intros hd hw h. destruct (isf e) eqn:hf; [|exfalso; apply hd, hw, hf]. unfold str_expo in h. rewrite hf in h. cbn [negb] in h.
  set (n := Qnum (this (ev e))) in *. set (d := Zpos (Qden (this (ev e)))) in *.
  destruct (Z.leb _ _); [discriminate|]. unfold is_int in h. replace (Pos.eqb (Qden (this (ev e))) 1) with false in h by (symmetry; apply Pos.eqb_neq; exact hd).
  destruct (Z.ltb (Z.abs n * 10000) d); [discriminate|]. destruct (dec_places 12 (Z.abs n) d) as [k|] eqn:hk; [|discriminate]. destruct (Z.leb (10 ^ 15) _); [discriminate|]. injection h as <-.
  assert (dp : (0 < d)%Z) by (unfold d; lia).
  assert (nm : (Z.abs n mod d <> 0)%Z).
  { intro c. apply Z.mod_divide in c; [|lia]. apply (proj1 (Z.divide_abs_r _ _)) in c.
    pose proof (canon (ev e)) as cn. pose proof (Qred_identity2 (this (ev e)) cn) as g. fold n d in g.
    assert (g2 : Z.gcd n d = d). { apply Z.gcd_unique; [lia|exact c|exists 1%Z; lia|auto]. }
    rewrite g2 in g. unfold d in g. apply hd. lia. }
  pose proof (dec_places_pos _ _ _ _ hk nm) as kp. pose proof (dec_places_ok _ _ _ _ dp hk) as km.
  set (m := (Z.abs n * 10 ^ Z.of_nat k / d)%Z).
  assert (p10 : (0 < 10 ^ Z.of_nat k)%Z) by (apply Z.pow_pos_nonneg; lia).
  assert (mE : (m * d = Z.abs n * 10 ^ Z.of_nat k)%Z). { unfold m. pose proof (Z.div_mod (Z.abs n * 10 ^ Z.of_nat k) d). lia. }
  assert (m0 : (0 <= m)%Z) by (unfold m; apply Z.div_pos; lia).
  destruct (show_nonneg_ok (m / 10 ^ Z.of_nat k)) as [l [h1 [h2 [h3 [h4 _]]]]]; [apply Z.div_pos; lia|].
  assert (mm : (0 <= m mod 10 ^ Z.of_nat k < 10 ^ Z.of_nat k)%Z) by (apply Z.mod_pos_bound; lia).
  destruct (show_padded_ok k (m mod 10 ^ Z.of_nat k) kp mm) as [f [f1 [f2 [f3 f4]]]].
  exists l, f. split; [exact h1|]. split; [exact f1|]. split; [exact h2|]. split; [destruct f; [cbn in f4; lia|discriminate]|]. split; [reflexivity|]. split; [|split].
  - rewrite h3, f2. unfold num_text, sign_of. cbn [nsign nwhole nfrac nexp]. rewrite sapp_nil. destruct (Z.ltb n 0); reflexivity.
  - change (digits_val (l ++ f)) with (dval_from 0 (l ++ f)). rewrite dval_from_app, dval_from_val. change (dval_from 0 l) with (digits_val l).
    rewrite h4, f3, f4, <- mE. f_equal. pose proof (Z.div_mod m (10 ^ Z.of_nat k)). lia.
  - rewrite f3, f4. lia.
Qed.
Lemma Qpow10_neg k : (Qpower (inject_Z 10) (- Z.of_nat k) == / inject_Z (10 ^ Z.of_nat k))%Q.
Proof.
  rewrite Qpower_opp. apply Qinv_comp. induction k as [|k IH]; [reflexivity|]. rewrite Nat2Z.inj_succ.
  unfold Z.succ. rewrite Qpower_plus by discriminate. rewrite IH. rewrite Z.pow_add_r by lia. rewrite inject_Z_mult. reflexivity.
Qed.
Lemma str_expo_numeral e s : expo_wf e -> str_expo e = Ok s ->
  exists n, num_ok n /\ nexp n = None /\ (num_val n == this (ev e))%Q /\ s = num_text n.
Proof.
  intros hw h. destruct (Pos.eq_dec (Qden (this (ev e))) 1) as [hd|hd].
  - destruct (str_expo_int e s hw hd h) as [l [h1 [h2 [h3 h4]]]]. eexists. split; [|split; [|split; [|exact h4]]].
    + split; [exact h1|]. split; [destruct (isf e); cbn; [intros d [<-|[]]; lia|intros d []]|]. cbn. split; [|exact I]. destruct l; [congruence|discriminate].
    + reflexivity.
    + unfold num_val, frac_digits. cbn [nsign nwhole nfrac nexp]. etransitivity; [|symmetry; exact (den1 _ hd)]. destruct (isf e).
      * rewrite digits_val_app, h3. cbn [List.length]. change (0 - Z.of_nat 1)%Z with (- Z.of_nat 1)%Z. rewrite Qpow10_neg.
        replace (sign_val (sign_of (Qnum (this (ev e)))) * (10 * Z.abs (Qnum (this (ev e))) + Z.of_nat 0))%Z with (Qnum (this (ev e)) * 10)%Z
          by (rewrite <- (sign_of_abs (Qnum (this (ev e)))) at 1; lia).
        rewrite inject_Z_mult. change (10 ^ Z.of_nat 1)%Z with 10%Z. field.
      * rewrite app_nil_r, h3, sign_of_abs. cbn. ring.
  - destruct (str_expo_frac e s hd hw h) as [l [f [h1 [h2 [h3 [h4 [h5 [h6 [h7 _]]]]]]]]]. eexists. split; [|split; [|split; [|exact h6]]].
    + split; [exact h1|]. split; [exact h2|]. cbn. split; [destruct l; [congruence|discriminate]|exact I].
    + reflexivity.
    + unfold num_val, frac_digits. cbn [nsign nwhole nfrac nexp]. rewrite Z.sub_0_l, Qpow10_neg.
      set (n := Qnum (this (ev e))) in *. set (d := Qden (this (ev e))) in *.
      assert (E : (this (ev e) == inject_Z n / inject_Z (Zpos d))%Q) by (unfold n, d; destruct (this (ev e)); apply Qmake_Qdiv).
      rewrite E. clear E. set (p := (10 ^ Z.of_nat (List.length f))%Z) in *.
      assert (pp : (0 < p)%Z) by (unfold p; apply Z.pow_pos_nonneg; lia).
      rewrite <- (sign_of_abs n) at 2.
      assert (E : (inject_Z (digits_val (l ++ f)) * inject_Z (Zpos d) == inject_Z (Z.abs n) * inject_Z p)%Q) by (rewrite <- !inject_Z_mult; rewrite h7; reflexivity).
      rewrite !inject_Z_mult. 
      assert (nd : ~ (inject_Z (Zpos d) == 0)%Q) by (unfold Qeq; cbn; lia).
      assert (np : ~ (inject_Z p == 0)%Q) by (unfold Qeq; cbn; lia).
      set (D := inject_Z (Zpos d)) in *. set (P := inject_Z p) in *. set (V := inject_Z (digits_val (l ++ f))) in *. set (A := inject_Z (Z.abs n)) in *.
      assert (E2 : (V == A * P / D)%Q) by (rewrite <- E; field; exact nd). rewrite E2. field. split; assumption.
Qed.
Lemma float_str e s : expo_wf e -> str_expo e = Ok s -> py_float s = Ok (ev e).
Proof.
  intros hw h. destruct (str_expo_numeral e s hw h) as [n [h1 [h2 [h3 ->]]]]. rewrite (py_float_numeral n h1). f_equal.
  apply Qc_is_canon. etransitivity; [apply Qred_correct|exact h3].
Qed.

(** ** remove_zero *)
Lemma prefix2 c d s : String.prefix (String c (String d "")) s = match s with String a (String b _) => Ascii.eqb c a && Ascii.eqb d b | _ => false end.
Proof.
  destruct s as [|a s]; [reflexivity|]. cbn. destruct s as [|b s].
  - destruct (ascii_dec c a); reflexivity.
  - destruct (ascii_dec c a) as [->|n]; [rewrite Ascii.eqb_refl; cbn|apply Ascii.eqb_neq in n; rewrite n; reflexivity].
    destruct (ascii_dec d b) as [->|n]; [rewrite Ascii.eqb_refl; destruct s; reflexivity|apply Ascii.eqb_neq in n; rewrite n; reflexivity].
Qed.
Lemma in_nodot s : has_char "." s = false -> str_in ".0" s = false.
Proof.
  induction s as [|a s IH]; [reflexivity|]. intro h. cbn [has_char] in h. apply orb_false_iff in h. destruct h as [h1 h2].
  cbn [str_in]. rewrite prefix2, (IH h2), orb_false_r. destruct s as [|b s]; [reflexivity|]. rewrite Ascii.eqb_sym, h1. reflexivity.
Qed.
Lemma in_dot a b : has_char "." a = false -> has_char "." b = false -> str_in ".0" (a +++ String "." b) = match b with String c _ => Ascii.eqb c "0" | _ => false end.
Proof.
  intros ha hb. induction a as [|x a IH].
  - cbn [String.append str_in]. rewrite prefix2, (in_nodot b hb), orb_false_r. destruct b as [|c b]; [reflexivity|]. change (Ascii.eqb "0" c = Ascii.eqb c "0"). apply Ascii.eqb_sym.
  - cbn [has_char] in ha. apply orb_false_iff in ha. destruct ha as [h1 h2]. cbn [String.append str_in]. rewrite (IH h2), prefix2.
    replace (match a +++ String "." b with String b0 _ => Ascii.eqb "." x && Ascii.eqb "0" b0 | "" => false end) with false; [reflexivity|].
    rewrite Ascii.eqb_sym, h1. destruct (a +++ String "." b); reflexivity.
Qed.
Lemma digits_nodot l : digits_ok l -> has_char "." (digits_text l) = false.
Proof.
  induction l as [|d l IH]; intro h; [reflexivity|]. apply digits_ok_cons in h. destruct h as [h1 h2]. cbn [digits_text has_char].
  rewrite (IH h2), orb_false_r. revert d h1. apply all_digits; reflexivity.
Qed.
Lemma sign_nodot z : has_char "." (sign_text (sign_of z)) = false.
Proof. unfold sign_of. destruct (Z.ltb z 0); reflexivity. Qed.
Lemma trunc_int q : Qden (this q) = 1%positive -> qc (trunc q) = q.
Proof.
  intro h. unfold trunc. rewrite h, quot1. apply Qc_is_canon. etransitivity; [apply Qred_correct|]. symmetry. apply den1. exact h.
Qed.
Lemma digit0 d : (d <= 9)%nat -> Ascii.eqb (ascii_of_nat (48 + d)) "0" = Nat.eqb d 0.
Proof. revert d. apply all_digits; reflexivity. Qed.
Lemma digits_val_nonneg l : (0 <= digits_val l)%Z.
Proof. change (digits_val l) with (dval_from 0 l). assert (H : forall a, (0 <= a)%Z -> (0 <= dval_from a l)%Z); [|apply H; lia].
  induction l as [|d l IH]; intros a ha; [exact ha|]. apply IH. lia. Qed.
Lemma digits_val_lt l : digits_ok l -> (digits_val l < 10 ^ Z.of_nat (List.length l))%Z.
Proof.
  induction l as [|d l IH]; intro h; [reflexivity|]. apply digits_ok_cons in h. destruct h as [h1 h2]. specialize (IH h2).
  change (digits_val (d :: l)) with (dval_from (10 * 0 + Z.of_nat d) l). rewrite dval_from_val. cbn [List.length]. rewrite Nat2Z.inj_succ, Z.pow_succ_r by lia. nia.
Qed.
Lemma frac_head e l f : (Qden (this (ev e)) <> 1%positive) -> digits_ok l -> digits_ok f -> f <> nil ->
  (digits_val (l ++ f) * Zpos (Qden (this (ev e))) = Z.abs (Qnum (this (ev e))) * 10 ^ Z.of_nat (List.length f))%Z ->
  first_decimal_kept e <-> (exists d r, f = d :: r /\ d <> 0%nat).
Proof.
  intros hd hl hf hn h. set (d := Zpos (Qden (this (ev e)))) in *. set (n := Z.abs (Qnum (this (ev e)))) in *.
  assert (dp : (0 < d)%Z) by (unfold d; lia). assert (n0 : (0 <= n)%Z) by (unfold n; lia).
  set (p := (10 ^ Z.of_nat (List.length f))%Z) in *.
  assert (pp : (0 < p)%Z) by (unfold p; apply Z.pow_pos_nonneg; lia).
  assert (hv : digits_val (l ++ f) = (digits_val l * p + digits_val f)%Z).
  { change (digits_val (l ++ f)) with (dval_from 0 (l ++ f)). rewrite dval_from_app, dval_from_val. reflexivity. }
  pose proof (digits_val_lt f hf) as fl. fold p in fl. pose proof (digits_val_nonneg f) as f0.
  assert (Q : (n / d = digits_val l /\ digits_val f * d = (n mod d) * p)%Z).
  { rewrite hv in h. set (r := (n - digits_val l * d)%Z).
    assert (X : (r * p = digits_val f * d)%Z) by (unfold r; lia).
    assert (r0 : (0 <= r)%Z) by nia. assert (r1 : (r < d)%Z) by nia.
    assert (nE : n = (d * digits_val l + r)%Z) by (unfold r; ring).
    assert (A : (n / d)%Z = digits_val l) by (symmetry; apply (Z.div_unique_pos n d _ r); [lia|exact nE]).
    assert (B : (n mod d)%Z = r) by (symmetry; apply (Z.mod_unique_pos n d (digits_val l) r); [lia|exact nE]).
    split; [exact A|]. rewrite B. symmetry. exact X. }
  destruct Q as [_ q]. destruct f as [|x r]; [congruence|]. apply digits_ok_cons in hf. destruct hf as [hx hr].
  set (p' := (10 ^ Z.of_nat (List.length r))%Z).
  assert (pE : p = (10 * p')%Z) by (unfold p, p'; cbn [List.length]; rewrite Nat2Z.inj_succ, Z.pow_succ_r by lia; reflexivity).
  assert (vE : digits_val (x :: r) = (Z.of_nat x * p' + digits_val r)%Z).
  { change (digits_val (x :: r)) with (dval_from (10 * 0 + Z.of_nat x) r). rewrite dval_from_val. reflexivity. }
  pose proof (digits_val_lt r hr) as rl. fold p' in rl. pose proof (digits_val_nonneg r) as r0.
  assert (pp' : (0 < p')%Z) by lia. rewrite vE, pE in q.
  unfold first_decimal_kept. fold d n. split.
  - intros [c|c]; [contradiction|]. exists x, r. split; [reflexivity|]. intros ->. cbn [Z.of_nat] in q. nia.
  - intros [x' [r' [E hx']]]. injection E as <- <-. right. assert (1 <= Z.of_nat x)%Z by lia. nia.
Qed.
Lemma qc_den z : Qden (this (qc z)) = 1%positive.
Proof.
  change (Qden (Qred (inject_Z z)) = 1%positive). rewrite Qred_identity; [reflexivity|]. apply Z.gcd_1_r.
Qed.
Lemma remove_zero_kept e z : expo_wf e -> first_decimal_kept e -> remove_zero e = Ok z -> expo_wf z /\ ev z = ev e.
Proof.
  intros hw hk h. unfold remove_zero in h. destruct (str_expo e) as [s|] eqn:hs; [|discriminate]. cbn [bind] in h.
  destruct (str_in ".0" s) eqn:hi; injection h as <-; [|auto]. split.
  - intros _. apply qc_den.
  - cbn [ev eint]. destruct (Pos.eq_dec (Qden (this (ev e))) 1) as [hd|hd]; [apply trunc_int; exact hd|exfalso].
    destruct (str_expo_frac e s hd hw hs) as [l [f [h1 [h2 [h3 [h4 [h5 [h6 [h7 _]]]]]]]]].
    apply (frac_head e l f hd h1 h2 h4 h7) in hk. destruct hk as [x [r [-> hx]]]. subst s. unfold num_text in hi. cbn [nsign nwhole nfrac nexp] in hi.
    rewrite sapp_nil, <- sapp_assoc in hi. change ("." +++ digits_text (x :: r)) with (String "." (digits_text (x :: r))) in hi. rewrite in_dot in hi.
    + cbn [digits_text] in hi. apply digits_ok_cons in h2. rewrite (digit0 x (proj1 h2)) in hi. apply Nat.eqb_eq in hi. contradiction.
    + rewrite has_char_app, sign_nodot, (digits_nodot l h1). reflexivity.
    + apply digits_nodot. exact h2.
Qed.
(** Otherwise the decimals are lost. *)
Lemma remove_zero_lost e z : expo_wf e -> ~ first_decimal_kept e -> remove_zero e = Ok z -> ev z = qc (trunc (ev e)) /\ ev z <> ev e.
Proof.
  intros hw hk h. unfold remove_zero in h. destruct (str_expo e) as [s|] eqn:hs; [|discriminate]. cbn [bind] in h.
  assert (hd : Qden (this (ev e)) <> 1%positive) by (intro c; apply hk; left; exact c).
  destruct (str_expo_frac e s hd hw hs) as [l [f [h1 [h2 [h3 [h4 [h5 [h6 [h7 _]]]]]]]]].
  assert (hi : str_in ".0" s = true).
  { subst s. unfold num_text. cbn [nsign nwhole nfrac nexp].
    rewrite sapp_nil, <- sapp_assoc. change ("." +++ digits_text f) with (String "." (digits_text f)). rewrite in_dot.
    - destruct f as [|x r]; [congruence|]. cbn [digits_text]. apply digits_ok_cons in h2. rewrite (digit0 x (proj1 h2)). apply Nat.eqb_eq.
      destruct (Nat.eq_dec x 0) as [|c]; [assumption|]. exfalso. apply hk. apply (frac_head e l (x :: r) hd h1 (proj2 (digits_ok_cons x r) h2) h4 h7). eauto.
    - rewrite has_char_app, sign_nodot, (digits_nodot l h1). reflexivity.
    - apply digits_nodot. exact h2. }
  rewrite hi in h. injection h as <-. split; [reflexivity|]. cbn [ev eint]. intro c. apply hd. rewrite <- c. apply qc_den.
Qed.

(** ** Superscripts *)
Lemma sup_ascii d : (d <= 9)%nat -> sup_char (ascii_of_nat (48 + d)) = sup_digit d.
Proof. revert d. apply all_digits; reflexivity. Qed.
Lemma to_sup_app a b : to_sup (a +++ b) = to_sup a +++ to_sup b.
Proof. induction a as [|c a IH]; [reflexivity|]. cbn [to_sup String.append]. rewrite IH. symmetry. apply sapp_assoc. Qed.
Lemma to_sup_digits l : digits_ok l -> to_sup (digits_text l) = sup_digits l.
Proof.
  induction l as [|d l IH]; intro h; [reflexivity|]. apply digits_ok_cons in h. destruct h as [h1 h2]. cbn [digits_text to_sup sup_digits].
  rewrite (IH h2), (sup_ascii d h1). reflexivity.
Qed.
Lemma to_sup_num n : num_ok n -> nexp n = None -> to_sup (num_text n) = sup_num n.
Proof.
  intros [h1 [h2 _]] he. unfold num_text, sup_num. rewrite he, sapp_nil, !to_sup_app, (to_sup_digits _ h1).
  assert (to_sup (sign_text (nsign n)) = sign_text (nsign n)) as -> by (destruct (nsign n) as [[]|]; reflexivity).
  unfold frac_digits in h2. destruct (nfrac n) as [f|]; [|reflexivity]. rewrite to_sup_app, (to_sup_digits _ h2). reflexivity.
Qed.

(** ** The displayed form *)
Lemma show_sup_ok n e s : expo_wf e -> first_decimal_kept e -> show_sup n e = Ok s ->
  exists k, num_ok k /\ nexp k = None /\ (num_val k == this (ev e))%Q /\ s = n +++ sup_num k.
Proof.
  intros hw hk h. unfold show_sup in h. destruct (remove_zero e) as [z|] eqn:hz; [|discriminate]. cbn [bind] in h.
  destruct (remove_zero_kept e z hw hk hz) as [zw ze]. destruct (str_expo z) as [t|] eqn:ht; [|discriminate]. cbn [bind] in h. injection h as <-.
  destruct (str_expo_numeral z t zw ht) as [k [k1 [k2 [k3 ->]]]]. exists k. rewrite ze in k3. rewrite (to_sup_num k k1 k2). auto.
Qed.
Lemma e_is_1 e : e_is e 1 = true <-> ev e = Q2Qc 1.
Proof.
  unfold e_is. change (qc 1) with (Q2Qc 1). split; [apply Qc_eq_bool_correct|]. intros ->. reflexivity.
Qed.
Lemma show_bu_ok x s : showable x -> show_bu x = Ok s -> shown x s.
Proof.
  intros [hw hk] h. unfold show_bu in h. unfold shown. destruct (e_is (bexp x) 1) eqn:he.
  - injection h as <-. left. apply e_is_1 in he. auto.
  - right. split; [intro c; apply e_is_1 in c; congruence|]. apply show_sup_ok; assumption.
Qed.
Lemma join_spaced l : join " * " l = spaced l.
Proof. induction l as [|x [|y l] IH]; [reflexivity..|]. change (x +++ " * " +++ join " * " (y :: l) = x +++ " * " +++ spaced (y :: l)). now rewrite IH. Qed.
Lemma spaced_snoc l s : (forall x, In x l -> x <> "") ->
  (if String.eqb (spaced l) EmptyString then s else spaced l +++ " * " +++ s) = spaced (l ++ [s]).
Proof.
  intro h. destruct l as [|x l]; [reflexivity|].
  assert (E : forall l x, spaced (x :: l) +++ " * " +++ s = spaced ((x :: l) ++ [s])).
  { clear. induction l as [|y l IH]; intro x; [reflexivity|]. change (spaced (x :: y :: l)) with (x +++ " * " +++ spaced (y :: l)).
    change (spaced ((x :: y :: l) ++ [s])) with (x +++ " * " +++ spaced ((y :: l) ++ [s])). rewrite <- IH. rewrite !sapp_assoc. reflexivity. }
  replace (String.eqb (spaced (x :: l)) "") with false; [apply E|]. symmetry. apply String.eqb_neq.
  assert (x <> "") by (apply h; left; reflexivity). destruct x as [|c x]; [congruence|]. destruct l; discriminate.
Qed.
Lemma eltb0 e : eltb e (eint 0) = Z.ltb (Qnum (this (ev e))) 0.
Proof.
  unfold eltb, Qcltb. cbn. unfold Qle_bool. cbn. rewrite Z.mul_1_r. rewrite Z.leb_antisym. rewrite negb_involutive. reflexivity.
Qed.
Lemma showable_flip x : showable x -> showable (flip_bu x).
Proof.
  assert (R : this (- ev (bexp x))%Qc = (- this (ev (bexp x)))%Q).
  { change (Qred (- this (ev (bexp x)))%Q = (- this (ev (bexp x)))%Q). rewrite Qred_opp, (canon (ev (bexp x))). reflexivity. }
  assert (D : Qden (this (- ev (bexp x))%Qc) = Qden (this (ev (bexp x)))) by (rewrite R; reflexivity).
  assert (N : Qnum (this (- ev (bexp x))%Qc) = (- Qnum (this (ev (bexp x))))%Z) by (rewrite R; reflexivity).
  intros [hw hk]. unfold showable, expo_wf, first_decimal_kept, flip_bu, eopp in *. cbn [bexp ev isf] in *. rewrite D, N, Z.abs_opp. auto.
Qed.
Lemma not_neg1 x : ev (bexp x) = Q2Qc 1 -> negative x = false.
Proof. unfold negative. intros ->. reflexivity. Qed.
Lemma shown_ne x t : bname x <> "" -> shown x t -> t <> "".
Proof. intros h [[_ ->]|[_ [n [_ [_ [_ ->]]]]]]; [exact h|]. destruct (bname x); [congruence|discriminate]. Qed.
Lemma moved_ne x t : bname x <> "" -> shown_moved x t -> t <> "".
Proof. intros h [n [_ [_ [_ ->]]]]. destruct (bname x); [congruence|discriminate]. Qed.
Lemma show_bottom_ok bot : forall tl acc top' acc',
  (forall x, In x bot -> showable x /\ bname x <> "") -> (forall t, In t tl -> t <> "") ->
  show_bottom bot (spaced tl) acc = Ok (top', acc') ->
  exists ns bs, top' = spaced (tl ++ ns) /\ acc' = acc ++ bs /\
    Forall2 shown_moved (map flip_bu (filter negative bot)) ns /\ Forall2 shown (filter (fun x => negb (negative x)) bot) bs.
Proof.
  induction bot as [|x bot IH]; intros tl acc top' acc' hb ht h; cbn [show_bottom] in h.
  - injection h as <- <-. exists nil, nil. rewrite !app_nil_r. repeat split; constructor.
  - assert (hx : showable x /\ bname x <> "") by (apply hb; left; reflexivity). destruct hx as [[hw hk] hne].
    assert (hb' : forall y, In y bot -> showable y /\ bname y <> "") by (intros y hy; apply hb; right; exact hy).
    destruct (e_is (bexp x) 1) eqn:h1.
    + apply e_is_1 in h1. pose proof (not_neg1 x h1) as nn. destruct (IH _ _ _ _ hb' ht h) as [ns [bs [r1 [r2 [r3 r4]]]]].
      exists ns, (bname x :: bs). cbn [filter]. rewrite nn. cbn [negb]. split; [exact r1|]. split; [rewrite r2, <- app_assoc; reflexivity|]. split; [exact r3|].
      constructor; [left; auto|exact r4].
    + rewrite eltb0 in h. destruct (Z.ltb (Qnum (this (ev (bexp x)))) 0) eqn:hn.
      * destruct (show_sup (bname x) (eopp (bexp x))) as [s|] eqn:hs; [|discriminate]. cbn [bind] in h. rewrite spaced_snoc in h by exact ht.
        destruct (showable_flip x (conj hw hk)) as [fw fk]. pose proof (show_sup_ok _ _ _ fw fk hs) as sh.
        assert (ht' : forall t, In t (tl ++ [s]) -> t <> "").
        { intros t hi. apply in_app_or in hi. destruct hi as [hi|[<-|[]]]; [apply ht; exact hi|]. apply (moved_ne (flip_bu x)); assumption. }
        destruct (IH _ _ _ _ hb' ht' h) as [ns [bs [r1 [r2 [r3 r4]]]]].
        exists (s :: ns), bs. cbn [filter]. change (negative x) with (Z.ltb (Qnum (this (ev (bexp x)))) 0). rewrite hn. cbn [negb map].
        split; [rewrite r1, <- app_assoc; reflexivity|]. split; [exact r2|]. split; [|exact r4]. constructor; [exact sh|exact r3].
      * destruct (show_sup (bname x) (bexp x)) as [s|] eqn:hs; [|discriminate]. cbn [bind] in h.
        destruct (IH _ _ _ _ hb' ht h) as [ns [bs [r1 [r2 [r3 r4]]]]].
        exists ns, (s :: bs). cbn [filter]. change (negative x) with (Z.ltb (Qnum (this (ev (bexp x)))) 0). rewrite hn. cbn [negb].
        split; [exact r1|]. split; [rewrite r2, <- app_assoc; reflexivity|]. split; [exact r3|]. constructor; [|exact r4].
        right. split; [intro c; apply e_is_1 in c; congruence|]. apply show_sup_ok; assumption.
Qed.
Lemma mapM_show l ts : (forall x, In x l -> showable x) -> mapM show_bu l = Ok ts -> Forall2 shown l ts.
Proof.
  revert ts. induction l as [|x l IH]; intros ts hl h; cbn in h; [injection h as <-; constructor|].
  destruct (show_bu x) as [t|] eqn:hx; [|discriminate]. cbn in h. destruct (mapM show_bu l) eqn:hm; [|discriminate]. cbn in h. injection h as <-.
  constructor; [apply show_bu_ok; [apply hl; left; reflexivity|exact hx]|]. apply IH; [|reflexivity]. intros y hy. apply hl. right. exact hy.
Qed.
Lemma unit_string_ok top bot s :
  (forall x, In x (top ++ bot) -> showable x /\ bname x <> "") -> get_unit_string top bot = Ok s ->
  exists ts ns bs, Forall2 shown top ts /\ Forall2 shown_moved (map flip_bu (filter negative bot)) ns /\
    Forall2 shown (filter (fun x => negb (negative x)) bot) bs /\
    s = spaced (ts ++ ns) +++ (match bot with nil => "" | _ => " / " +++ spaced bs end).
Proof.
  intros hall h. unfold get_unit_string in h. destruct (mapM show_bu top) as [ts|] eqn:ht; [|discriminate]. cbn [bind] in h. rewrite join_spaced in h.
  assert (hts : Forall2 shown top ts) by (apply mapM_show; [intros x hx; apply hall; apply in_or_app; left; exact hx|exact ht]).
  destruct bot as [|y bot].
  - injection h as <-. exists ts, nil, nil. cbn. rewrite app_nil_r, sapp_nil. repeat split; auto.
  - destruct (show_bottom (y :: bot) (spaced ts) []) as [[t' a']|] eqn:hb; [|discriminate]. cbn [bind fst snd] in h. injection h as <-.
    apply show_bottom_ok in hb.
    + destruct hb as [ns [bs [r1 [r2 [r3 r4]]]]]. exists ts, ns, bs. rewrite r1, r2. cbn [List.app]. rewrite join_spaced. auto.
    + intros x hx. apply hall. apply in_or_app. right. exact hx.
    + intros t hi. assert (G : forall l m, Forall2 shown l m -> (forall x, In x l -> bname x <> "") -> In t m -> t <> "").
      { clear. intros l m F. induction F as [|x u l m hx F IH]; intros hl hi; [contradiction|]. destruct hi as [<-|hi].
        - apply (shown_ne x); [apply hl; left; reflexivity|exact hx].
        - apply IH; [|exact hi]. intros z hz. apply hl. right. exact hz. }
      apply (G top ts hts); [|exact hi]. intros x hx. apply hall. apply in_or_app. left. exact hx.
Qed.
