(** * LayoutFacts: a decimal of at most 15 digits is printed as it was written *)
From Coq Require Import String Ascii List ZArith QArith Qcanon Bool Reals Qreals Lra Lia.
From Coq Require Import Floats.SpecFloat.
From Verif Require Import Py Num NumFacts UnitsStruct Units Rounding RoundSpec RangeSpec FloatExp FloatRound B64Facts B64Round TextSpec TextFacts ShowFacts Print PrintSpec PrintFacts.
Import ListNotations.
Local Open Scope R_scope.
Local Notation p10 := (powerRZ 10).
Local Notation p2 := (powerRZ 2).

(** ** Digits *)
Lemma digits_cons d l : digits_val (d :: l) = (Z.of_nat d * 10 ^ Z.of_nat (List.length l) + digits_val l)%Z.
Proof. change (digits_val (d :: l)) with (dval_from (Z.of_nat d) l). apply dval_from_val. Qed.
Lemma digits_join l f : digits_val (l ++ f) = (digits_val l * 10 ^ Z.of_nat (List.length f) + digits_val f)%Z.
Proof. change (digits_val (l ++ f)) with (dval_from 0 (l ++ f)). rewrite dval_from_app. apply dval_from_val. Qed.
Lemma pow_pos n : (0 < 10 ^ Z.of_nat n)%Z.
Proof. apply Z.pow_pos_nonneg; lia. Qed.
Lemma split_unique a b c d p : (0 <= b < p)%Z -> (0 <= d < p)%Z -> (a * p + b = c * p + d)%Z -> a = c /\ b = d.
Proof. intros h1 h2 e. destruct (Z.div_mod_unique p a c b d); [left; assumption|left; assumption|lia|auto]. Qed.
Lemma same_digits l : forall l', digits_ok l -> digits_ok l' -> List.length l = List.length l' -> digits_val l = digits_val l' -> l = l'.
Proof.
  induction l as [|d l IH]; intros [|d' l'] h h' n v; try discriminate; [reflexivity|]. apply digits_ok_cons in h, h'. destruct h as (h1 & h2), h' as (h1' & h2'). injection n as n.
  rewrite !digits_cons, <- n in v. pose proof (digits_val_lt l h2). pose proof (digits_val_lt l' h2') as b. rewrite <- n in b. pose proof (digits_val_nonneg l). pose proof (digits_val_nonneg l').
  apply split_unique in v; [|lia|lia]. destruct v as (v1 & v2). f_equal; [lia|]. apply IH; assumption.
Qed.
Lemma head_val d l : d <> O -> (10 ^ Z.of_nat (List.length l) <= digits_val (d :: l))%Z.
Proof. intro h. rewrite digits_cons. pose proof (digits_val_nonneg l). pose proof (pow_pos (List.length l)). nia. Qed.
Lemma pow_lt_len a b : (10 ^ Z.of_nat a < 10 ^ Z.of_nat b)%Z -> (a < b)%nat.
Proof. intro h. apply Z.pow_lt_mono_r_iff in h; lia. Qed.
Lemma neat_digits l l' : neat_head l -> neat_head l' -> digits_ok l -> digits_ok l' -> digits_val l = digits_val l' -> l = l'.
Proof.
  assert (G : forall l l', neat_head l -> neat_head l' -> digits_ok l -> digits_ok l' -> digits_val l = digits_val l' -> (List.length l' <= List.length l)%nat).
  { clear. intros l l' (d & r & -> & h) (d' & r' & -> & h') o o' v. destruct d' as [|d']; [rewrite (h' eq_refl); cbn; lia|].
    pose proof (head_val (S d') r' ltac:(discriminate)) as a. rewrite <- v in a. pose proof (digits_val_lt _ o) as b. cbn [List.length]. assert (c : (10 ^ Z.of_nat (List.length r') < 10 ^ Z.of_nat (S (List.length r)))%Z) by exact (Z.le_lt_trans _ _ _ a b).
    apply pow_lt_len in c. lia. }
  intros h h' o o' v. apply same_digits; try assumption. apply Nat.le_antisymm; [apply G|apply G]; auto.
Qed.
(** Digits after the point, the last of which is not 0. *)
Lemma last_digit f d r : rev f = d :: r -> (digits_val f mod 10 = Z.of_nat d mod 10)%Z.
Proof. intro e. assert (x : f = rev r ++ [d]) by (rewrite <- (rev_involutive f), e; reflexivity). rewrite x, digits_val_app. rewrite Z.add_comm, Z.mul_comm. apply Z_mod_plus_full. Qed.
Lemma longer a b (f f' : list nat) d r : (a * 10 ^ Z.of_nat (List.length f') = b * 10 ^ Z.of_nat (List.length f))%Z -> digits_ok f' -> rev f' = d :: r ->
  (b mod 10 = Z.of_nat d mod 10)%Z -> (List.length f < List.length f')%nat -> d = O.
Proof.
  intros e o v m lt. assert (x : b = (a * 10 ^ Z.of_nat (List.length f' - List.length f - 1) * 10)%Z).
  { replace (Z.of_nat (List.length f')) with (Z.of_nat (List.length f' - List.length f - 1) + 1 + Z.of_nat (List.length f))%Z in e by lia.
    rewrite !Z.pow_add_r in e by lia. pose proof (pow_pos (List.length f)). change (10 ^ 1)%Z with 10%Z in e. nia. }
  rewrite x, Z_mod_mult in m. assert (d9 : (d <= 9)%nat) by (apply o, in_rev; rewrite v; left; reflexivity). rewrite Z.mod_small in m by lia. lia.
Qed.
Lemma frac_digits_same f f' : neat_head (rev f) -> neat_head (rev f') -> digits_ok f -> digits_ok f' ->
  (digits_val f * 10 ^ Z.of_nat (List.length f') = digits_val f' * 10 ^ Z.of_nat (List.length f))%Z -> f = f'.
Proof.
  assert (G : forall f f', neat_head (rev f) -> neat_head (rev f') -> digits_ok f -> digits_ok f' ->
    (digits_val f * 10 ^ Z.of_nat (List.length f') = digits_val f' * 10 ^ Z.of_nat (List.length f))%Z -> (List.length f' <= List.length f)%nat).
  { clear. intros f f' h (d & r & e & h') o o' v. destruct (le_lt_dec (List.length f') (List.length f)) as [|g]; [assumption|exfalso].
    pose proof (longer _ _ _ _ _ _ v o' e (last_digit _ _ _ e) g) as z. pose proof (h' z) as z2. subst d r. apply (f_equal (@List.length nat)) in e. rewrite rev_length in e. cbn in e.
    destruct h as (x & y & hx & _). apply (f_equal (@List.length nat)) in hx. rewrite rev_length in hx. cbn in hx. lia. }
  intros h h' o o' v. assert (n : List.length f = List.length f') by (apply Nat.le_antisymm; apply G; auto). apply same_digits; try assumption. rewrite n in v. pose proof (pow_pos (List.length f')). nia.
Qed.
Lemma scale_out a b j k : IZR a * p10 (- Z.of_nat j) = IZR b * p10 (- Z.of_nat k) -> (a * 10 ^ Z.of_nat k = b * 10 ^ Z.of_nat j)%Z.
Proof.
  intro e. rewrite !p10_opp in e. apply eq_IZR. rewrite !mult_IZR, <- !p10_nonneg by lia. pose proof (p10_gt (Z.of_nat j)). pose proof (p10_gt (Z.of_nat k)).
  set (P := p10 (Z.of_nat j)) in *. set (Q := p10 (Z.of_nat k)) in *. replace (IZR a) with (IZR a * / P * P) by (field; apply Rgt_not_eq; assumption). rewrite e. field. apply Rgt_not_eq; assumption.
Qed.

(** ** One text for one value *)
Definition magn (n : numeral) : R :=
  IZR (digits_val (nwhole n ++ frac_digits n)) * p10 ((match nexp n with None => 0 | Some (s, e) => sign_val s * digits_val e end) - Z.of_nat (List.length (frac_digits n))).
Lemma numR_magn n : numR n = IZR (sign_val (nsign n)) * magn n.
Proof. unfold numR, magn. rewrite mult_IZR. ring. Qed.
Lemma magn_nonneg n : 0 <= magn n.
Proof. apply Rmult_le_pos; [apply IZR_le, digits_val_nonneg|left; apply p10_gt]. Qed.
Lemma plain_same n n' : num_ok n -> num_ok n' -> layout n -> layout n' -> nexp n = None -> nexp n' = None -> magn n = magn n' -> nwhole n = nwhole n' /\ nfrac n = nfrac n'.
Proof.
  intros (o1 & o2 & _) (o1' & o2' & _) (_ & h) (_ & h') e e' v. unfold magn in v. rewrite e in h, v. rewrite e' in h', v. destruct h as (hl & f & hf & hr), h' as (hl' & f' & hf' & hr'). rewrite !Z.sub_0_l in v. apply scale_out in v.
  unfold frac_digits in *. rewrite hf, hf' in *. rewrite !digits_join in v.
  pose proof (digits_val_lt f o2). pose proof (digits_val_nonneg f). pose proof (digits_val_lt f' o2'). pose proof (digits_val_nonneg f'). pose proof (pow_pos (List.length f)). pose proof (pow_pos (List.length f')).
  set (p := (10 ^ Z.of_nat (List.length f))%Z) in *. set (q := (10 ^ Z.of_nat (List.length f'))%Z) in *.
  destruct (split_unique (digits_val (nwhole n)) (digits_val f * q) (digits_val (nwhole n')) (digits_val f' * p) (p * q)) as (a & b); [nia|nia|nia|].
  split; [apply neat_digits; assumption|]. f_equal. apply frac_digits_same; assumption.
Qed.
Lemma exp_range n s e : num_ok n -> layout n -> nexp n = Some (s, e) -> p10 (sign_val s * digits_val e) <= magn n < p10 (sign_val s * digits_val e + 1).
Proof.
  intros (o1 & o2 & _) (_ & h) x. rewrite x in h. destruct h as ((d & w & d0) & _). unfold magn. rewrite x, w in *. set (f := frac_digits n) in *. set (E := (sign_val s * digits_val e)%Z).
  cbn [List.app]. pose proof (head_val d f d0) as lo. assert (o : digits_ok (d :: f)) by (apply digits_ok_cons; split; [apply o1; left; reflexivity|exact o2]). pose proof (digits_val_lt _ o) as hi. cbn [List.length] in hi.
  apply IZR_le in lo. apply IZR_lt in hi. rewrite <- p10_nonneg in lo, hi by lia. pose proof (p10_gt (E - Z.of_nat (List.length f))) as pp. set (V := IZR (digits_val (d :: f))) in *. split.
  - assert (x1 : p10 E = p10 (Z.of_nat (List.length f)) * p10 (E - Z.of_nat (List.length f))) by (rewrite <- p10_add; f_equal; lia). rewrite x1. apply Rmult_le_compat_r; [left; exact pp|exact lo].
  - assert (x1 : p10 (E + 1) = p10 (Z.of_nat (S (List.length f))) * p10 (E - Z.of_nat (List.length f))) by (rewrite <- p10_add; f_equal; lia). rewrite x1. apply Rmult_lt_compat_r; [exact pp|exact hi].
Qed.
Lemma range_exp a b v : p10 a <= v < p10 (a + 1) -> p10 b <= v < p10 (b + 1) -> a = b.
Proof. intros h h'. assert (p10 a < p10 (b + 1)) as x by lra. assert (p10 b < p10 (a + 1)) as y by lra. apply p10_lt_inv in x, y. lia. Qed.
Lemma exp_digits e e' : digits_ok e -> digits_ok e' -> (2 <= List.length e)%nat -> (2 <= List.length e')%nat ->
  ((2 < List.length e)%nat -> exists d r, e = d :: r /\ d <> O) -> ((2 < List.length e')%nat -> exists d r, e' = d :: r /\ d <> O) -> digits_val e = digits_val e' -> e = e'.
Proof.
  assert (G : forall e e', digits_ok e -> digits_ok e' -> (2 <= List.length e)%nat -> (2 <= List.length e')%nat -> ((2 < List.length e')%nat -> exists d r, e' = d :: r /\ d <> O) -> digits_val e = digits_val e' -> (List.length e' <= List.length e)%nat).
  { clear. intros e e' o o' h h' k' v. destruct (le_lt_dec (List.length e') (List.length e)) as [|g]; [assumption|exfalso]. destruct k' as (d & r & -> & d0); [lia|].
    pose proof (head_val d r d0) as lo. rewrite <- v in lo. pose proof (digits_val_lt e o) as hi. cbn [List.length] in g. assert (c : (10 ^ Z.of_nat (List.length r) < 10 ^ Z.of_nat (List.length e))%Z) by lia. apply pow_lt_len in c. lia. }
  intros o o' h h' k k' v. apply same_digits; try assumption. apply Nat.le_antisymm; apply G; auto.
Qed.
Lemma sci_same n n' s e s' e' : num_ok n -> num_ok n' -> layout n -> layout n' -> nexp n = Some (s, e) -> nexp n' = Some (s', e') -> ~ plain_size (magn n) -> magn n = magn n' ->
  nwhole n = nwhole n' /\ nfrac n = nfrac n' /\ nexp n = nexp n'.
Proof.
  intros o o' y y' x x' np v. pose proof (exp_range n s e o y x) as r. pose proof (exp_range n' s' e' o' y' x') as r'. rewrite <- v in r'. pose proof (range_exp _ _ _ r r') as E.
  destruct o as (o1 & o2 & _ & o4), o' as (o1' & o2' & _ & o4'). rewrite x in o4. rewrite x' in o4'. destruct y as (_ & h), y' as (_ & h'). rewrite x in h. rewrite x' in h'.
  destruct h as ((d & w & d0) & hf & hs & h2 & h3), h' as ((d' & w' & d0') & hf' & hs' & h2' & h3'). destruct o4 as (o4 & _), o4' as (o4' & _).
  assert (se : s = s' /\ digits_val e = digits_val e').
  { pose proof (digits_val_nonneg e). pose proof (digits_val_nonneg e'). destruct s as [[|]|]; [| |congruence]; (destruct s' as [[|]|]; [| |congruence]); cbn [sign_val] in *; (split; [try reflexivity|lia]).
    - exfalso. assert (z : digits_val e = 0%Z) by lia. rewrite z in r. change (-1 * 0)%Z with 0%Z in r. rewrite Z.add_0_l, p10_0, p10_1 in r. apply np. right. rewrite Rabs_pos_eq by lra. split; [lra|]. apply Rlt_trans with 10; [lra|]. rewrite (pow_IZR 10 16). apply IZR_lt. reflexivity.
    - exfalso. assert (z : digits_val e = 0%Z) by lia. rewrite z in r. change (1 * 0)%Z with 0%Z in r. rewrite Z.add_0_l, p10_0, p10_1 in r. apply np. right. rewrite Rabs_pos_eq by lra. split; [lra|]. apply Rlt_trans with 10; [lra|]. rewrite (pow_IZR 10 16). apply IZR_lt. reflexivity. }
  destruct se as (<- & ve). assert (ee : e = e') by (apply exp_digits; assumption). subst e'.
  assert (vd : (digits_val (d :: frac_digits n) * 10 ^ Z.of_nat (List.length (frac_digits n')) = digits_val (d' :: frac_digits n') * 10 ^ Z.of_nat (List.length (frac_digits n)))%Z).
  { apply scale_out. unfold magn in v. rewrite x, x', w, w' in v. cbn [List.app] in v. unfold Z.sub in v. rewrite !p10_add in v. pose proof (p10_gt (sign_val s * digits_val e)) as pp. apply (Rmult_eq_reg_l (p10 (sign_val s * digits_val e))); [|lra]. lra. }
  assert (G : forall a b f f', digits_ok (b :: f') -> (f' = nil \/ exists c r, rev f' = c :: r /\ c <> O) -> (digits_val (a :: f) * 10 ^ Z.of_nat (List.length f') = digits_val (b :: f') * 10 ^ Z.of_nat (List.length f))%Z -> (List.length f' <= List.length f)%nat).
  { clear. intros a b f f' ob k vv. destruct (le_lt_dec (List.length f') (List.length f)) as [|g]; [assumption|exfalso]. destruct k as [->|(c & r & k & c0)]; [cbn in g; lia|]. apply c0.
    apply (longer _ _ _ _ c r vv); [apply digits_ok_cons in ob; apply ob|exact k| |exact g].
    apply (last_digit (b :: f') c (r ++ [b])). cbn [rev]. rewrite k. reflexivity. }
  assert (nz : forall m, (forall f, nfrac m = Some f -> exists d r, rev f = d :: r /\ d <> O) -> frac_digits m = nil \/ exists c r, rev (frac_digits m) = c :: r /\ c <> O).
  { intros m k. unfold frac_digits. destruct (nfrac m) as [f|]; [right; apply k; reflexivity|left; reflexivity]. }
  assert (od : digits_ok (d :: frac_digits n)) by (apply digits_ok_cons; split; [apply o1; rewrite w; left; reflexivity|exact o2]).
  assert (od' : digits_ok (d' :: frac_digits n')) by (apply digits_ok_cons; split; [apply o1'; rewrite w'; left; reflexivity|exact o2']).
  assert (len : List.length (frac_digits n) = List.length (frac_digits n')) by (apply Nat.le_antisymm; [apply (G d' d); [exact od|apply nz, hf|symmetry; exact vd]|apply (G d d'); [exact od'|apply nz, hf'|exact vd]]).
  assert (all : d :: frac_digits n = d' :: frac_digits n').
  { apply same_digits; try assumption; [cbn [List.length]; lia|]. rewrite len in vd. pose proof (pow_pos (List.length (frac_digits n'))). nia. }
  injection all as -> all. split; [congruence|]. split; [|congruence]. unfold frac_digits in all. destruct (nfrac n) as [f|], (nfrac n') as [f'|]; try congruence.
  - subst f. destruct (hf nil eq_refl) as (? & ? & c & _). discriminate.
  - subst f'. destruct (hf' nil eq_refl) as (? & ? & c & _). discriminate.
Qed.
Lemma text_same n n' : num_ok n -> num_ok n' -> layout n -> layout n' -> (nexp n = None <-> plain_size (magn n)) -> (nexp n' = None <-> plain_size (magn n')) -> magn n = magn n' -> minus n = minus n' -> num_text n = num_text n'.
Proof.
  intros o o' y y' p p' v m. assert (sg : nsign n = nsign n').
  { destruct y as (y & _), y' as (y' & _). unfold minus in m. destruct (nsign n) as [[|]|], (nsign n') as [[|]|]; congruence. }
  rewrite <- v in p'. unfold num_text. rewrite sg. destruct (nexp n) as [(s, e)|] eqn:x, (nexp n') as [(s', e')|] eqn:x'.
  - destruct (sci_same n n' s e s' e' o o' y y' x x') as (a & b & c); [intro c; apply p in c; discriminate|exact v|]. rewrite a, b. rewrite x, x' in c. injection c as -> ->. reflexivity.
  - assert (Some (s, e) = None) by (apply p, p'; reflexivity). discriminate.
  - assert (Some (s', e') = None) by (apply p', p; reflexivity). discriminate.
  - destruct (plain_same n n' o o' y y' x x' v) as (a & b). rewrite a, b. reflexivity.
Qed.

(** ** Nearest numbers are close *)
Lemma near_half m e v : finite64 (S754_finite false m e) -> nearest64 v (S754_finite false m e) -> Rabs (v - SFR (S754_finite false m e)) <= p2 e / 2.
Proof.
  intros hx (_ & tv & nv & _). destruct (bounded_cases _ _ hx) as (a1 & a2 & a3). pose proof (p2_gt e) as pe. assert (vx : SFR (S754_finite false m e) = IZR (Zpos m) * p2 e) by (cbn; ring). rewrite vx in *.
  set (X := IZR (Zpos m) * p2 e) in *.
  assert (up : v <= X + p2 e / 2).
  { apply Rnot_lt_le. intro g. assert (y : (exists y, finite64 y /\ SFR y = X + p2 e) \/ (Zpos m = 2 ^ 53 - 1 /\ e = 971)%Z).
    { destruct (Z.eq_dec (Zpos m) (2 ^ 53 - 1)) as [mm|mm].
      - destruct (Z.eq_dec e 971) as [ee|ee]; [right; split; assumption|left]. exists (S754_finite false (2 ^ 52)%positive (e + 1)). split.
        + apply bounded_intro. split; [reflexivity|]. split; [lia|right; change (Zpos (2 ^ 52)) with (2 ^ 52)%Z; lia].
        + unfold X. rewrite mm. cbn [SFR]. rewrite Rmult_1_l, p2_add, p2_1. change (Zpos (2 ^ 52)) with (2 ^ 52)%Z. rewrite minus_IZR. change (2 ^ 53)%Z with (2 ^ 52 * 2)%Z. rewrite mult_IZR. ring.
      - left. exists (S754_finite false (m + 1) e). split.
        + apply bounded_intro. split; [lia|]. split; [lia|]. destruct a3; [left|right]; lia.
        + unfold X. cbn [SFR]. rewrite Pos2Z.inj_add, plus_IZR. ring. }
    destruct y as [(y & hy & ey)|(mm & ee)].
    - specialize (nv y hy). rewrite ey in nv. rewrite (Rabs_left1 (X - v)) in nv by lra. unfold Rabs in nv. destruct (Rcase_abs _); lra.
    - change (IZR (2 ^ 54 - 1) * powerRZ 2 970) with top64 in tv. rewrite top64_split in tv. unfold X in g. rewrite mm, ee, minus_IZR in g. pose proof (Rle_abs v). rewrite ee in *. lra. }
  assert (dn : X - p2 e / 2 <= v).
  { apply Rnot_lt_le. intro g. assert (y : exists y, finite64 y /\ X - p2 e <= SFR y < X).
    { destruct (Pos.eq_dec m 1) as [m1|m1]; [exists (S754_zero false); split; [exact I|]; unfold X; rewrite m1; cbn [SFR]; lra|].
      destruct (Z_lt_le_dec (Zpos m) (2 ^ 52 + 1)) as [c|c]; [destruct (Z.eq_dec e (-1074)) as [d|d]|].
      - exists (S754_finite false (m - 1) e). split; [apply bounded_intro; split; [lia|]; split; [lia|left; exact d]|]. unfold X. cbn [SFR]. rewrite Pos2Z.inj_sub by lia. rewrite minus_IZR. lra.
      - exists (S754_finite false (2 ^ 53 - 1) (e - 1)). split; [apply bounded_intro; split; [reflexivity|]; split; [lia|right; vm_compute; discriminate]|]. unfold X. assert (mm : Zpos m = (2 ^ 52)%Z) by lia. rewrite mm. cbn [SFR].
        change (Zpos (2 ^ 53 - 1)) with (2 * 2 ^ 52 - 1)%Z. rewrite minus_IZR, mult_IZR. replace e with ((e - 1) + 1)%Z at 1 2 5 by lia. rewrite !(p2_add (e - 1) 1), p2_1. pose proof (p2_gt (e - 1)). set (P := p2 (e - 1)) in *. lra.
      - exists (S754_finite false (m - 1) e). split; [apply bounded_intro; split; [lia|]; split; [lia|right; lia]|]. unfold X. cbn [SFR]. rewrite Pos2Z.inj_sub by lia. rewrite minus_IZR. lra. }
    destruct y as (y & hy & ey). specialize (nv y hy). rewrite (Rabs_pos_eq (X - v)) in nv by lra. unfold Rabs in nv. destruct (Rcase_abs _); lra. }
  apply Rabs_le. lra.
Qed.

(** ** Two decimals of at most 15 digits read as the same normal number are equal *)
Lemma spread c k c' k' : (0 <= c < 10 ^ 15)%Z -> (0 <= c' < 10 ^ 15)%Z -> IZR c * p10 k < IZR c' * p10 k' -> IZR c * p10 k < IZR (10 ^ 15) * (IZR c' * p10 k' - IZR c * p10 k).
Proof.
  intros h h' lt. set (j := Z.min k k'). set (a := (c * 10 ^ (k - j))%Z). set (b := (c' * 10 ^ (k' - j))%Z). pose proof (p10_gt j) as pj.
  assert (ea : IZR c * p10 k = IZR a * p10 j). { unfold a. rewrite mult_IZR, <- p10_nonneg by lia. rewrite Rmult_assoc, <- p10_add. do 2 f_equal. lia. }
  assert (eb : IZR c' * p10 k' = IZR b * p10 j). { unfold b. rewrite mult_IZR, <- p10_nonneg by lia. rewrite Rmult_assoc, <- p10_add. do 2 f_equal. lia. }
  rewrite ea, eb in *. apply Rmult_lt_reg_r in lt; [|exact pj]. apply lt_IZR in lt.
  assert (s : (a < 10 ^ 15)%Z).
  { destruct (Z.le_gt_cases k k') as [g|g].
    - unfold a, j. replace (k - Z.min k k')%Z with 0%Z by lia. lia.
    - assert (b < 10 ^ 15)%Z by (unfold b, j; replace (k' - Z.min k k')%Z with 0%Z by lia; lia). lia. }
  assert (IZR a + 1 <= IZR b) by (rewrite <- plus_IZR; apply IZR_le; lia). assert (IZR a < IZR (10 ^ 15)) by (apply IZR_lt, s). assert (0 < IZR (10 ^ 15)) by (apply IZR_lt; reflexivity).
  replace (IZR (10 ^ 15) * (IZR b * p10 j - IZR a * p10 j)) with (IZR (10 ^ 15) * (IZR b - IZR a) * p10 j) by ring. apply Rmult_lt_compat_r; [exact pj|]. nra.
Qed.
Lemma fifteen m e c k c' k' : finite64 (S754_finite false m e) -> (2 ^ 52 <= Zpos m)%Z -> (0 <= c < 10 ^ 15)%Z -> (0 <= c' < 10 ^ 15)%Z ->
  nearest64 (IZR c * p10 k) (S754_finite false m e) -> nearest64 (IZR c' * p10 k') (S754_finite false m e) -> IZR c * p10 k = IZR c' * p10 k'.
Proof.
  assert (G : forall c k c' k', finite64 (S754_finite false m e) -> (2 ^ 52 <= Zpos m)%Z -> (0 <= c < 10 ^ 15)%Z -> (0 <= c' < 10 ^ 15)%Z ->
    nearest64 (IZR c * p10 k) (S754_finite false m e) -> nearest64 (IZR c' * p10 k') (S754_finite false m e) -> ~ IZR c * p10 k < IZR c' * p10 k').
  { clear. intros c k c' k' hx hm h h' n n' lt. pose proof (spread c k c' k' h h' lt) as s. apply near_half in n; [|exact hx]. apply near_half in n'; [|exact hx]. apply Rabs_le_inv in n, n'.
    replace (SFR (S754_finite false m e)) with (IZR (Zpos m) * p2 e) in * by (cbn; ring). pose proof (p2_gt e) as pe. apply IZR_le in hm.
    set (V := IZR c * p10 k) in *. set (W := IZR c' * p10 k') in *. assert (IZR (10 ^ 15) * (W - V) <= IZR (10 ^ 15) * p2 e) by (apply Rmult_le_compat_l; [apply IZR_le; lia|lra]).
    assert (IZR (2 ^ 52) * p2 e <= IZR (Zpos m) * p2 e) by (apply Rmult_le_compat_r; lra). assert (IZR (10 ^ 15) * p2 e < (IZR (2 ^ 52) - 1) * p2 e); [|lra].
    apply Rmult_lt_compat_r; [exact pe|]. rewrite <- minus_IZR. apply IZR_lt. reflexivity. }
  intros hx hm h h' n n'. apply Rle_antisym; apply Rnot_lt_le; [exact (G c' k' c k hx hm h' h n' n)|exact (G c k c' k' hx hm h h' n n')].
Qed.

(** ** The round trip *)
Lemma normal_float v s m e : nearest64 v (S754_finite s m e) -> p2 (-1022) <= Rabs v -> (2 ^ 52 <= Zpos m)%Z.
Proof.
  intros (hx & _ & nv & _) hv. destruct (bounded_cases _ _ hx) as (_ & _ & [->|]); [|assumption]. destruct (Z_lt_le_dec (Zpos m) (2 ^ 52)) as [g|]; [exfalso|assumption].
  assert (X : Rabs (SFR (S754_finite s m (-1074))) < p2 (-1022)).
  { cbn [SFR]. rewrite Rabs_mult. replace (Rabs (if s then -1 else 1)) with 1 by (destruct s; [rewrite Rabs_left; lra|rewrite Rabs_R1; reflexivity]). idtac.
    pose proof (p2_gt (-1074)) as pp. apply IZR_lt in g. change (-1022)%Z with (52 + -1074)%Z. rewrite p2_add, (p2_nonneg 52) by lia.
    rewrite ?Rabs_mult, ?Rmult_1_l. rewrite ?(Rabs_pos_eq (IZR (Z.pos m))) by (apply IZR_le; lia). rewrite ?(Rabs_pos_eq (p2 (-1074))) by lra. apply Rmult_lt_compat_r; [exact pp|exact g]. }
  set (x := SFR (S754_finite s m (-1074))) in *.
  assert (t : finite64 (S754_finite (if Rle_lt_dec 0 v then false else true) (2 ^ 52) (-1074))) by reflexivity.
  specialize (nv _ t). assert (E : SFR (S754_finite (if Rle_lt_dec 0 v then false else true) (2 ^ 52) (-1074)) = (if Rle_lt_dec 0 v then 1 else -1) * p2 (-1022)).
  { change (-1022)%Z with (52 + -1074)%Z. rewrite p2_add, (p2_nonneg 52) by lia. cbn [SFR]. change (Zpos (2 ^ 52)) with (2 ^ 52)%Z. destruct (Rle_lt_dec 0 v); ring. }
  rewrite E in nv. clear E t. apply Rabs_def2 in X. destruct (Rle_lt_dec 0 v) as [p|p].
  - rewrite Rabs_pos_eq in hv by lra. unfold Rabs in nv. destruct (Rcase_abs (x - v)), (Rcase_abs (1 * p2 (-1022) - v)); lra.
  - rewrite Rabs_left in hv by lra. unfold Rabs in nv. destruct (Rcase_abs (x - v)), (Rcase_abs (-1 * p2 (-1022) - v)); lra.
Qed.
Theorem written_back n x : num_ok n -> layout n -> (nexp n = None <-> plain_size (Q2R (num_val n))) -> (sig_digits n <= 15)%nat -> normal_size (Q2R (num_val n)) ->
  nearest64 (Q2R (num_val n)) x -> minus n = sign_bit x -> float_repr x = Ok (num_text n).
Proof.
  intros o y p h15 hn hx hs. destruct (float_text_ok x (proj1 hx)) as (n0 & e0 & o0 & m0 & x0 & y0 & p0 & min). rewrite e0. f_equal. destruct (min n o hx) as (sd & _). clear min.
  assert (pm : forall q, plain_size (Q2R (num_val q)) <-> plain_size (magn q)).
  { intro q. rewrite Q2R_num, numR_magn. pose proof (magn_nonneg q) as g. unfold plain_size. rewrite Rabs_mult. replace (Rabs (IZR (sign_val (nsign q)))) with 1 by (destruct (nsign q) as [[|]|]; cbn; rewrite ?Rabs_R1, ?Rabs_m1; try reflexivity; rewrite Rabs_left; lra).
    rewrite Rmult_1_l. split; (intros [z|z]; [left|right; exact z]); [|rewrite z; ring]. destruct (nsign q) as [[|]|]; cbn [sign_val] in z; lra. }
  apply text_same; try assumption; [rewrite <- pm; exact p0|rewrite <- pm; exact p| |congruence].
  assert (core : forall q, num_ok q -> (sig_digits q <= 15)%nat -> exists c k, (0 <= c < 10 ^ 15)%Z /\ magn q = IZR c * p10 k).
  { intros q (q1 & q2 & _) q15. assert (h : digits_ok (nwhole q ++ frac_digits q)) by (apply digits_ok_app; auto). destruct (core_ok _ h) as (c & t & hc & ec). unfold magn. rewrite ec. eexists c, _. split.
    - split; [lia|]. apply Z.lt_le_trans with (1 := proj2 hc). change 15%Z with (Z.of_nat 15). apply Z.pow_le_mono_r; [lia|]. apply Nat2Z.inj_le. exact q15.
    - rewrite mult_IZR, <- p10_nonneg by lia. rewrite Rmult_assoc, <- p10_add. reflexivity. }
  destruct (core n o h15) as (c & k & hc & ec). destruct (core n0 o0 ltac:(lia)) as (c0 & k0 & hc0 & ec0). rewrite ec, ec0.
  rewrite Q2R_num, numR_magn in hx, x0, hn. assert (sv : forall q, minus q = sign_bit x -> IZR (sign_val (nsign q)) = sgn (sign_bit x)) by (intros q <-; unfold minus; destruct (nsign q) as [[|]|]; reflexivity).
  rewrite (sv n hs) in hx, hn. rewrite (sv n0 m0) in x0. rewrite ec in hx, hn. rewrite ec0 in x0. destruct x as [s|s| |s m e]; try solve [destruct hx as (hx & _); destruct hx].
  - assert (z : forall v, normal_size v -> nearest64 v (S754_zero s) -> v = 0).
    { intros v [g|g] (_ & _ & nv & _); [exact g|exfalso]. assert (t : finite64 (S754_finite (if Rle_lt_dec 0 v then false else true) (2 ^ 52) (-1074))) by reflexivity. specialize (nv _ t).
      assert (E : SFR (S754_finite (if Rle_lt_dec 0 v then false else true) (2 ^ 52) (-1074)) = (if Rle_lt_dec 0 v then 1 else -1) * p2 (-1022)).
      { change (-1022)%Z with (52 + -1074)%Z. rewrite p2_add, (p2_nonneg 52) by lia. cbn [SFR]. change (Zpos (2 ^ 52)) with (2 ^ 52)%Z. destruct (Rle_lt_dec 0 v); ring. }
      rewrite E in nv. cbn [SFR] in nv. pose proof (p2_gt (-1022)). unfold Rabs in *. destruct (Rle_lt_dec 0 v), (Rcase_abs v), (Rcase_abs (0 - v)); repeat destruct (Rcase_abs _); lra. }
    assert (nz : IZR c * p10 k = 0). { specialize (z _ hn hx). destruct (sign_bit _) in z; cbn [sgn] in z; lra. }
    rewrite nz. rewrite nz, Rmult_0_r in hx. cbn [float_repr] in e0. assert (t0 : magn n0 = 0); [|lra].
    assert (zn : exists n1, num_ok n1 /\ num_text n1 = num_text n0 /\ numR n1 = 0).
    { exists (Numeral (sg s) [O] (Some [O]) None). split; [split; [intros ? [<-|[]]; lia|split; [intros ? [<-|[]]; lia|split; [discriminate|exact I]]]|]. split; [destruct s; cbn in e0 |- *; congruence|].
      unfold numR. cbn [nsign nwhole nfrac frac_digits]. change (digits_val ([O] ++ [O])) with 0%Z. rewrite Z.mul_0_r. ring. }
    destruct zn as (n1 & o1 & t1 & v1). pose proof (py_float_numeral n1 o1) as f1. pose proof (py_float_numeral n0 o0) as f0. rewrite t1, f0 in f1.
    assert (K : forall a b : Qc, Ok a = Ok b -> a = b) by (intros; congruence). apply K in f1. assert (Q : (num_val n0 == num_val n1)%Q) by (rewrite <- (Qred_correct (num_val n0)), <- (Qred_correct (num_val n1)); change (Qred (num_val n0)) with (this (Q2Qc (num_val n0))); rewrite f1; reflexivity).
    apply Qeq_eqR in Q. rewrite !Q2R_num, v1, numR_magn in Q. destruct (nsign n0) as [[|]|]; cbn [sign_val] in Q; lra.
  - cbn [sign_bit] in *. assert (px : 0 < SFR (S754_finite false m e)) by (cbn; rewrite Rmult_1_l; apply Rmult_lt_0_compat; [apply IZR_lt; lia|apply p2_gt]).
    assert (flip : forall v, nearest64 (sgn s * v) (S754_finite s m e) -> nearest64 v (S754_finite false m e)).
    { intros v hv. destruct s; cbn [sgn] in hv; [apply nearest_opp in hv; cbn [SFopp negb] in hv; replace (- (-1 * v)) with v in hv by ring|rewrite Rmult_1_l in hv]; exact hv. }
    destruct hn as [z|z].
    + exfalso. apply flip in hx. assert (w : IZR c * p10 k = 0) by (destruct s; cbn [sgn] in z; lra). rewrite w in hx. pose proof (sign_pos _ _ hx px). lra.
    + pose proof (normal_float _ _ _ _ hx z) as hm. apply flip in hx, x0. symmetry. apply (fifteen m e); try assumption. apply hx.
Qed.
