(** * ExpoTextFacts: the text of an exponent is that of its binary64 float *)
From Coq Require Import String Ascii List ZArith QArith Qcanon Bool Reals Qreals Lia Lra Arith.
From Coq Require Import Floats.SpecFloat QArith.Qpower.
From Verif Require Import Py Num NumFacts UnitsStruct Units Rounding RoundSpec RangeSpec FloatExp FloatRound B64Facts B64Round TextSpec TextFacts ShowFacts Print PrintSpec PrintFacts LayoutFacts.
Import ListNotations.
Local Open Scope R_scope.
Local Notation p2 := (powerRZ 2).
Local Notation p10 := (powerRZ 10).

(** Literals of either sign. *)
Lemma lit_nearest q : Rabs (Q2R q) < top64 -> nearest64 (Q2R q) (f_lit q) /\ sign_bit (f_lit q) = Z.ltb (Qnum q) 0.
Proof.
  destruct q as [[|n|n] d]; intro h.
  - replace (f_lit (0 # d)) with (S754_zero false) by (unfold f_lit; cbn [Qnum Qden]; destruct (Pos.eqb d 1); reflexivity). replace (Q2R (0 # d)) with 0 in * by (unfold Q2R; cbn; ring).
    split; [|reflexivity]. split; [exact I|]. split; [exact h|]. cbn [SFR even_float]. split; [|auto]. intros y _. rewrite Rminus_0_r, Rabs_R0. apply Rabs_pos.
  - rewrite Q2R_pos in *. destruct (lit_full n d) as (a & b & c). split; [apply a|exact c]. apply Rle_lt_trans with (2 := h), Rle_abs.
  - assert (v : Q2R (Zneg n # d) = - (IZR (Zpos n) / IZR (Zpos d))) by (unfold Q2R; cbn [Qnum Qden]; change (Zneg n) with (- Zpos n)%Z; rewrite opp_IZR; unfold Rdiv; ring).
    rewrite v in *. rewrite Rabs_Ropp in h. assert (h' : IZR (Zpos n) / IZR (Zpos d) < top64) by (apply Rle_lt_trans with (2 := h), Rle_abs). unfold f_lit. cbn [Qnum Qden]. destruct (Pos.eqb d 1) eqn:e.
    + apply Pos.eqb_eq in e. subst d. destruct (int_full true n) as (a & b & c). cbn [sgn] in a. unfold f_int. cbn [binary_normalize]. split; [|exact c].
      unfold Rdiv in *. rewrite Rinv_1, Rmult_1_r in *. replace (- IZR (Zpos n)) with (-1 * IZR (Zpos n)) by ring. apply a, h'.
    + destruct (quot_full true (Zpos n) (Zpos d) eq_refl eq_refl) as (a & b & c). cbn [sgn] in a. split; [|exact c]. replace (- (IZR (Z.pos n) / IZR (Z.pos d))) with (-1 * (IZR (Z.pos n) / IZR (Z.pos d))) by ring. apply a, h'.
Qed.

(** ** Digits *)
Lemma dec_places_min f : forall n d k, (0 < d)%Z -> dec_places f n d = Some (S k) -> ((n * 10 ^ Z.of_nat k) mod d <> 0)%Z.
Proof.
  induction f as [|f IH]; intros n d k hd h; cbn [dec_places] in h; destruct (Z.eqb (n mod d) 0) eqn:e; try discriminate. apply Z.eqb_neq in e.
  destruct (dec_places f (n * 10) d) as [k'|] eqn:hk; [|discriminate]. injection h as ->. destruct k as [|k]; [cbn; rewrite Z.mul_1_r; exact e|]. apply IH in hk; [|exact hd].
  rewrite Nat2Z.inj_succ, Z.pow_succ_r by lia. rewrite Z.mul_assoc. exact hk.
Qed.
Lemma neat_nonneg z : (0 <= z)%Z -> exists l, digits_ok l /\ neat_head l /\ show_nonneg z = digits_text l /\ digits_val l = z.
Proof.
  intro h. destruct (show_nonneg_ok z h) as (l & h1 & h2 & h3 & h4 & h5). exists l. split; [exact h1|]. split; [|split; assumption]. destruct l as [|d r]; [congruence|]. exists d, r. split; [reflexivity|]. intros ->.
  destruct h5 as [h5|h5]; [destruct r; [reflexivity|discriminate]|]. exfalso. rewrite <- h4, digits_cons, Z.mul_0_l, Z.add_0_l in h5. apply digits_ok_cons in h1. pose proof (digits_val_lt r (proj2 h1)). cbn [List.length] in h5.
  replace (Z.of_nat (S (List.length r)) - 1)%Z with (Z.of_nat (List.length r)) in h5 by lia. lia.
Qed.
Lemma drop0_len l : (List.length (drop0 l) <= List.length l)%nat.
Proof. induction l as [|[|d] l IH]; cbn; lia. Qed.
Lemma drop0_val l : digits_val (drop0 l) = digits_val l.
Proof. destruct (drop0_suffix l) as (n & e). rewrite e at 2. rewrite zeros_val. reflexivity. Qed.
Lemma drop0_head l : drop0 l = nil \/ exists d r, drop0 l = d :: r /\ d <> O.
Proof. induction l as [|[|d] l IH]; [left; reflexivity|exact IH|right; exists (S d), l; split; [reflexivity|discriminate]]. Qed.
Lemma sig_bound l n : (digits_val l < 10 ^ Z.of_nat n)%Z -> (List.length (drop0 (rev (drop0 l))) <= n)%nat.
Proof.
  intro h. apply Nat.le_trans with (List.length (drop0 l)); [rewrite <- (rev_length (drop0 l)); apply drop0_len|]. destruct (drop0_head l) as [->|(d & r & e & d0)]; [cbn; lia|].
  rewrite <- (drop0_val l), e in h. rewrite e. pose proof (head_val d r d0). cbn [List.length]. assert (c : (10 ^ Z.of_nat (List.length r) < 10 ^ Z.of_nat n)%Z) by lia. apply pow_lt_len in c. lia.
Qed.
Lemma drop0_snoc l : drop0 (l ++ [O]) = match drop0 l with nil => nil | m => m ++ [O] end.
Proof. induction l as [|[|d] l IH]; [reflexivity|exact IH|reflexivity]. Qed.
Lemma sig_snoc l : List.length (drop0 (rev (drop0 (l ++ [O])))) = List.length (drop0 (rev (drop0 l))).
Proof. rewrite drop0_snoc. destruct (drop0 l) as [|d r]; [reflexivity|]. rewrite rev_app_distr. reflexivity. Qed.

(** ** The numeral of an exponent *)
Lemma expo_numeral e s : isf e = true -> str_expo e = Ok s -> exists l f, let n := Numeral (sign_of (Qnum (this (ev e)))) l (Some f) None in
  s = num_text n /\ num_ok n /\ layout n /\ (sig_digits n <= 15)%nat /\
  (digits_val (l ++ f) * Zpos (Qden (this (ev e))) = Z.abs (Qnum (this (ev e))) * 10 ^ Z.of_nat (List.length f))%Z /\
  (Z.abs (Qnum (this (ev e))) < 10 ^ 15 * Zpos (Qden (this (ev e))))%Z /\ (Qnum (this (ev e)) = 0 \/ Zpos (Qden (this (ev e))) <= Z.abs (Qnum (this (ev e))) * 10000)%Z.
Proof.
  intros hf h. unfold str_expo in h. rewrite hf in h. cbn [negb] in h. pose proof (canon (ev e)) as cn. set (N := Qnum (this (ev e))) in *. set (D := Zpos (Qden (this (ev e)))) in *.
  destruct (Z.leb_spec (10 ^ 15 * D) (Z.abs N)) as [|hb]; [discriminate|]. assert (sgn0 : sign_of N <> Some false) by (unfold sign_of; destruct (Z.ltb N 0); discriminate). unfold is_int in h. destruct (Pos.eqb_spec (Qden (this (ev e))) 1) as [d1|d1].
  - destruct (neat_nonneg (Z.abs N) ltac:(lia)) as (l & l1 & l2 & l3 & l4). exists l, [O]. intro n. assert (D1 : D = 1%Z) by (unfold D; rewrite d1; reflexivity). split; [|split; [|split; [|split; [|split; [|split]]]]].
    + assert (K : forall x y : string, Ok x = Ok y -> x = y) by (intros; congruence). apply K in h. subst s. unfold n, num_text. cbn [nsign nwhole nfrac nexp]. unfold show_Z, sign_of.
      destruct (Z.ltb_spec N 0) as [g|g]; (replace (Z.abs N) with (if Z.ltb N 0 then - N else N)%Z in l3 by (destruct (Z.ltb_spec N 0); lia)); (destruct (Z.ltb_spec N 0) in l3; try lia); rewrite l3; cbn [sign_text String.append]; rewrite ?sapp_assoc, ?sapp_nil; reflexivity.
    + split; [exact l1|]. split; [intros ? [<-|[]]; lia|]. split; [intro c; apply app_eq_nil in c; destruct c; discriminate|exact I].
    + split; [exact sgn0|]. cbn [nexp nwhole nfrac n]. split; [exact l2|]. exists [O]. split; [reflexivity|]. exists O, nil. auto.
    + unfold sig_digits, n. cbn [nwhole frac_digits nfrac]. rewrite sig_snoc. apply sig_bound. change (Z.of_nat 15) with 15%Z. lia.
    + rewrite digits_join, l4, D1. change (digits_val [O]) with 0%Z. lia.
    + lia.
    + destruct (Z.eq_dec N 0); [left; assumption|right; lia].
  - destruct (Z.ltb_spec (Z.abs N * 10000) D) as [|hl]; [discriminate|]. destruct (dec_places 12 (Z.abs N) D) as [k|] eqn:hk; [|discriminate].
    destruct (Z.leb_spec (10 ^ 15) (Z.abs N * 10 ^ Z.of_nat k / D)) as [|hm]; [discriminate|].
    assert (dp : (0 < D)%Z) by (unfold D; lia).
    assert (nm : (Z.abs N mod D <> 0)%Z).
    { intro c. apply Z.mod_divide in c; [|lia]. apply (proj1 (Z.divide_abs_r _ _)) in c. pose proof (Qred_identity2 (this (ev e)) cn) as g. fold N D in g.
      assert (g2 : Z.gcd N D = D). { apply Z.gcd_unique; [lia|exact c|exists 1%Z; lia|auto]. } rewrite g2 in g. unfold D in g. apply d1. lia. }
    pose proof (dec_places_pos _ _ _ _ hk nm) as kp. pose proof (dec_places_ok _ _ _ _ dp hk) as km. set (m := (Z.abs N * 10 ^ Z.of_nat k / D)%Z) in *.
    assert (pk : (0 < 10 ^ Z.of_nat k)%Z) by apply pow_pos.
    assert (mE : (m * D = Z.abs N * 10 ^ Z.of_nat k)%Z). { unfold m. pose proof (Z.div_mod (Z.abs N * 10 ^ Z.of_nat k) D). lia. }
    assert (m0 : (0 <= m)%Z) by (unfold m; apply Z.div_pos; lia). assert (mm : (0 <= m mod 10 ^ Z.of_nat k < 10 ^ Z.of_nat k)%Z) by (apply Z.mod_pos_bound; lia).
    destruct (neat_nonneg (m / 10 ^ Z.of_nat k)) as (l & l1 & l2 & l3 & l4); [apply Z.div_pos; lia|]. destruct (show_padded_ok k (m mod 10 ^ Z.of_nat k) kp mm) as (f & f1 & f2 & f3 & f4).
    assert (jv : digits_val (l ++ f) = m). { rewrite digits_join, l4, f3, f4. pose proof (Z.div_mod m (10 ^ Z.of_nat k)). lia. }
    exists l, f. intro n. split; [|split; [|split; [|split; [|split; [|split]]]]].
    + assert (K : forall x y : string, Ok x = Ok y -> x = y) by (intros; congruence). apply K in h. subst s. rewrite l3, f2. unfold n, num_text, sign_of. cbn [nsign nwhole nfrac nexp]. rewrite sapp_nil. destruct (Z.ltb N 0); reflexivity.
    + split; [exact l1|]. split; [exact f1|]. split; [intro c; apply app_eq_nil in c; destruct c as (c & _); cbn [nwhole n] in c; destruct l2 as (? & ? & l2 & _); congruence|exact I].
    + split; [exact sgn0|]. cbn [nexp nwhole nfrac n]. split; [exact l2|]. exists f. split; [reflexivity|]. destruct (rev f) as [|x r] eqn:rf.
      { apply (f_equal (@List.length nat)) in rf. rewrite rev_length, f4 in rf. cbn in rf. lia. }
      exists x, r. split; [reflexivity|]. intros ->. exfalso. pose proof (last_digit f _ _ rf) as ld. rewrite f3 in ld. change (Z.of_nat 0 mod 10)%Z with 0%Z in ld. destruct k as [|k]; [lia|].
      apply (dec_places_min _ _ _ _ dp hk). apply Z.mod_divide; [lia|]. exists (m / 10)%Z.
      assert (m10 : (m mod 10 = 0)%Z). { rewrite Nat2Z.inj_succ, Z.pow_succ_r in ld by lia. rewrite Z.rem_mul_r in ld by (try apply Z.pow_nonzero; lia). rewrite Z.mul_comm, Z_mod_plus_full, Zmod_mod in ld. exact ld. }
      pose proof (Z.div_mod m 10 ltac:(lia)) as dm. rewrite m10, Z.add_0_r in dm. rewrite Nat2Z.inj_succ, Z.pow_succ_r in mE by lia. nia.
    + unfold sig_digits, n. cbn [nwhole frac_digits nfrac]. apply sig_bound. rewrite jv. change (Z.of_nat 15) with 15%Z. exact hm.
    + rewrite jv, f4. exact mE.
    + exact hb.
    + right. exact hl.
Qed.
Theorem expo_float_text e s : isf e = true -> str_expo e = Ok s -> float_repr (f_lit (this (ev e))) = Ok s.
Proof.
  intros hf h. destruct (expo_numeral e s hf h) as (l & f & n). cbv zeta in n. destruct n as (-> & ok & ly & sd & v & hi & lo). set (n := Numeral _ l (Some f) None) in *. set (N := Qnum (this (ev e))) in *. set (D := Zpos (Qden (this (ev e)))) in *.
  assert (dp : 0 < IZR D) by (apply IZR_lt; reflexivity).
  assert (qv : Q2R (this (ev e)) = IZR N / IZR D) by (unfold Q2R; reflexivity).
  assert (val : Q2R (num_val n) = Q2R (this (ev e))).
  { rewrite Q2R_num, qv. unfold numR, n. cbn [nsign nwhole nfrac frac_digits nexp]. rewrite Z.sub_0_l, p10_opp. pose proof (p10_gt (Z.of_nat (List.length f))) as pf. apply (f_equal IZR) in v. rewrite !mult_IZR, <- p10_nonneg in v by lia.
    rewrite mult_IZR. set (P := p10 (Z.of_nat (List.length f))) in *. set (V := IZR (digits_val (l ++ f))) in *. assert (vv : V = IZR (Z.abs N) * P / IZR D) by (rewrite <- v; field; lra). rewrite vv.
    rewrite <- (sign_of_abs N) at 3. rewrite mult_IZR. field. split; lra. }
  assert (ab : Rabs (Q2R (this (ev e))) = IZR (Z.abs N) / IZR D) by (rewrite qv; unfold Rdiv; rewrite Rabs_mult, abs_IZR, (Rabs_pos_eq (/ IZR D)); [reflexivity|left; apply Rinv_0_lt_compat, dp]).
  assert (up : Rabs (Q2R (this (ev e))) < 10 ^ 15).
  { rewrite ab. apply (Rmult_lt_reg_r (IZR D)); [exact dp|]. unfold Rdiv. rewrite Rmult_assoc, Rinv_l, Rmult_1_r by lra. rewrite (pow_IZR 10 15). rewrite <- mult_IZR. apply IZR_lt. exact hi. }
  assert (dn : Q2R (this (ev e)) = 0 \/ / 10000 <= Rabs (Q2R (this (ev e)))).
  { destruct lo as [z|z]; [left; rewrite qv, z; unfold Rdiv; ring|right]. rewrite ab. apply (Rmult_le_reg_r (10000 * IZR D)); [lra|]. apply IZR_le in z. rewrite mult_IZR in z. replace (IZR (Z.abs N) / IZR D * (10000 * IZR D)) with (IZR (Z.abs N) * 10000) by (field; lra). replace (/ 10000 * (10000 * IZR D)) with (IZR D) by field. exact z. }
  assert (big : (10 ^ 15 < 10 ^ 16)) by (apply Rlt_pow; [lra|lia]).
  assert (t64 : 10 ^ 15 < top64). { unfold top64. rewrite (p2_nonneg 970) by lia. rewrite (pow_IZR 10 15), <- mult_IZR. apply IZR_lt. vm_compute. reflexivity. }
  destruct (lit_nearest (this (ev e)) (Rlt_trans _ _ _ up t64)) as (nr & sb).
  apply written_back; try assumption; rewrite ?val; try assumption.
  - split; [intros _|reflexivity]. destruct dn as [z|z]; [left; exact z|right; split; [exact z|lra]].
  - destruct dn as [z|z]; [left; exact z|right]. apply Rle_trans with (2 := z). change (-1022)%Z with (- 1022)%Z. eapply Rle_trans; [|apply (Rinv_le_contravar 10000 (2 ^ 20))]; [|lra|].
    + replace (/ 2 ^ 20) with (p2 (-20)) by reflexivity. apply p2_le. lia.
    + rewrite (pow_IZR 2 20). apply IZR_le. vm_compute. discriminate.
  - rewrite sb. unfold minus, n. cbn [nsign]. unfold sign_of. fold N. destruct (Z.ltb N 0); reflexivity.
Qed.

(** ** Cases *)
(** 9007199254740993.0 *)
Definition sixteen : numeral := Numeral None [9; 0; 0; 7; 1; 9; 9; 2; 5; 4; 7; 4; 0; 9; 9; 3]%nat (Some [O]) None.
Lemma sixteen_lost : exists x, num_ok sixteen /\ layout sixteen /\ (nexp sixteen = None <-> plain_size (Q2R (num_val sixteen))) /\ sig_digits sixteen = 16%nat /\ normal_size (Q2R (num_val sixteen)) /\
  nearest64 (Q2R (num_val sixteen)) x /\ minus sixteen = sign_bit x /\ float_repr x = Ok "9007199254740992.0"%string.
Proof.
  exists (f_lit (9007199254740993 # 1)). assert (v : Q2R (num_val sixteen) = IZR 9007199254740993) by (unfold Q2R, num_val; cbn; field).
  assert (ab : Rabs (IZR 9007199254740993) = IZR 9007199254740993) by (apply Rabs_pos_eq; lra). rewrite v.
  split; [split; [|split; [|split; [discriminate|exact I]]]|].
  { intros d h. cbn in h. repeat (destruct h as [<-|h]; [lia|]). destruct h. } { intros d [<-|[]]. lia. }
  split. { split; [discriminate|]. cbn [nexp sixteen nwhole nfrac]. split; [exists 9%nat; eexists; split; [reflexivity|discriminate]|]. exists [O]. split; [reflexivity|]. exists O, nil. auto. }
  split. { split; [intros _|reflexivity]. right. rewrite ab, (pow_IZR 10 16). split; [lra|]. apply IZR_lt. reflexivity. }
  split; [reflexivity|]. split. { right. rewrite ab. apply Rle_trans with (p2 0); [apply p2_le; lia|change (p2 0) with 1; lra]. }
  assert (q : Q2R (9007199254740993 # 1) = IZR 9007199254740993) by (unfold Q2R; cbn; field).
  destruct (lit_nearest (9007199254740993 # 1)) as (a & b).
  { rewrite q, ab. unfold top64. rewrite (p2_nonneg 970) by lia. rewrite <- mult_IZR. apply IZR_lt. vm_compute. reflexivity. }
  rewrite q in a. split; [exact a|]. split; [rewrite b; reflexivity|]. vm_compute. reflexivity.
Qed.
(** 1.5e-323 and 1.4e-323 are the same subnormal number. *)
Definition subnormal : numeral := Numeral None [1%nat] (Some [4%nat]) (Some (Some true, [3; 2; 3]%nat)).
Lemma subnormal_lost : exists x, num_ok subnormal /\ layout subnormal /\ ~ plain_size (Q2R (num_val subnormal)) /\ sig_digits subnormal = 2%nat /\
  nearest64 (Q2R (num_val subnormal)) x /\ minus subnormal = sign_bit x /\ float_repr x = Ok "1.5e-323"%string.
Proof.
  exists (f_lit (14 # (10 ^ 324))). assert (v : Q2R (num_val subnormal) = Q2R (14 # (10 ^ 324))).
  { apply Qeq_eqR. vm_compute. reflexivity. }
  assert (sm : 0 < Q2R (14 # (10 ^ 324)) < / 10000).
  { rewrite Q2R_pos. split; [apply Rdiv_lt_0_compat; apply IZR_lt; reflexivity|]. apply (Rmult_lt_reg_r (IZR (Z.pos (10 ^ 324)))); [apply IZR_lt; reflexivity|]. unfold Rdiv. rewrite Rmult_assoc, Rinv_l, Rmult_1_r by (apply not_0_IZR; discriminate).
    apply (Rmult_lt_reg_l 10000); [lra|]. rewrite <- Rmult_assoc, Rinv_r, Rmult_1_l by lra. rewrite <- mult_IZR. apply IZR_lt. vm_compute. reflexivity. }
  assert (ab : Rabs (Q2R (14 # (10 ^ 324))) = Q2R (14 # (10 ^ 324))) by (apply Rabs_pos_eq; lra). rewrite v.
  split; [split; [|split; [|split; [discriminate|]]]|].
  { intros d [<-|[]]. lia. } { intros d [<-|[]]. lia. } { split; [|discriminate]. intros d h. cbn in h. repeat (destruct h as [<-|h]; [lia|]). destruct h. }
  split. { split; [discriminate|]. cbn [nexp subnormal nwhole nfrac]. split; [exists 1%nat; auto|]. split; [intros f [= <-]; exists 4%nat, nil; auto|]. split; [discriminate|]. split; [cbn; lia|]. intros _. exists 3%nat. eexists. split; [reflexivity|discriminate]. }
  split. { unfold plain_size. rewrite ab. lra. }
  split; [reflexivity|].
  destruct (lit_nearest (14 # (10 ^ 324))) as (a & b).
  { rewrite ab. apply Rlt_trans with (1 := proj2 sm). unfold top64. rewrite (p2_nonneg 970) by lia. rewrite <- mult_IZR. apply Rlt_trans with 1; [lra|]. apply IZR_lt. vm_compute. reflexivity. }
  split; [exact a|]. split; [rewrite b; reflexivity|]. vm_compute. reflexivity.
Qed.
Lemma sixteen_case : exists n x, num_ok n /\ layout n /\ (nexp n = None <-> plain_size (Q2R (num_val n))) /\
  sig_digits n = 16%nat /\ normal_size (Q2R (num_val n)) /\ nearest64 (Q2R (num_val n)) x /\ minus n = sign_bit x /\
  num_text n = "9007199254740993.0"%string /\ float_repr x = Ok "9007199254740992.0"%string.
Proof. exists sixteen. destruct sixteen_lost as (x & h1 & h2 & h3 & h4 & h5 & h6 & h7 & h8). exists x. repeat (split; [assumption|]). split; [reflexivity|exact h8]. Qed.
Lemma subnormal_case : exists n x, num_ok n /\ layout n /\ ~ plain_size (Q2R (num_val n)) /\ sig_digits n = 2%nat /\
  nearest64 (Q2R (num_val n)) x /\ minus n = sign_bit x /\ num_text n = "1.4e-323"%string /\ float_repr x = Ok "1.5e-323"%string.
Proof. exists subnormal. destruct subnormal_lost as (x & h1 & h2 & h3 & h4 & h5 & h6 & h7). exists x. repeat (split; [assumption|]). split; [reflexivity|exact h7]. Qed.
