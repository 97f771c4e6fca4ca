(** * OwnFloat: converting to the unit at hand in binary64 *)
From Coq Require Import String Ascii List ZArith QArith Qcanon Bool Reals Lra Lia Floats.SpecFloat.
From Verif Require Import Py Num UnitsData UnitsStruct Units Rounding RangeSpec PrintSpec B64Spec B64Round B64Full.
Import ListNotations.
Local Open Scope string_scope.
Local Open Scope list_scope.

Lemma own_gen {T} {N : Num T} tb c (v : T) s a r : mk_multi c v s = Ok a -> s <> "" -> multi_convert_to tb a s = Ok r ->
  exists f, neqb f (nq 0) = false /\ r = MO c (nmul v (ndiv f f)) (mtop a) (mbot a).
Proof.
  intros h hs. assert (hm : forall x : T, mk_multi c x s = Ok (MO c x (mtop a) (mbot a)) /\ parse_units s = Ok (mtop a, mbot a) /\ mc a = c /\ mv a = v).
  { intro x. unfold mk_multi in *. destruct (String.eqb s EmptyString) eqn:e; [apply String.eqb_eq in e; contradiction|].
    destruct (parse_units s) as [[pt pb]|]; cbn [bind fst snd] in *; [|discriminate]. injection h as <-. auto. }
  destruct (hm v) as (_ & hp & h1 & h2). unfold multi_convert_to. rewrite hp. cbn [bind fst snd].
  destruct (conv_prepare (T := T) (mtop a) (mbot a)) as [[[lt lb] lf]|]; cbn [bind]; [|discriminate].
  destruct (conv_factor tb lt lb lf) as [[[lt' lb'] lf']|]; cbn [bind]; [|discriminate].
  destruct (classes_known _) as [ks|]; cbn [bind]; [|discriminate]. destruct (same_dims _ _ _ _); [|discriminate].
  unfold pydiv. destruct (neqb lf' (nq 0)) eqn:e; cbn [bind]; [discriminate|]. rewrite h1, h2, (proj1 (hm _)). intro hr. injection hr as <-. exists lf'. auto.
Qed.
Definition one64 : spec_float := S754_finite false 4503599627370496 (-52).
Lemma self_quotient s m e : SFdiv 53 1024 (S754_finite s m e) (S754_finite s m e) = one64.
Proof.
  cbn [SFdiv]. rewrite xorb_nilpotent.
  assert (h : SFdiv_core_binary 53 1024 (Z.pos m) e (Z.pos m) e = ((2 ^ 53)%Z, (-53)%Z, loc_Exact)).
  { unfold SFdiv_core_binary. rewrite !Z.sub_diag. change (Z.min (fexp 53 1024 0) 0) with (-53)%Z. change (0 - -53)%Z with 53%Z.
    rewrite Z.shiftl_mul_pow2 by lia.
    assert (hq : Z.div_eucl (Z.pos m * 2 ^ 53) (Z.pos m) = ((2 ^ 53)%Z, 0%Z)).
    { pose proof (Z.div_mul (2 ^ 53) (Z.pos m) ltac:(discriminate)) as h1. pose proof (Z.mod_mul (2 ^ 53) (Z.pos m) ltac:(discriminate)) as h2.
      rewrite Z.mul_comm in h1, h2. unfold Z.div, Z.modulo in h1, h2. destruct (Z.div_eucl (Z.pos m * 2 ^ 53) (Z.pos m)) as [q r]. congruence. }
    rewrite hq. unfold new_location, new_location_even, new_location_odd. destruct (Z.even (Z.pos m)); reflexivity. }
  rewrite h. vm_compute. reflexivity.
Qed.
(** Any binary64 number, infinities and nan included. *)
Definition binary64 (x : spec_float) : Prop := match x with S754_finite _ m e => bounded 53 1024 m e = true | _ => True end.
Lemma times_one v : binary64 v -> SFmul 53 1024 v one64 = v.
Proof.
  destruct v as [s|s| |s m e]; intro h; try (cbn; rewrite ?xorb_false_r; reflexivity).
  assert (hv : finite64 (S754_finite s m e)) by exact h. assert (h1 : finite64 one64) by (vm_compute; reflexivity).
  assert (e1 : SFR one64 = 1%R).
  { unfold one64. cbn [SFR]. change (powerRZ 2 (-52)) with (/ 2 ^ 52)%R. change (IZR 4503599627370496) with (IZR (2 ^ Z.of_nat 52)). rewrite <- pow_IZR, Rmult_1_l. apply Rinv_r. apply pow_nonzero. lra. }
  destruct (mul_full _ _ hv h1) as [[r1 _] _]. rewrite e1, Rmult_1_r in r1. destruct (zero_nearest _ hv) as [[r2 _] _].
  assert (hl : (Rabs (SFR (S754_finite s m e)) < limit64)%R).
  { destruct (Rlt_dec (Rabs (SFR (S754_finite s m e))) limit64) as [k|k]; [exact k|exfalso]. destruct (zero_nearest _ hv) as [(_ & k1 & k2) _].
    unfold Rabs in k. destruct (Rcase_abs _); [assert (k' : (SFR (S754_finite s m e) <= - limit64)%R) by lra; discriminate (k2 k')|assert (k' : (limit64 <= SFR (S754_finite s m e))%R) by lra; discriminate (k1 k')]. }
  specialize (r1 hl). specialize (r2 hl). apply SFR_inj; [apply r1|exact hv|apply (nearest_unique _ _ _ r1 r2)|].
  rewrite (nearest_unique _ _ _ r1 r2). pose proof (pos_mant m e). cbn [SFR]. destruct s; lra.
Qed.
Lemma own_float p (tb : tables spec_float) c v s a r : binary64 v -> @mk_multi spec_float c v s = Ok a -> s <> "" -> @multi_convert_to spec_float (Bpow p) tb a s = Ok r ->
  r = a \/ r = MO c S754_nan (mtop a) (mbot a).
Proof.
  intros hv h hs hr. destruct (@own_gen spec_float (Bpow p) tb c v s a r h hs hr) as (f & hf & ->). cbn [nmul ndiv Bpow].
  assert (ea : a = MO c v (mtop a) (mbot a)).
  { unfold mk_multi in h. destruct (String.eqb s EmptyString); [injection h as <-; reflexivity|]. destruct (parse_units s) as [[pt pb]|]; cbn in h; [|discriminate]. injection h as <-. reflexivity. }
  destruct f as [z|z| |z m e].
  - discriminate hf.
  - right. cbn. destruct v; reflexivity.
  - right. cbn. destruct v; reflexivity.
  - left. rewrite self_quotient, times_one by exact hv. symmetry. exact ea.
Qed.
Definition huge : multi_obj spec_float := MO MMulti one64 [BU "km" (eflt (qc 100)); BU "km" (eflt (qc 100))] nil.
Lemma own_nan : @mk_multi spec_float MMulti one64 "km^100*km^100" = Ok huge /\ binary64 one64 /\
  @multi_convert_to spec_float Bnum (@tables0 spec_float Bnum) huge "km^100*km^100" = Ok (MO MMulti S754_nan (mtop huge) (mbot huge)).
Proof.
  split; [vm_compute; repeat (f_equal; try (apply Qc_is_canon; reflexivity))|]. split; [reflexivity|].
  vm_compute; repeat (f_equal; try (apply Qc_is_canon; reflexivity)).
Qed.
