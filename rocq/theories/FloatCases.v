(** * FloatCases: roots, decimals and totals of rounded exponents *)
From Coq Require Import String Ascii List ZArith QArith Qcanon Bool Reals Qreals Lia Lra Psatz.
From Verif Require Import Py Num UnitsData UnitsStruct Units NumFacts Spec StructFacts ExpandFacts SimplifyFacts FloatExp FloatRound FloatFacts FloatSimplify FloatSpec FloatOps FloatConvert.
Import ListNotations.
Local Open Scope string_scope.
Local Open Scope list_scope.
Local Open Scope R_scope.

Lemma Qc_neq_bool_ a b : Qc_eq_bool a b = false -> a <> b.
Proof. intros h e. subst. unfold Qc_eq_bool in h. destruct (Qc_eq_dec b b); congruence. Qed.

(** ** Everyday exponents *)
Lemma everyday l : (forall x, In x l -> dyadic 8 (bexp x)) -> amount seeds l <= 4 -> amount width l <= 512 -> modest 8 8 l.
Proof.
  intros h1 h2 h3. split; [exact h1|cbn [INR]; lra|]. exists 512. split; [lra|]. split; [exact h3|].
  replace 16 with (2 ^ 4) by (cbn [pow]; ring). rewrite <- pow_mult. replace 512 with (2 ^ 9) by (cbn [pow]; ring). rewrite <- !pow_add. cbn [Nat.add Nat.mul]. lra.
Qed.
Lemma dyadic_z k z : dyadic k (eflt (qc z)).
Proof. exists (z * 2 ^ Z.of_nat k)%Z. cbn [ev eflt]. rewrite QcR_qc, mult_IZR, <- pow_IZR. assert (0 < 2 ^ k) by (apply pow_lt; lra). field. lra. Qed.

(** ** The total *)
Lemma fold_exact l a : QcR (ev (fold_left (fun a x => e_add exact_ops a (bexp x)) l a)) = QcR (ev a) + total l.
Proof. revert a. induction l as [|x l IH]; intro a; cbn [fold_left total]; [lra|]. rewrite IH. cbn [exact_ops e_add eadd ev]. rewrite QcR_plus. lra. Qed.
Lemma total_exact T (m : multi_obj T) : QcR (ev (g_exponent_total exact_ops m)) = total (mtop m) + total (mbot m).
Proof. unfold g_exponent_total. rewrite !fold_exact, ev_eint. lra. Qed.
Lemma fold_same g B l a : room g B -> grid g (ev a) -> good g l -> Rabs (QcR (ev a)) + tot l <= B ->
  fold_left (fun a x => e_add fo a (bexp x)) l a = fold_left (fun a x => e_add exact_ops a (bexp x)) l a /\
  grid g (ev (fold_left (fun a x => e_add exact_ops a (bexp x)) l a)) /\ Rabs (QcR (ev (fold_left (fun a x => e_add exact_ops a (bexp x)) l a))) <= Rabs (QcR (ev a)) + tot l.
Proof.
  intro hr. revert a. induction l as [|x l IH]; intros a ga gl hb; cbn [fold_left]; [split; [reflexivity|]; split; [exact ga|cbn [wt]; lra]|].
  rewrite tot_cons in *. apply good_cons in gl. destruct gl as [gx gl]. pose proof (tot_pos l). pose proof (Rabs_pos (QcR (ev a))). pose proof (Rabs_pos (rexp x)).
  cbn [fo e_add exact_ops]. rewrite (add_same g B a (bexp x)) by (auto; lra).
  pose proof (Rabs_triang (QcR (ev a)) (rexp x)) as tr. assert (e : QcR (ev (eadd a (bexp x))) = QcR (ev a) + rexp x) by (cbn [eadd ev]; apply QcR_plus).
  destruct (IH (eadd a (bexp x))) as (i1 & i2 & i3); auto.
  - cbn [eadd ev]. apply grid_plus; assumption.
  - rewrite e. lra.
  - split; [exact i1|]. split; [exact i2|]. rewrite e in i3. cbn [exact_ops e_add] in i3. lra.
Qed.
Lemma total_same T (m : multi_obj T) k n : modest k n (parts (VMulti m)) -> g_exponent_total fo m = g_exponent_total exact_ops m.
Proof.
  intro h. destruct (modest_room k n _ h) as (B & hr & hw). destruct h as [hd _ _]. cbn [parts] in *. rewrite amount_app in hw.
  destruct (amount_wt (mtop m)) as [w1 _]. destruct (amount_wt (mbot m)) as [w2 _]. pose proof (wt_tot (mtop m)). pose proof (wt_tot (mbot m)).
  assert (z : QcR (ev (eint 0)) = 0) by apply ev_eint. pose proof (tot_pos (mbot m)).
  unfold g_exponent_total. destruct (fold_same (Z.of_nat k) B (mtop m) (eint 0) hr) as (i1 & i2 & i3).
  { apply grid_qc. lia. } { intros x hx. apply dyadic_grid, hd, in_or_app. auto. } { rewrite z, Rabs_R0. lra. }
  rewrite z, Rabs_R0 in i3. rewrite i1. apply (fold_same (Z.of_nat k) B); auto; [|lra]. intros x hx. apply dyadic_grid, hd, in_or_app. auto.
Qed.

(** ** Roots *)
Definition root (n : Z) : expo := eflt (fl (Q2Qc (1 # Z.to_pos n))).
Definition back (n : Z) : expo := e_mul fo (e_mul fo (eint 1) (root n)) (eint n).
Lemma back_all : forallb (fun k => Qc_eq_bool (ev (back (Z.of_nat k))) (qc 1)) (seq 1 48) = true.
Proof. vm_compute. reflexivity. Qed.
Lemma back_one n : (1 <= n <= 48)%Z -> back n = eflt (qc 1).
Proof.
  intro h. pose proof back_all as b. rewrite forallb_forall in b. specialize (b (Z.to_nat n)). rewrite Z2Nat.id in b by lia.
  assert (e : ev (back n) = qc 1) by (apply Qc_eq_bool_correct, b, in_seq; lia).
  assert (f : isf (back n) = true) by reflexivity. destruct (back n) as [i x]. cbn [isf ev] in *. subst. reflexivity.
Qed.
Lemma g_mk_unit_parts T (c : ucls) (v : T) nm e u : has_char "^" nm = false -> g_mk_unit fo c v nm e = Ok u -> u = UO c v nm e.
Proof.
  intros hn h. destruct c; cbn [g_mk_unit] in h; unfold g_split_caret in h; rewrite ?hn in h; try (injection h as <-; reflexivity); destruct (mem_str _ _); try discriminate; injection h as <-; reflexivity.
Qed.
Lemma roots T (N : Num T) (c : ucls) (v : T) nm n r r' : (1 <= n <= 48)%Z -> bare (VUnit (UO c v nm (eint 1))) ->
  g_py_pow fo (VUnit (UO c v nm (eint 1))) (root n) = Ok r -> g_py_pow fo r (eint n) = Ok r' -> parts r' = [BU nm (eflt (qc 1))].
Proof.
  intros hn hb h1 h2. apply no_caret in hb. cbn [un] in hb. cbn [g_py_pow g_unit_pow uc uv un ue] in h1. unfold g_unit_pow in h1. cbn [uc uv un ue] in h1. destruct (npow v _) as [v1|]; [|discriminate]. cbn [bind] in h1. unfold vunit, rmap in h1.
  destruct (g_mk_unit _ _ _ _ _) as [u|] eqn:e; [|discriminate]. injection h1 as <-. apply (g_mk_unit_parts T c v1 nm _ u hb) in e. subst u.
  cbn [g_py_pow] in h2. unfold g_unit_pow in h2. cbn [uc uv un ue] in h2. destruct (npow v1 _) as [v2|]; [|discriminate]. cbn [bind] in h2. unfold vunit, rmap in h2.
  destruct (g_mk_unit _ _ _ _ _) as [u|] eqn:e; [|discriminate]. injection h2 as <-. apply (g_mk_unit_parts T c v2 nm _ u hb) in e. subst u. cbn [parts un ue].
  change (e_mul fo (e_mul fo (eint 1) (root n)) (eint n)) with (back n). rewrite (back_one n hn). reflexivity.
Qed.
Definition second {T} (v : T) (e : expo) : pyval T := VUnit (UO Time v "s" e).
Lemma root49 : exists n r r', (1 <= n)%Z /\ g_py_pow fo (second 1%Q (eint 1)) (root n) = Ok r /\ g_py_pow fo r (eint n) = Ok r' /\
  exists e, parts r' = [BU "s" e] /\ ev e <> qc 1 /\ py_add (second 1%Q (eint 1)) r' = Raise ETypeError.
Proof.
  exists 49%Z. eexists _, _. split; [lia|]. split; [vm_compute; reflexivity|]. split; [vm_compute; reflexivity|]. eexists. split; [reflexivity|].
  split; [apply Qc_neq_bool_; vm_compute; reflexivity|vm_compute; reflexivity].
Qed.

(** ** Decimal exponents *)
Definition tenths (n : Z) : Qc := Q2Qc (n # 10).
Lemma decimals : exists x y z,
  (let* p := py_mul (second 1%Q (eflt x)) (second 1%Q (eflt y)) in py_div p (second 1%Q (eflt z))) = Ok (VNum 1%Q) /\
  exists e, (let* p := g_py_mul fo (second 1%Q (eflt (fl x))) (second 1%Q (eflt (fl y))) in g_py_div fo p (second 1%Q (eflt (fl z)))) = Ok (second 1%Q e).
Proof. exists (tenths 1), (tenths 2), (tenths 3). split; [vm_compute; reflexivity|]. eexists. vm_compute. reflexivity. Qed.
Lemma decimal_powers : exists x y,
  (exists r, (let* p := py_pow (second 1%Q (eint 1)) (eflt x) in let* p := py_pow p (eint 3) in let* q := py_pow (second 1%Q (eint 1)) (eflt y) in py_add p q) = Ok r) /\
  (let* p := g_py_pow fo (second 1%Q (eint 1)) (eflt (fl x)) in let* p := g_py_pow fo p (eint 3) in let* q := g_py_pow fo (second 1%Q (eint 1)) (eflt (fl y)) in py_add p q) = Raise ETypeError.
Proof. exists (tenths 1), (tenths 3). split; [eexists; vm_compute; reflexivity|vm_compute; reflexivity]. Qed.

(** ** Cases *)
Definition half_ : expo := eflt (Q2Qc (1 # 2)).
Definition case_a : pyval R := VMulti (MO MMulti 3 [BU "kPa" half_; BU "m" (eint 2)] [BU "s" (eflt (qc 3))]).
Definition case_b : pyval R := VUnit (UO Energy 2 "J" (eint 1)).
Lemma half_R : QcR (ev half_) = / 2.
Proof. unfold half_. cbn [ev eflt]. unfold QcR. cbn. unfold Q2R. cbn. field. Qed.
Lemma case_modest : bare case_a /\ bare case_b /\ modest 8 8 (parts case_a ++ parts case_b).
Proof.
  split; [exact I|]. split; [cbn; intuition discriminate|]. assert (z2 : QcR (ev (eint 2)) = 2) by apply ev_eint. assert (z1 : QcR (ev (eint 1)) = 1) by apply ev_eint.
  assert (z3 : QcR (ev (eflt (qc 3))) = 3) by apply QcR_qc.
  apply everyday; unfold case_a, case_b; cbn [parts app mtop mbot un ue].
  - intros x hx. cbn [In] in hx. destruct hx as [<-|[<-|[<-|[<-|[]]]]]; cbn [bexp]; [|exact (dyadic_z 8 2)|exact (dyadic_z 8 3)|exact (dyadic_z 8 1)].
    exists 128%Z. rewrite half_R. cbn [pow]. lra.
  - cbn [amount bname bexp]. rewrite half_R, z1, z2, z3, (Rabs_pos_eq (/ 2)), A1, A2, A3 by lra. cbv [seeds stem look find existsb fst snd String.eqb Ascii.eqb Bool.eqb andb orb]. lra.
  - cbn [amount bname bexp]. rewrite half_R, z1, z2, z3, (Rabs_pos_eq (/ 2)), A1, A2, A3 by lra. cbv [width stem look find existsb fst snd String.eqb Ascii.eqb Bool.eqb andb orb]. lra.
Qed.
Definition case_c : pyval R := VMulti (MO MMulti 3 [BU "kPa" (eint 1); BU "m" (eint 2)] [BU "s" (eflt (qc 3))]).
Lemma short_z (e : expo) (z : Z) : QcR (ev e) = IZR z -> (Z.abs z <= 1000)%Z -> short e.
Proof.
  intros h hz. exists 0%nat. split; [exists z; rewrite h; cbn [pow]; field|]. split; [|lia]. rewrite h, <- abs_IZR. apply IZR_le in hz. rewrite pow_O.
  pose proof (Rle_pow 2 10 53 ltac:(lra) ltac:(lia)) as h2. assert (2 ^ 10 = 1024) by (cbn [pow]; lra). lra.
Qed.
Lemma case_power : bare case_c /\ short half_ /\ (forall x, In x (parts case_c) -> short (bexp x)) /\ modest 8 8 (raised half_ (parts case_c)).
Proof.
  split; [exact I|]. assert (z2 : QcR (ev (eint 2)) = 2) by apply ev_eint. assert (z1 : QcR (ev (eint 1)) = 1) by apply ev_eint. assert (z3 : QcR (ev (eflt (qc 3))) = 3) by apply QcR_qc.
  split; [exists 1%nat; split; [exists 1%Z; rewrite half_R; cbn [pow]; field|split; [|lia]; rewrite half_R, Rabs_pos_eq by lra; pose proof (Rle_pow 2 0 53 ltac:(lra) ltac:(lia)) as h2; rewrite pow_O in h2; rewrite pow_1; lra]|].
  split; [intros x hx; unfold case_c in hx; cbn [parts app mtop mbot In] in hx; destruct hx as [<-|[<-|[<-|[]]]]; cbn [bexp]; [apply (short_z _ 1)|apply (short_z _ 2)|apply (short_z _ 3)]; auto; lia|].
  assert (m : forall e, QcR (ev (emul e half_)) = QcR (ev e) / 2) by (intro e; cbn [emul ev]; rewrite QcR_mult; change (QcR (ev e) * QcR (ev half_) = QcR (ev e) / 2); rewrite half_R; field).
  apply everyday; unfold case_c; cbn [parts app mtop mbot raised map bname bexp].
  - intros x hx. cbn [In] in hx. destruct hx as [<-|[<-|[<-|[]]]]; cbn [bexp]; [exists 128%Z|exists 256%Z|exists 384%Z]; rewrite m, ?z1, ?z2, ?z3; cbn [pow]; lra.
  - cbn [amount bname bexp]. rewrite !m, z1, z2, z3, !Rabs_pos_eq by lra. cbv [seeds stem look find existsb fst snd String.eqb Ascii.eqb Bool.eqb andb orb]. lra.
  - cbn [amount bname bexp]. rewrite !m, z1, z2, z3, !Rabs_pos_eq by lra. cbv [width stem look find existsb fst snd String.eqb Ascii.eqb Bool.eqb andb orb]. lra.
Qed.
Lemma fl_cases_ : fl (Q2Qc (1 # 10)) = Q2Qc (3602879701896397 # 36028797018963968) /\ fl (Q2Qc (1 # 3)) = Q2Qc (6004799503160661 # 18014398509481984) /\
  fl (qc 9007199254740993) = qc 9007199254740992 /\ fl (qc 9007199254740995) = qc 9007199254740996 /\ fl (Q2Qc (- (5 # 4))) = Q2Qc (- (5 # 4)).
Proof. repeat split; apply Qc_is_canon; vm_compute; reflexivity. Qed.
Definition case_total : multi_obj R := MO MMulti 5 [BU "m" (eflt (qc 2))] [BU "s" (eflt (qc 2))].
Lemma case_total_ok : modest 8 8 (parts (VMulti case_total)) /\ QcR (ev (g_exponent_total exact_ops case_total)) = 4.
Proof.
  assert (z2 : QcR (ev (eflt (qc 2))) = 2) by apply QcR_qc. split; [|rewrite total_exact; cbn [case_total mtop mbot total bexp]; rewrite z2; lra].
  apply everyday; unfold case_total; cbn [parts app mtop mbot].
  - intros x hx. cbn [In] in hx. destruct hx as [<-|[<-|[]]]; exact (dyadic_z 8 2).
  - cbn [amount bname bexp]. rewrite z2, A2. cbv [seeds stem look find existsb fst snd String.eqb Ascii.eqb Bool.eqb andb orb]. lra.
  - cbn [amount bname bexp]. rewrite z2, A2. cbv [width stem look find existsb fst snd String.eqb Ascii.eqb Bool.eqb andb orb]. lra.
Qed.

(** ** Conversions *)
Lemma conv_refused : exists s t,
  (exists r, (let* a := mk_multi MMulti 5%Q s in multi_convert_to tables0 a t) = Ok r /\ mv r = 5%Q) /\
  (let* a := g_mk_multi fo MMulti 5%Q s in g_multi_convert_to fo tables0 a t) = Raise EUnitConversionError.
Proof. exists "s^0.1*s^0.2", "s^0.3". split; [eexists; split; [vm_compute; reflexivity|reflexivity]|vm_compute; reflexivity]. Qed.
Lemma conv_accepted : exists s t,
  (let* a := mk_multi MMulti 5%Q s in multi_convert_to tables0 a t) = Raise EUnitConversionError /\
  exists r, (let* a := g_mk_multi fo MMulti 5%Q s in g_multi_convert_to fo tables0 a t) = Ok r /\ mv r = 5%Q.
Proof. exists "s^0.1*s^0.2", "s^0.30000000000000004". split; [vm_compute; reflexivity|eexists; split; [vm_compute; reflexivity|reflexivity]]. Qed.
Lemma fits8 l : (forall x, In x l -> dyadic 8 (bexp x)) -> (forall x, In x l -> ~ In "^"%char (list_ascii_of_string (bname x))) -> amount width l <= 1000000000 -> fits 8 l.
Proof.
  intros h1 h2 h3. split; [exact h1|exact h2|lia|]. change 53%nat with (40 + (5 + 8))%nat. rewrite !pow_add. assert (e : 2 ^ 40 = (2 ^ 10) ^ 4) by (rewrite <- pow_mult; reflexivity). rewrite e.
  replace (2 ^ 10) with 1024 by (cbn [pow]; lra). cbn [pow]. lra.
Qed.
Definition case_mix : multi_obj R := MO MMulti 3 [BU "kPa" half_; BU "m" (eint 2)] [BU "s" (eflt (qc 3))].
Lemma case_conv : fits 8 (parts (VMulti case_mix)) /\ exists p, parse_units "psi^0.5*ft^2/min^3" = Ok p /\ fits 8 (fst p ++ snd p).
Proof.
  assert (z2 : QcR (ev (eint 2)) = 2) by apply ev_eint. assert (z3 : QcR (ev (eflt (qc 3))) = 3) by apply QcR_qc. split.
  - apply fits8; unfold case_mix; cbn [parts app mtop mbot].
    + intros x hx. cbn [In] in hx. destruct hx as [<-|[<-|[<-|[]]]]; cbn [bexp]; [|exact (dyadic_z 8 2)|exact (dyadic_z 8 3)]. exists 128%Z. rewrite half_R. cbn [pow]. lra.
    + intros x hx. cbn [In] in hx. destruct hx as [<-|[<-|[<-|[]]]]; cbn; intuition discriminate.
    + cbn [amount bname bexp]. rewrite half_R, z2, z3, (Rabs_pos_eq (/ 2)), A2, A3 by lra. cbv [width stem look find existsb fst snd String.eqb Ascii.eqb Bool.eqb andb orb]. lra.
  - assert (half5 : QcR (ev (eflt (Q2Qc (5 # 10)))) = / 2) by (cbn [ev eflt]; unfold QcR; cbn; unfold Q2R; cbn; field).
    exists ([BU "psi" (eflt (Q2Qc (5 # 10))); BU "ft" (eflt (qc 2))], [BU "min" (eflt (qc 3))]). split; [vm_compute; reflexivity|]. assert (y2 : QcR (ev (eflt (qc 2))) = 2) by apply QcR_qc.
    apply fits8; cbn [fst snd app].
    + intros x hx. cbn [In] in hx. destruct hx as [<-|[<-|[<-|[]]]]; cbn [bexp]; [|exact (dyadic_z 8 2)|exact (dyadic_z 8 3)]. exists 128%Z. rewrite half5. cbn [pow]. lra.
    + intros x hx. cbn [In] in hx. destruct hx as [<-|[<-|[<-|[]]]]; cbn; intuition discriminate.
    + cbn [amount bname bexp]. rewrite half5, y2, z3, (Rabs_pos_eq (/ 2)), A2, A3 by lra. cbv [width stem look find existsb fst snd String.eqb Ascii.eqb Bool.eqb andb orb]. lra.
Qed.
