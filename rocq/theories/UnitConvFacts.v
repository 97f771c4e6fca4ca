(** * UnitConvFacts: converting single Units *)
From Coq Require Import String Ascii List ZArith QArith Qcanon Bool Reals Qreals Lia Lra.
From Verif Require Import Py Num UnitsData UnitsStruct Units NumFacts Spec SpecFacts StructFacts ExpandFacts PrefixFacts FactorFacts
  WitnessFacts UnitConvSpec.
Import ListNotations.
Local Open Scope string_scope.
Local Open Scope list_scope.
Local Open Scope R_scope.

(** ** Powers with exponent 1 *)
Lemma Rpowq_1 x : Rpowq x (qc 1) = Ok x.
Proof. rewrite Rpowq_int by (right; lia). f_equal. apply powerRZ_1. Qed.
Lemma ev_e1 : ev (eint 1) = qc 1.
Proof. reflexivity. Qed.

(** ** Linear conversions: factor to and from the standard unit *)
Definition lin_table (c : ucls) : list (string * (Q * Q)) :=
  match c with
  | Pressure => [("Pa", (1, 1)); ("uPa", (1 # 1000000, 1000000 # 1)); ("mPa", (1 # 1000, 1000 # 1)); ("dPa", (1 # 10, 10 # 1));
      ("kPa", (1000 # 1, 1 # 1000)); ("MPa", (10000000 # 1, 1 # 10000000)); ("bar", (100000 # 1, 1 # 100000));
      ("atm", (101325 # 1, 1 # 101325)); ("mmHg", (133322 # 1000, 1000 # 133322)); ("psi", (689476 # 100, 100 # 689476))]
  | Length => [("m", (1, 1)); ("in", (254 # 10000, 3937008 # 100000)); ("ft", (3048 # 10000, 328084 # 100000)); ("yd", (9144 # 10000, 10000 # 9144));
      ("mile", (160934 # 100, 160934 # 100)); ("um", (1 # 1000000, 1000000 # 1)); ("mm", (1 # 1000, 1000 # 1)); ("cm", (1 # 100, 100 # 1));
      ("dm", (1 # 10, 10 # 1)); ("km", (1000 # 1, 1 # 1000))]
  | Time => [("s", (1, 1)); ("min", (60 # 1, 1 # 60)); ("hr", (3600 # 1, 1 # 3600)); ("day", (86400 # 1, 1 # 86400))]
  | Energy => [("J", (1, 1)); ("uJ", (1 # 1000000, 1000000 # 1)); ("mJ", (1 # 1000, 1000 # 1)); ("cJ", (1 # 100, 100 # 1)); ("dJ", (1 # 10, 10 # 1));
      ("kJ", (1000 # 1, 1 # 1000)); ("MJ", (1000000 # 1, 1 # 1000000)); ("BTU", (1055056 # 1000, 1000 # 1055056))]
  | Mass => [("kg", (1, 1)); ("ug", (1 # 1000000000, 1000000000 # 1)); ("mg", (1 # 1000000, 1000000 # 1)); ("dg", (1 # 10000, 10000 # 1));
      ("g", (1 # 1000, 1000 # 1)); ("Mg", (1000 # 1, 1 # 1000)); ("lb", (453592 # 1000000, 220462 # 100000))]
  | Force => [("N", (1, 1)); ("uN", (1 # 1000000, 1000000 # 1)); ("mN", (1 # 1000, 1000 # 1)); ("dN", (1 # 10, 10 # 1));
      ("kN", (1000 # 1, 1 # 1000)); ("MN", (1000000 # 1, 1 # 1000000)); ("lbf", (444822 # 100000, 100000 # 444822))]
  | _ => []
  end%Q.
Definition K (c : ucls) (n t : string) : Q :=
  if String.eqb n t then 1%Q else
  match dict_get (lin_table c) n, dict_get (lin_table c) t with
  | Some (a, _), Some (_, b) => (a * b)%Q
  | _, _ => 0%Q
  end.

Lemma lin_entry c n a b : dict_get (lin_table c) n = Some (a, b) ->
  has_char "^" n = false /\ mem_str n UNIT_COMPOSITES = false /\ (forall v ex, mk_unit c (v : R) n ex = Ok (UO c v n ex)) /\
  match standard c with
  | None => False
  | Some std =>
      if String.eqb n std then a = 1%Q /\ b = 1%Q
      else (exists f, tab_get (to_standard0 (T := R) c) n = Ok f /\ forall v, f v = Ok (v * Q2R a)) /\
           (exists f, tab_get (from_standard0 (T := R) c) n = Ok f /\ forall v, f v = Ok (v * Q2R b))
  end.
Proof.
  intro h. apply dict_get_in in h.
  destruct c; cbn in h; try contradiction;
    repeat (destruct h as [h|h]; [injection h as <- <- <-; (split; [reflexivity|]); (split; [reflexivity|]); (split; [reflexivity|]); cbn [standard];
      match goal with |- if ?b then _ else _ => let b' := eval vm_compute in b in change b with b' end; cbn iota;
      first [split; reflexivity | split; (eexists; split; [reflexivity|]; intro v; cbv [times over nmul ndiv nq Rnum]; f_equal; q2r; field)]|]);
    destruct h.
Qed.

Lemma convert_lin c n t v e qn qt : dict_get (lin_table c) n = Some qn -> dict_get (lin_table c) t = Some qt -> ev e = qc 1 ->
  exists r, unit_convert_to tables0 (UO c v n e) t = Ok r /\ simple r c (v * Q2R (K c n t)) t.
Proof.
  destruct qn as [a b], qt as [a' b']. intros hn ht he.
  destruct (lin_entry c n a b hn) as [_ [h2 [_ h4]]]. destruct (lin_entry c t a' b' ht) as [h5 [_ [h7 h8]]].
  unfold unit_convert_to. cbn [un]. rewrite h2, h5. unfold unit_convert_core. cbn [un uc uv]. unfold K. rewrite hn, ht.
  destruct (String.eqb n t) eqn:ent.
  { apply String.eqb_eq in ent. subst t. eexists. split; [reflexivity|]. repeat split; auto. cbn [uv].
    replace (Q2R 1) with 1 by (q2r; lra). ring. }
  destruct (standard c) as [std|]; [|contradiction].
  destruct (String.eqb t std) eqn:ets.
  - destruct h8 as [-> ->]. apply String.eqb_eq in ets. subst std. rewrite ent in h4. destruct h4 as [[f [hf hv]] _].
    unfold to_val. cbn [to_standard tables0]. rewrite hf. cbn [bind]. rewrite hv. cbn [bind npow Rnum]. rewrite ev_e1, Rpowq_1. cbn [bind].
    rewrite h7. eexists. split; [reflexivity|]. repeat split. cbn [uv]. rewrite Q2R_mult. replace (Q2R 1) with 1 by (q2r; lra). ring.
  - destruct h8 as [_ [g [hg hw]]].
    destruct (String.eqb n std) eqn:ens.
    + destruct h4 as [-> ->]. unfold from_val. cbn [from_standard tables0]. rewrite hg. cbn [bind]. rewrite hw. cbn [bind npow Rnum].
      rewrite ev_e1, Rpowq_1. cbn [bind]. rewrite h7. eexists. split; [reflexivity|]. repeat split. cbn [uv]. rewrite Q2R_mult.
      replace (Q2R 1) with 1 by (q2r; lra). ring.
    + destruct h4 as [[f [hf hv]] _]. unfold to_val. cbn [to_standard tables0]. rewrite hf. cbn [bind]. rewrite hv. cbn [bind npow Rnum].
      rewrite ev_e1, Rpowq_1. cbn [bind]. unfold from_val. cbn [from_standard tables0]. rewrite hg. cbn [bind]. rewrite hw. cbn [bind npow Rnum].
      rewrite ev_e1, Rpowq_1. cbn [bind]. rewrite h7. eexists. split; [reflexivity|]. repeat split. cbn [uv]. rewrite Q2R_mult. ring.
Qed.

(** ** Pairs of names, checked by computation *)
Definition classes : list ucls := [Pressure; Length; Time; Energy; Mass; Force].
Definition in_lin (c : ucls) (n : string) : bool := match dict_get (lin_table c) n with Some _ => true | None => false end.
Definition all_pairs (P : ucls -> string -> string -> bool) (names : ucls -> list string) : bool :=
  forallb (fun c => forallb (fun n => forallb (fun t => in_lin c n && in_lin c t && P c n t) (names c)) (names c)) classes.
Lemma all_pairs_ok P names c n t : all_pairs P names = true -> (forall d, names d <> [] -> In d classes) ->
  In n (names c) -> In t (names c) -> in_lin c n = true /\ in_lin c t = true /\ P c n t = true.
Proof.
  unfold all_pairs. intros h hc hn ht. rewrite forallb_forall in h.
  assert (hc' : In c classes) by (apply hc; intro e; rewrite e in hn; destruct hn).
  specialize (h c hc'). rewrite forallb_forall in h. specialize (h n hn). rewrite forallb_forall in h. specialize (h t ht).
  rewrite !andb_true_iff in h. tauto.
Qed.
Ltac names_classes := let d := fresh in intro d; destruct d; cbn; (tauto || congruence).
Definition qclose (x y : Q) : bool :=
  Qle_bool (x - y) ((1 # 100000) * y) && Qle_bool (y - x) ((1 # 100000) * y) && Qle_bool 0 y.
Lemma qclose_ok v x y : qclose x y = true -> close (v * Q2R x) (v * Q2R y).
Proof.
  unfold qclose, close. rewrite !andb_true_iff, !Qle_bool_iff. intros [[h1 h2] h3].
  apply Qle_Rle in h1, h2, h3. rewrite Q2R_minus, Q2R_mult in h1, h2.
  replace (Q2R (1 # 100000)) with (/ 100000) in * by (q2r; lra). replace (Q2R 0) with 0 in h3 by (q2r; lra).
  replace (v * Q2R x - v * Q2R y) with (v * (Q2R x - Q2R y)) by ring. rewrite !Rabs_mult. rewrite (Rabs_pos_eq (Q2R y)) by exact h3.
  assert (Rabs (Q2R x - Q2R y) <= / 100000 * Q2R y) by (apply Rabs_le; lra).
  pose proof (Rabs_pos v). nra.
Qed.
Lemma in_lin_some c n : in_lin c n = true -> exists q, dict_get (lin_table c) n = Some q.
Proof. unfold in_lin. destruct (dict_get (lin_table c) n); [eexists; reflexivity|discriminate]. Qed.

Lemma simple_obj r c v n : simple r c v n -> exists e, r = UO c v n e /\ ev e = qc 1.
Proof. destruct r as [c' v' n' e']. intros [h1 [h2 [h3 h4]]]. cbn in *. subst. exists e'. auto. Qed.

(** ** C25 *)
Lemma round_exact c n t v u : In n (round_names c) -> In t (round_names c) -> simple u c v n ->
  exists r r', unit_convert_to tables0 u t = Ok r /\ un r = t /\ unit_convert_to tables0 r n = Ok r' /\ simple r' c v n.
Proof.
  intros hn ht hu.
  destruct (all_pairs_ok (fun c n t => Qeq_bool (K c n t * K c t n) 1) round_names c n t) as [l1 [l2 l3]];
    [vm_compute; reflexivity|names_classes|exact hn|exact ht|].
  destruct (in_lin_some _ _ l1) as [q1 k1]. destruct (in_lin_some _ _ l2) as [q2 k2].
  destruct (simple_obj _ _ _ _ hu) as [e [-> he]].
  destruct (convert_lin c n t v e q1 q2 k1 k2 he) as [r [h1 h2]].
  destruct (simple_obj _ _ _ _ h2) as [e' [-> he']].
  destruct (convert_lin c t n (v * Q2R (K c n t)) e' q2 q1 k2 k1 he') as [r' [h3 h4]]. exists (UO c (v * Q2R (K c n t)) t e'), r'.
  split; [exact h1|]. split; [reflexivity|]. split; [exact h3|]. destruct h4 as [g1 [g2 [g3 g4]]]. repeat split; auto.
  rewrite g2, Rmult_assoc, <- Q2R_mult. apply Qeq_bool_iff, Qeq_eqR in l3. rewrite l3. replace (Q2R 1) with 1 by (q2r; lra). ring.
Qed.
Lemma round_near c n t v u : In n (near_names c) -> In t (near_names c) -> simple u c v n ->
  exists r r' v', unit_convert_to tables0 u t = Ok r /\ un r = t /\ unit_convert_to tables0 r n = Ok r' /\ simple r' c v' n /\ close v' v.
Proof.
  intros hn ht hu.
  destruct (all_pairs_ok (fun c n t => qclose (K c n t * K c t n) 1) near_names c n t) as [l1 [l2 l3]];
    [vm_compute; reflexivity|names_classes|exact hn|exact ht|].
  destruct (in_lin_some _ _ l1) as [q1 k1]. destruct (in_lin_some _ _ l2) as [q2 k2].
  destruct (simple_obj _ _ _ _ hu) as [e [-> he]].
  destruct (convert_lin c n t v e q1 q2 k1 k2 he) as [r [h1 h2]].
  destruct (simple_obj _ _ _ _ h2) as [e' [-> he']].
  destruct (convert_lin c t n (v * Q2R (K c n t)) e' q2 q1 k2 k1 he') as [r' [h3 h4]]. eexists _, r', _.
  split; [exact h1|]. split; [reflexivity|]. split; [exact h3|]. split; [exact h4|].
  rewrite Rmult_assoc, <- Q2R_mult. replace v with (v * Q2R 1) at 2 by (replace (Q2R 1) with 1 by (q2r; lra); ring). apply qclose_ok. exact l3.
Qed.

(** ** C26 *)
Lemma si_exact c n t v u : In n (si_names c) -> In t (si_names c) -> simple u c v n ->
  exists r, unit_convert_to tables0 u t = Ok r /\ simple r c (v * (si n / si t)) t.
Proof.
  intros hn ht hu.
  destruct (all_pairs_ok (fun c n t => match dict_get si_table n, dict_get si_table t with Some x, Some y => Qeq_bool (K c n t * y) x && negb (Qeq_bool y 0) | _, _ => false end)
    si_names c n t) as [l1 [l2 l3]]; [vm_compute; reflexivity|names_classes|exact hn|exact ht|].
  destruct (in_lin_some _ _ l1) as [q1 k1]. destruct (in_lin_some _ _ l2) as [q2 k2].
  destruct (simple_obj _ _ _ _ hu) as [e [-> he]].
  destruct (convert_lin c n t v e q1 q2 k1 k2 he) as [r [h1 h2]]. exists r. split; [exact h1|].
  destruct h2 as [g1 [g2 [g3 g4]]]. repeat split; auto. rewrite g2. f_equal.
  unfold si. destruct (dict_get si_table n) as [x|]; [|discriminate]. destruct (dict_get si_table t) as [y|] eqn:ey; [|discriminate].
  apply andb_true_iff in l3. destruct l3 as [l3 l4]. apply Qeq_bool_iff, Qeq_eqR in l3. rewrite <- l3, Q2R_mult.
  pose proof (si_pos t) as hp. unfold si in hp. rewrite ey in hp. field. lra.
Qed.
Lemma si_near c n t v u : In n (near_si_names c) -> In t (near_si_names c) -> simple u c v n ->
  exists r v', unit_convert_to tables0 u t = Ok r /\ simple r c v' t /\ close v' (v * (si n / si t)).
Proof.
  intros hn ht hu.
  destruct (all_pairs_ok (fun c n t => match dict_get si_table n, dict_get si_table t with Some x, Some y => qclose (K c n t) (x / y) && negb (Qeq_bool y 0) | _, _ => false end)
    near_si_names c n t) as [l1 [l2 l3]]; [vm_compute; reflexivity|names_classes|exact hn|exact ht|].
  destruct (in_lin_some _ _ l1) as [q1 k1]. destruct (in_lin_some _ _ l2) as [q2 k2].
  destruct (simple_obj _ _ _ _ hu) as [e [-> he]].
  destruct (convert_lin c n t v e q1 q2 k1 k2 he) as [r [h1 h2]]. exists r, (v * Q2R (K c n t)). split; [exact h1|]. split; [exact h2|].
  unfold si. destruct (dict_get si_table n) as [x|]; [|discriminate]. destruct (dict_get si_table t) as [y|] eqn:ey; [|discriminate].
  apply andb_true_iff in l3. destruct l3 as [l3 l4]. apply negb_true_iff in l4.
  rewrite <- Q2R_div by (intro h; apply Qeq_bool_iff in h; congruence). apply qclose_ok. exact l3.
Qed.

(** ** C24: temperatures *)
Definition readout (s : tscale) (k : R) : R :=
  match s with TK => k | TC => k - 273.15 | TF => k * 9 / 5 - 459.67 | TR => k * 9 / 5 end.
Lemma kelvin_readout s k : kelvin s (readout s k) = k.
Proof. destruct s; cbn; field. Qed.
Lemma kelvin_inj s x y : kelvin s x = kelvin s y -> x = y.
Proof. destruct s; cbn; intro h; lra. Qed.
Lemma temp_convert s t v u : simple u Temperature v (tname s) ->
  exists r, unit_convert_to tables0 u (tname t) = Ok r /\ simple r Temperature (readout t (kelvin s v)) (tname t).
Proof.
  intro hu. destruct (simple_obj _ _ _ _ hu) as [e [-> he]].
  assert (e1 : npow (T := R) = Rpowq) by reflexivity.
  destruct s, t; cbn [tname];
    match goal with |- exists r, unit_convert_to _ (UO _ _ ?a _) ?b = _ /\ _ =>
      let x := eval compute in (String.eqb a b) in
      match x with
      | true => eexists; split; [reflexivity|]; repeat split; auto; cbn [uv readout kelvin]; field
      | false =>
          unfold unit_convert_to; cbn [un]; change (mem_str a UNIT_COMPOSITES) with false; change (has_char "^" b) with false; cbn iota;
          unfold unit_convert_core; cbn [un uc uv standard];
          repeat match goal with |- context [String.eqb ?p ?q] => let y := eval compute in (String.eqb p q) in change (String.eqb p q) with y end; cbn iota;
          unfold to_val, from_val; cbn [to_standard from_standard tables0];
          repeat match goal with |- context [tab_get ?p ?q] => let f := eval cbv [tab_get to_standard0 from_standard0 dict_get String.eqb Ascii.eqb Bool.eqb] in (tab_get p q) in change (tab_get p q) with f end;
          cbn [bind]; cbv [times over nadd nsub nmul ndiv nq Rnum npow]; cbn [bind];
          rewrite ?ev_e1, ?Rpowq_1; cbn [bind]; rewrite ?ev_e1, ?Rpowq_1; cbn [bind mk_unit];
          eexists; split; [reflexivity|]; repeat split; cbn [uv readout kelvin]; q2r; field
      end
    end.
Qed.
Lemma temp_all s t v u : simple u Temperature v (tname s) ->
  exists r v', unit_convert_to tables0 u (tname t) = Ok r /\ simple r Temperature v' (tname t) /\ kelvin t v' = kelvin s v.
Proof.
  intro hu. destruct (temp_convert s t v u hu) as [r [h1 h2]]. exists r, (readout t (kelvin s v)). split; [exact h1|].
  split; [exact h2|apply kelvin_readout].
Qed.
Lemma temp_back s t v u r : simple u Temperature v (tname s) -> unit_convert_to tables0 u (tname t) = Ok r ->
  exists r', unit_convert_to tables0 r (tname s) = Ok r' /\ simple r' Temperature v (tname s).
Proof.
  intros hu hr. destruct (temp_all s t v u hu) as [r1 [v' [h1 [h2 h3]]]]. rewrite hr in h1. injection h1 as <-.
  destruct (temp_all t s v' r h2) as [r2 [v'' [g1 [g2 g3]]]]. exists r2. split; [exact g1|].
  replace v with v''; [exact g2|]. apply (kelvin_inj s). rewrite g3. exact h3.
Qed.
Lemma temp_path s m t v u r1 r2 r3 : simple u Temperature v (tname s) -> unit_convert_to tables0 u (tname m) = Ok r1 ->
  unit_convert_to tables0 r1 (tname t) = Ok r2 -> unit_convert_to tables0 u (tname t) = Ok r3 ->
  uc r2 = uc r3 /\ uv r2 = uv r3 /\ un r2 = un r3 /\ ev (ue r2) = ev (ue r3).
Proof.
  intros hu h1 h2 h3.
  destruct (temp_all s m v u hu) as [r1' [v1 [g1 [g2 g3]]]]. rewrite h1 in g1. injection g1 as <-.
  destruct (temp_all m t v1 r1 g2) as [r2' [v2 [g4 [g5 g6]]]]. rewrite h2 in g4. injection g4 as <-.
  destruct (temp_all s t v u hu) as [r3' [v3 [g7 [g8 g9]]]]. rewrite h3 in g7. injection g7 as <-.
  destruct g5 as [a1 [a2 [a3 a4]]], g8 as [b1 [b2 [b3 b4]]]. repeat split; try congruence.
  rewrite a2, b2. apply (kelvin_inj t). congruence.
Qed.
