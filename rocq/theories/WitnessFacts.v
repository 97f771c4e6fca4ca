(** * WitnessFacts: concrete evaluations used by examples and refutations *)
From Coq Require Import String Ascii List ZArith QArith Qcanon Bool Reals Qreals Lia Lra.
From Verif Require Import Py Num UnitsData UnitsStruct Units NumFacts Spec SpecFacts StructFacts CombineFacts CancelFacts
  ExpandFacts PrefixFacts SimplifyFacts OpFacts NamesFacts ClosureFacts FactorFacts LawFacts.
Import ListNotations.
Local Open Scope string_scope.
Local Open Scope list_scope.
Local Open Scope R_scope.

Lemma prefixes_eval top bot tp bp : mapM split_prefix top = Ok tp -> mapM split_prefix bot = Ok bp ->
  deconstruct_unit_prefixes (T := R) top bot = Ok (map snd tp, map snd bp, msize pscale top bot).
Proof.
  intros e1 e2. unfold deconstruct_unit_prefixes. rewrite e1, e2. cbn [bind].
  rewrite (loop_scale false top tp _ e1). cbn [bind]. rewrite (loop_scale true bot bp _ e2). cbn [bind]. do 2 f_equal.
  cbn [nq Rnum]. replace (Q2R 1) with 1 by (unfold Q2R; cbn; field). unfold msize, Rdiv. ring.
Qed.
Lemma reduce_eval ct cb top bot tp bp t b : mapM split_prefix top = Ok tp -> mapM split_prefix bot = Ok bp ->
  reduce_tail ct cb (map snd tp) (map snd bp) = Ok (t, b) ->
  reduce (T := R) ct cb top bot = Ok (t, b, msize pscale top bot).
Proof. intros e1 e2 e3. unfold reduce. rewrite (prefixes_eval _ _ _ _ e1 e2). cbn [bind]. rewrite e3. reflexivity. Qed.

Lemma Rpower1 x : 0 < x -> Rpower x 1 = x.
Proof. apply Rpower_1. Qed.
Lemma Rpower_exp1 w n e : positive w -> ev e = qc 1 -> Rpower (w n) (QcR (ev e)) = w n.
Proof. intros h ->. rewrite QcR_qc. apply Rpower_1, h. Qed.
Lemma Rpower_exp2 w n e : positive w -> ev e = qc 2 -> Rpower (w n) (QcR (ev e)) = w n * w n.
Proof.
  intros h ->. rewrite QcR_qc. replace 2 with (1 + 1) by ring. rewrite Rpower_plus, !Rpower_1 by apply h. reflexivity.
Qed.

(** Decision procedures for the name predicates, to check concrete names. *)
Definition admissible_b (n : string) : bool :=
  match n with
  | String c EmptyString => true
  | String c r =>
      negb (existsb (Ascii.eqb c) prefix_letters) || mem_str n ["min"; "cP"; "mol"] ||
      (existsb (Ascii.eqb c) prefix_letters && mem_str r si_symbols)
  | EmptyString => false
  end.
Lemma existsb_letter c l : existsb (Ascii.eqb c) l = true <-> In c l.
Proof.
  rewrite existsb_exists. split.
  - intros [x [hx e]]. apply Ascii.eqb_eq in e. subst. exact hx.
  - intro h. exists c. split; [exact h|apply Ascii.eqb_refl].
Qed.
Lemma admissible_b_ok n : admissible_b n = true -> admissible n.
Proof.
  destruct n as [|c [|d r]]; cbn [admissible_b]; [discriminate| |].
  - intros _. left. eexists. reflexivity.
  - rewrite !orb_true_iff, andb_true_iff, negb_true_iff. intros [[h|h]|[h1 h2]].
    + right. left. exists c, (String d r). split; [reflexivity|]. intro hc. apply existsb_letter in hc. congruence.
    + right. right. left. apply mem_str_In. exact h.
    + right. right. right. exists c, (String d r). split; [apply existsb_letter; exact h1|]. split; [apply mem_str_In; exact h2|reflexivity].
Qed.
Definition adm_half_b (l : half) : bool := forallb (fun x => admissible_b (bname x)) l.
Lemma adm_half_b_ok l : adm_half_b l = true -> adm_half l.
Proof. unfold adm_half_b. rewrite forallb_forall. intros h x hx. apply admissible_b_ok, h, hx. Qed.
Definition unprefixed_b (n : string) : bool :=
  match n with
  | String c EmptyString => true
  | String c r => negb (existsb (Ascii.eqb c) prefix_letters) || mem_str n ["min"; "cP"; "mol"; "kg"]
  | EmptyString => false
  end.
Lemma unprefixed_b_ok n : unprefixed_b n = true -> unprefixed n.
Proof.
  destruct n as [|c [|d r]]; cbn [unprefixed_b]; [discriminate| |].
  - intros _. left. eexists. reflexivity.
  - rewrite !orb_true_iff, negb_true_iff. intros [h|h].
    + right. left. exists c, (String d r). split; [reflexivity|]. intro hc. apply existsb_letter in hc. congruence.
    + right. right. apply mem_str_In. exact h.
Qed.
Lemma unprefixed_half_b_ok l : forallb (fun x => unprefixed_b (bname x)) l = true -> unprefixed_half l.
Proof. rewrite forallb_forall. intros h x hx. apply unprefixed_b_ok, h, hx. Qed.

Ltac adm := apply adm_half_b_ok; vm_compute; reflexivity.
Ltac adm1 := apply admissible_b_ok; vm_compute; reflexivity.

(** Every registered name is admissible, except mile, day, mmHg and the names
    that already carry an exponent. *)
Lemma registry_admissible n c : dict_get UNIT_REGISTRY n = Some c -> has_char "^" n = false ->
  admissible n \/ In n ["mile"; "day"; "mmHg"].
Proof.
  intros h hc. apply dict_get_in in h.
  assert (k : forallb (fun p => has_char "^" (fst p) || admissible_b (fst p) || mem_str (fst p) ["mile"; "day"; "mmHg"]) UNIT_REGISTRY = true)
    by (vm_compute; reflexivity).
  rewrite forallb_forall in k. specialize (k _ h). cbn [fst] in k. rewrite hc in k. cbn [orb] in k. apply orb_true_iff in k.
  destruct k as [k|k]; [left; apply admissible_b_ok; exact k|right; apply mem_str_In; exact k].
Qed.

(** ** Witnesses against the prefix properties *)
Definition ex1 : expo := eflt (qc 1).
Lemma ev_ex1 : QcR (ev ex1) = 1.
Proof. apply QcR_qc. Qed.

Definition pscale_q (n : string) : Q :=
  match n with
  | String c (String _ _) =>
      if mem_str n ["min"; "cP"; "mol"; "kg"] then 1
      else if Ascii.eqb c "m" then 1 # 1000
      else if Ascii.eqb c "c" then 1 # 100
      else if Ascii.eqb c "d" then 1 # 10
      else if Ascii.eqb c "k" then 1000
      else if Ascii.eqb c "M" then 1000000
      else 1
  | _ => 1
  end.
Lemma pscale_eval n : pscale n = Q2R (pscale_q n).
Proof.
  unfold pscale, pscale_q. destruct n as [|c [|d n]]; try (q2r; lra).
  dec_in i.
  - rewrite (proj2 (mem_str_In _ _) i). q2r. lra.
  - destruct (mem_str (String c (String d n)) ["min"; "cP"; "mol"; "kg"]) eqn:e; [exfalso; apply i, mem_str_In, e|].
    repeat match goal with |- context [Ascii.eqb ?a ?b] => destruct (Ascii.eqb a b) end; q2r; lra.
Qed.
Ltac psc n := rewrite (pscale_eval n); let v := eval vm_compute in (pscale_q n) in change (pscale_q n) with v.

Lemma mile_split : deconstruct_unit_prefixes (T := R) [BU "mile" ex1] nil = Ok ([BU "ile" ex1], nil, / 1000).
Proof.
  erewrite prefixes_eval; [|reflexivity|reflexivity]. cbn [map snd]. do 2 f_equal. unfold msize. cbn [usize bname bexp].
  rewrite ev_ex1. rewrite Rpower_1 by apply pscale_pos. psc "mile". q2r. field.
Qed.
Lemma si_ile : si "ile" = 1.
Proof. reflexivity. Qed.
Lemma mile_wrong : / 1000 * msize si [BU "ile" ex1] nil <> msize si [BU "mile" ex1] nil.
Proof.
  unfold msize. cbn [usize bname bexp]. rewrite ev_ex1, !Rpower_1 by apply si_pos. rewrite si_ile.
  si_val "mile" (1609344 # 1000). q2r. lra.
Qed.
Lemma um_kept : deconstruct_unit_prefixes (T := R) [BU "um" ex1] nil = Ok ([BU "um" ex1], nil, 1).
Proof.
  erewrite prefixes_eval; [|reflexivity|reflexivity]. cbn [map snd]. do 2 f_equal. unfold msize. cbn [usize bname bexp].
  rewrite ev_ex1. rewrite Rpower_1 by apply pscale_pos. psc "um". q2r. field.
Qed.

(** One pass leaves the second of two adjacent W. *)
Lemma ww_left : deconstruct_units true [BU "W" ex1; BU "W" ex1] nil =
  Ok ([BU "W" ex1; BU "kg" ex1; BU "m" (eflt (qc 2))], [BU "s" ex1; BU "s" (eflt (qc 2))]).
Proof.
  vm_compute. repeat (f_equal; try (apply Qc_is_canon; reflexivity)).
Qed.
