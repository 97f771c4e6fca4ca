(** * KindCases: results compared with texts *)
From Coq Require Import String List ZArith QArith Qcanon Bool Reals.
From Verif Require Import Py Num UnitsData UnitsStruct Units FloatSpec KindSpec KindFacts.
Import ListNotations.
Local Open Scope string_scope.
Local Open Scope list_scope.

Lemma text_floats (c : mcls) (v : R) s m : mk_multi c v s = Ok m -> floats_only (parts (VMulti m)).
Proof.
  unfold mk_multi. destruct (String.eqb s ""); [intro h; injection h as <-; intros x []|]. destruct (parse_units s) as [[t b]|] eqn:e; [|discriminate].
  intro h. injection h as <-. exact (parse_floats _ _ _ e).
Qed.
Lemma pow_kinds (a : multi_obj R) k r : floats_only (parts (VMulti a)) -> py_pow (VMulti a) k = Ok r -> float_kinds (parts r).
Proof.
  intros h e. cbn [py_pow] in e. unfold multi_pow in e. destruct (reduce_tail true true _ _) as [[t b]|] eqn:er; [|discriminate]. cbn [bind] in e.
  destruct (npow _ _); [|discriminate]. injection e as <-. cbn [parts mtop mbot fst snd] in *.
  assert (g : forall l, floats_only l -> float_kinds (scale_half k l)) by (intros l hl; apply scale_kinds; [intros x hx; left; apply hl, hx|right; exact hl]).
  assert (ht : floats_only (mtop a)) by (intros x hx; apply h, in_app_iff; tauto). assert (hb : floats_only (mbot a)) by (intros x hx; apply h, in_app_iff; tauto).
  destruct (tail_kinds _ _ _ _ _ _ (g _ ht) (g _ hb) er) as [k1 k2]. apply kinds_app; assumption.
Qed.
Lemma result_text (a b : pyval R) r c v s m : multi_with_unit a b -> float_kinds (parts a) -> float_kinds (parts b) ->
  py_mul a b = Ok (VMulti r) \/ py_div a b = Ok (VMulti r) -> (forall x k, In x (mtop r ++ mbot r) -> ev (bexp x) <> qc (100 * k)) -> mk_multi c v s = Ok m ->
  (py_eq (VMulti r) (VMulti m) = true <-> mc r = mc m /\ mv r = mv m /\ same_units (mtop r) (mtop m) /\ same_units (mbot r) (mbot m)).
Proof.
  intros w ha hb h hr hm. apply equal_floats; [|exact (text_floats _ _ _ _ hm)].
  assert (k : float_kinds (parts (VMulti r))) by (destruct h as [h|h]; [exact (mul_kinds _ _ _ w ha hb h)|exact (div_kinds _ _ _ w ha hb h)]).
  intros x hx. destruct (k x hx) as [f|[n e]]; [exact f|]. exfalso. exact (hr x n hx e).
Qed.

Lemma same_refl_names l l' : map bname l = map bname l' -> map (fun x => ev (bexp x)) l = map (fun x => ev (bexp x)) l' -> same_units l l'.
Proof.
  revert l'. induction l as [|x l IH]; intros [|y l'] h k; try discriminate; [intros n e; reflexivity|]. cbn in h, k. injection h as h1 h2. injection k as k1 k2.
  specialize (IH l' h2 k2). intros n e. specialize (IH n e). split; intros (z & [<-|hz] & q).
  - exists y. split; [left; reflexivity|]. rewrite <- h1, <- k1. exact q.
  - destruct (proj1 IH (ex_intro _ z (conj hz q))) as (u & hu & qu). exists u. split; [right|]; assumption.
  - exists x. split; [left; reflexivity|]. rewrite h1, k1. exact q.
  - destruct (proj2 IH (ex_intro _ z (conj hz q))) as (u & hu & qu). exists u. split; [right|]; assumption.
Qed.
Ltac canonical := vm_compute; repeat (f_equal; try (apply Qc_is_canon; reflexivity)).
(** 3 kg times (2 m * 2 m). *)
Lemma square_differs : exists (u : unit_obj Q) sq k p c, mk_unit Length 2 "m" (eint 1) = Ok u /\ py_mul (VUnit u) (VUnit u) = Ok sq /\ mk_multi MMulti 3 "kg" = Ok k /\
  py_mul (VMulti k) sq = Ok (VMulti p) /\ mk_multi MMulti 12 "kg*m^2" = Ok c /\
  mc p = mc c /\ mv p == mv c /\ same_units (mtop p) (mtop c) /\ same_units (mbot p) (mbot c) /\ py_eq (VMulti p) (VMulti c) = false.
Proof.
  do 5 eexists. split; [vm_compute; reflexivity|]. split; [vm_compute; reflexivity|]. split; [vm_compute; reflexivity|]. split; [vm_compute; reflexivity|].
  split; [vm_compute; reflexivity|]. split; [reflexivity|]. split; [reflexivity|]. split; [apply same_refl_names; canonical|]. split; [apply same_refl_names; canonical|]. vm_compute. reflexivity.
Qed.
(** J^50 squared. *)
Lemma hundred_differs : exists a p c : multi_obj Q, mk_multi MMulti 2 "J^50" = Ok a /\ py_mul (VMulti a) (VMulti a) = Ok (VMulti p) /\ mk_multi MMulti 4 "J^100" = Ok c /\
  mc p = mc c /\ mv p == mv c /\ same_units (mtop p) (mtop c) /\ same_units (mbot p) (mbot c) /\ py_eq (VMulti p) (VMulti c) = false.
Proof.
  do 3 eexists. split; [vm_compute; reflexivity|]. split; [vm_compute; reflexivity|]. split; [vm_compute; reflexivity|]. split; [reflexivity|]. split; [reflexivity|].
  split; [apply same_refl_names; canonical|]. split; [apply same_refl_names; canonical|]. vm_compute. reflexivity.
Qed.
(** 2 W/m^2 times 3 m/K. *)
Lemma result_case : exists a b p c : multi_obj Q, mk_multi MMulti 2 "W/m^2" = Ok a /\ mk_multi MMulti 3 "m/K" = Ok b /\ py_mul (VMulti a) (VMulti b) = Ok (VMulti p) /\
  mk_multi MMulti 6 "kg*m/K*s^3" = Ok c /\ py_eq (VMulti p) (VMulti c) = true.
Proof. do 4 eexists. split; [vm_compute; reflexivity|]. split; [vm_compute; reflexivity|]. split; [vm_compute; reflexivity|]. split; [vm_compute; reflexivity|]. vm_compute. reflexivity. Qed.
Lemma mixed_case : combine_units [BU "m" (eflt (qc 2)); BU "s" (eint 2); BU "m" (eint 1)] = [BU "m" (eint 0); BU "s" (eint 2); BU "m" (eflt (qc 3))].
Proof. canonical. Qed.
