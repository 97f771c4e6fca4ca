(** * PropFacts: the property statements assembled from the lemmas *)
From Coq Require Import String Ascii List ZArith QArith Qcanon Bool Reals Qreals Lia Lra.
From Verif Require Import Py Num UnitsData UnitsStruct Units NumFacts Spec SpecFacts StructFacts CombineFacts CancelFacts
  ExpandFacts PrefixFacts SimplifyFacts OpFacts NamesFacts ClosureFacts FactorFacts LawFacts WitnessFacts.
Import ListNotations.
Local Open Scope string_scope.
Local Open Scope list_scope.
Local Open Scope R_scope.

Lemma combine_exact l : (forall n, net n (combine_units l) = net n l) /\
  (forall w, usize w (combine_units l) = usize w l) /\
  once (combine_units l) /\ map bname (combine_units l) = map bname l.
Proof.
  split; [intro n; apply net_combine|]. split; [intro w; apply usize_combine|]. split; [apply once_combine|apply combine_names].
Qed.
Ltac qcomp := vm_compute; repeat (f_equal; try (apply Qc_is_canon; reflexivity)).
Lemma C04_case_ok : cancel_units [BU "m" (eint 2); BU "s" (eint 1)] [BU "s" (eint 3); BU "kg" (eint 1)]
                 = ([BU "m" (eint 2)], [BU "s" (eint 2); BU "kg" (eint 1)])
  /\ once [BU "m" (eint 2); BU "s" (eint 1)].
Proof.
  split; [qcomp|]. intros i j u v hij hi hj hn. exfalso.
  destruct i as [|[|i]], j as [|[|j]]; cbn in *; try congruence.
  all: try (destruct i; discriminate); try (destruct j; discriminate).
  all: injection hi as <-; injection hj as <-; discriminate.
Qed.
Lemma prefix_exact top bot : adm_half top -> adm_half bot ->
  exists t b f, deconstruct_unit_prefixes top bot = Ok (t, b, f) /\
    f = msize pscale top bot /\ 0 < f /\
    map bexp t = map bexp top /\ map bexp b = map bexp bot /\
    unprefixed_half t /\ unprefixed_half b /\
    forall w, coherent w -> f * msize w t b = msize w top bot.
Proof.
  intros h1 h2. destruct (prefixes_ok si top bot coherent_si h1 h2) as [t [b [f [e [hf [_ [u1 u2]]]]]]].
  exists t, b, f. split; [exact e|]. split; [exact (factor_value _ _ _ _ _ e)|]. split; [exact hf|].
  destruct (prefixes_exps _ _ _ _ _ e) as [e1 e2]. repeat (split; [assumption|]).
  intros w hw. destruct (prefixes_ok w top bot hw h1 h2) as [t' [b' [f' [e' [_ [hm _]]]]]].
  rewrite e in e'. injection e' as <- <- <-. exact hm.
Qed.
Lemma C05_case_ok : adm_half [BU "kJ" (eint 2); BU "mol" (eint 1)] /\ adm_half [BU "cm" (eflt (Q2Qc (1 # 2))); BU "kg" (eint 1)]
  /\ coherent si.
Proof. split; [adm|]. split; [adm|]. exact coherent_si. Qed.
Lemma mile_refuted : exists top t b f, dict_get UNIT_REGISTRY "mile" = Some Length /\
  top = [BU "mile" (eflt (qc 1))] /\ deconstruct_unit_prefixes top nil = Ok (t, b, f) /\
  f * msize si t b <> msize si top nil.
Proof.
  eexists _, _, _, _. split; [reflexivity|]. split; [reflexivity|]. split; [exact mile_split|]. exact mile_wrong.
Qed.
Lemma micro_refuted : exists top t b f, top = [BU "um" (eflt (qc 1))] /\
  deconstruct_unit_prefixes top nil = Ok (t, b, f) /\ t = top /\ f = 1.
Proof. eexists _, _, _, _. split; [reflexivity|]. split; [exact um_kept|]. auto. Qed.
Lemma one_pass_all top bot : exists t b,
  deconstruct_units true top bot = Ok (t, b) /\
  (forall w, coherent w -> msize w t b = msize w top bot) /\
  ((forall l i x y, In l [top; bot] -> nth_error l i = Some x -> nth_error l (S i) = Some y ->
      In (bname x) derived_names -> In (bname y) derived_names -> bname y = "J") ->
   forall u, In u (t ++ b) -> In (bname u) derived_names -> bname u = "J") /\
  ((forall u, In u (top ++ bot) -> bname u <> "W") ->
   (forall l i x y, In l [top; bot] -> nth_error l i = Some x -> nth_error l (S i) = Some y ->
      In (bname x) derived_names -> ~ In (bname y) derived_names) ->
   forall u, In u (t ++ b) -> ~ In (bname u) derived_names).
Proof.
  destruct (decon_once_all top bot) as [t [b [e h]]]. exists t, b. split; [exact e|]. split; [exact h|]. split.
  - exact (one_pass_J top bot t b e).
  - exact (one_pass_noW top bot t b e).
Qed.
Lemma one_pass_refuted : exists top t b, deconstruct_units true top nil = Ok (t, b) /\
  top = [BU "W" (eflt (qc 1)); BU "W" (eflt (qc 1))] /\ In (BU "W" (eflt (qc 1))) t.
Proof. eexists _, _, _. split; [exact ww_left|]. split; [reflexivity|]. left. reflexivity. Qed.
Lemma simplify_all top bot : exists t b, simplify_units top bot = Ok (t, b) /\
  forall w, coherent w -> msize w t b = msize w top bot.
Proof.
  destruct (simplify_ok top bot) as [t [b [e l]]]. exists t, b. split; [exact e|]. intros w hw. apply lin_msize; auto.
Qed.
