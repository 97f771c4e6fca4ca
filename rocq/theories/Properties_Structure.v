(** * Properties of the list algorithms behind compound units (C03-C08)

    [usize], [msize], [net], [once], [coherent], [admissible] and [pscale] are
    defined in Spec.v, [root], [rooted], [regular] and [as_split] in PrefixSpec.v,
    [skipped] in PassSpec.v;
    nothing else of the specification is needed to read the statements. *)
From Coq Require Import String Ascii List ZArith QArith Qcanon Bool Reals Qreals Lra.
From Verif Require Import Py Num UnitsData UnitsStruct Units Spec SpecFacts StructFacts PrefixFacts SimplifyFacts OpFacts
  FactorFacts LawFacts WitnessFacts PropFacts PrefixSpec PrefixExact PassSpec PassFacts.
Import ListNotations.
Local Open Scope string_scope.
Local Open Scope list_scope.
Local Open Scope R_scope.

(** ** C03 *)
Theorem C03_combine_exact : forall l,
  (forall n, net n (combine_units l) = net n l) /\
  (forall w, usize w (combine_units l) = usize w l) /\
  once (combine_units l) /\
  map bname (combine_units l) = map bname l.
Proof. exact combine_exact. Qed.
Print Assumptions C03_combine_exact.
Example C03_case : combine_units [BU "m" (eint 2); BU "s" (eint 1); BU "m" (eint 3)]
                 = [BU "m" (eint 0); BU "s" (eint 1); BU "m" (eint 5)].
Proof. vm_compute. repeat (f_equal; try (apply Qc_is_canon; reflexivity)). Qed.

(** ** C04 *)
Theorem C04_cancel_exact : forall top bot t b, cancel_units top bot = (t, b) ->
  (forall n, (net n t - net n b = net n top - net n bot)%Qc) /\
  (forall w, msize w t b = msize w top bot) /\
  (forall u, In u t -> 0 < QcR (ev (bexp u))) /\
  (forall u, In u b -> QcR (ev (bexp u)) <> 0) /\
  (forall u, In u (t ++ b) -> exists v, In v (top ++ bot) /\ bname v = bname u) /\
  (once top -> once bot -> NoDup (map bname (t ++ b))).
Proof. exact cancel_all. Qed.
Print Assumptions C04_cancel_exact.
Example C04_case : cancel_units [BU "m" (eint 2); BU "s" (eint 1)] [BU "s" (eint 3); BU "kg" (eint 1)]
                 = ([BU "m" (eint 2)], [BU "s" (eint 2); BU "kg" (eint 1)])
  /\ once [BU "m" (eint 2); BU "s" (eint 1)].
Proof. exact C04_case_ok. Qed.

(** ** C05

    Holds for all admissible names: every one-letter name, every name not
    starting with m c d k M, min, cP, mol, and every SI-prefixed symbol.  Missing
    from the full claim: mile, day and mmHg, which are split as m-ile, d-ay,
    m-mHg (refuted below), and names with the prefix u, which is left in place. *)
Theorem C05_prefix_exact_partial : forall top bot, adm_half top -> adm_half bot ->
  exists t b f, deconstruct_unit_prefixes top bot = Ok (t, b, f) /\
    f = msize pscale top bot /\ 0 < f /\
    map bexp t = map bexp top /\ map bexp b = map bexp bot /\
    unprefixed_half t /\ unprefixed_half b /\
    forall w, coherent w -> f * msize w t b = msize w top bot.
Proof. exact prefix_exact. Qed.
Print Assumptions C05_prefix_exact_partial.
Example C05_case : adm_half [BU "kJ" (eint 2); BU "mol" (eint 1)] /\ adm_half [BU "cm" (eflt (Q2Qc (1 # 2))); BU "kg" (eint 1)]
  /\ coherent si.
Proof. exact C05_case_ok. Qed.

(** The names covered: all registered names but three (and those that contain ^). *)
Theorem C05_registered_names : forall n c, dict_get UNIT_REGISTRY n = Some c -> has_char "^" n = false ->
  admissible n \/ In n ["mile"; "day"; "mmHg"].
Proof. exact registry_admissible. Qed.
Print Assumptions C05_registered_names.

Theorem C05_mile_refuted : exists top t b f, dict_get UNIT_REGISTRY "mile" = Some Length /\
  top = [BU "mile" (eflt (qc 1))] /\ deconstruct_unit_prefixes top nil = Ok (t, b, f) /\
  f * msize si t b <> msize si top nil.
Proof. exact mile_refuted. Qed.
Print Assumptions C05_mile_refuted.
Theorem C05_micro_refuted : exists top t b f, top = [BU "um" (eflt (qc 1))] /\
  deconstruct_unit_prefixes top nil = Ok (t, b, f) /\ t = top /\ f = 1.
Proof. exact micro_refuted. Qed.
Print Assumptions C05_micro_refuted.

(** All names: what is returned, what it denotes, and for one unit exactly when
    that is the original. *)
Theorem C05_actual : forall top bot,
  ((forall x, In x (top ++ bot) -> bname x <> EmptyString) ->
     deconstruct_unit_prefixes top bot = Ok (rooted top, rooted bot, msize pscale top bot)) /\
  ((exists x, In x (top ++ bot) /\ bname x = EmptyString) ->
     deconstruct_unit_prefixes (T := R) top bot = Raise EIndexError).
Proof. exact prefix_actual. Qed.
Print Assumptions C05_actual.
Theorem C05_actual_denotes : forall w top bot, positive w ->
  msize pscale top bot * msize w (rooted top) (rooted bot) = msize (as_split w) top bot.
Proof. exact prefix_denotes. Qed.
Print Assumptions C05_actual_denotes.
Theorem C05_regular_exact : forall w top bot, (forall x, In x (top ++ bot) -> regular w (bname x)) ->
  msize (as_split w) top bot = msize w top bot.
Proof. exact prefix_all. Qed.
Print Assumptions C05_regular_exact.
Theorem C05_one_exact_iff : forall w x, positive w -> bname x <> EmptyString -> exists t f,
  deconstruct_unit_prefixes [x] nil = Ok (t, nil, f) /\
  (f * msize w t nil = msize w [x] nil <-> regular w (bname x) \/ ev (bexp x) = 0%Qc).
Proof. exact prefix_one. Qed.
Print Assumptions C05_one_exact_iff.
Example C05_actual_case :
  rooted [BU "mile" (eint 1); BU "kJ" (eint 2); BU "kg" (eint 1); BU "um" (eint 1); BU "day" (eint 1)]
    = [BU "ile" (eint 1); BU "J" (eint 2); BU "kg" (eint 1); BU "um" (eint 1); BU "ay" (eint 1)]
  /\ regular si "kJ" /\ regular si "kg".
Proof. exact roots_case. Qed.

(** ** C06 *)
Theorem C06_expand_exact : forall top bot, exists t b,
  deconstruct_units false top bot = Ok (t, b) /\
  (forall w, coherent w -> msize w t b = msize w top bot) /\
  (forall u, In u (t ++ b) -> ~ In (bname u) derived_names).
Proof. exact decon_all. Qed.
Print Assumptions C06_expand_exact.
Example C06_case : exists t b, deconstruct_units false [BU "W" (eint 2); BU "Pa" (eint 1)] [BU "V" (eint 1)] = Ok (t, b)
  /\ List.length t = 5%nat /\ List.length b = 6%nat.
Proof. eexists. eexists. vm_compute. auto. Qed.

(** ** C07

    The full claim (every derived unit given is expanded) fails: an element
    directly after an expanded one is skipped. *)
Theorem C07_one_pass_partial : forall top bot, exists t b,
  deconstruct_units true top bot = Ok (t, b) /\
  (forall w, coherent w -> msize w t b = msize w top bot) /\
  (* no derived unit but J is left when, in each half, only J may directly follow a derived unit *)
  ((forall l i x y, In l [top; bot] -> nth_error l i = Some x -> nth_error l (S i) = Some y ->
      In (bname x) derived_names -> In (bname y) derived_names -> bname y = "J") ->
   forall u, In u (t ++ b) -> In (bname u) derived_names -> bname u = "J") /\
  (* nothing is left when there is no W and no two derived units are adjacent *)
  ((forall u, In u (top ++ bot) -> bname u <> "W") ->
   (forall l i x y, In l [top; bot] -> nth_error l i = Some x -> nth_error l (S i) = Some y ->
      In (bname x) derived_names -> ~ In (bname y) derived_names) ->
   forall u, In u (t ++ b) -> ~ In (bname u) derived_names).
Proof. exact one_pass_all. Qed.
Print Assumptions C07_one_pass_partial.
Theorem C07_one_pass_refuted : exists top t b, deconstruct_units true top nil = Ok (t, b) /\
  top = [BU "W" (eflt (qc 1)); BU "W" (eflt (qc 1))] /\ In (BU "W" (eflt (qc 1))) t.
Proof. exact one_pass_refuted. Qed.
Print Assumptions C07_one_pass_refuted.
(** Exactly what is left: of every run of adjacent derived units the second,
    fourth, … (J aside, which may also come from a W). *)
Theorem C07_left_exact : forall top bot, exists t b, deconstruct_units true top bot = Ok (t, b) /\
  filter not_J (filter is_derived t) = filter not_J (skipped top) /\
  filter not_J (filter is_derived b) = filter not_J (skipped bot) /\
  ((forall u, In u (top ++ bot) -> bname u <> "W") -> filter is_derived t = skipped top /\ filter is_derived b = skipped bot).
Proof. exact pass_exact. Qed.
Print Assumptions C07_left_exact.
Theorem C07_complete_iff : forall top bot, (forall u, In u (top ++ bot) -> bname u <> "W") -> exists t b,
  deconstruct_units true top bot = Ok (t, b) /\
  ((forall u, In u (t ++ b) -> ~ In (bname u) derived_names) <->
   (forall l i x y, In l [top; bot] -> nth_error l i = Some x -> nth_error l (S i) = Some y ->
      In (bname x) derived_names -> ~ In (bname y) derived_names)).
Proof. exact pass_clean. Qed.
Print Assumptions C07_complete_iff.
Example C07_left_case :
  skipped [BU "W" (eint 1); BU "Pa" (eint 1); BU "V" (eint 2); BU "m" (eint 1); BU "J" (eint 1); BU "C" (eint 3)]
  = [BU "Pa" (eint 1); BU "C" (eint 3)].
Proof. exact pass_case. Qed.

(** ** C08 *)
Theorem C08_simplify_exact : forall top bot, exists t b,
  simplify_units top bot = Ok (t, b) /\
  forall w, coherent w -> msize w t b = msize w top bot.
Proof. exact simplify_all. Qed.
Print Assumptions C08_simplify_exact.
Example C08_case : simplify_units [BU "kg" ex1; BU "m" (eflt (qc 2))] [BU "s" (eflt (qc 3))]
  = Ok ([BU "W" ex1], nil).
Proof. vm_compute. repeat (f_equal; try (apply Qc_is_canon; reflexivity)). Qed.
