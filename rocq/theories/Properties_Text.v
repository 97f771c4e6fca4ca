(** * Properties of unit strings, exponent texts and the displayed form
    (C01, C02, C37, C57, C58, C112)

    [numeral], [num_text], [num_val], [unit_text], [unit_reads], [shown] and the
    rest of the notation are defined in TextSpec.v. *)
From Coq Require Import String Ascii List ZArith QArith Qcanon Bool Reals.
From Verif Require Import Py Num UnitsStruct Units TextSpec TextFacts ParseFacts ShowFacts TextPropFacts PrintSpec RedisplayFacts UnitBlankSpec UnitBlankFacts.
Import ListNotations.
Local Open Scope string_scope.
Local Open Scope list_scope.

(** ** C01 *)
Theorem C01_parse_exact : forall c (v : R) top bot, top <> nil -> (forall f, In f (top ++ bot) -> factor_ok f) ->
  exists m, mk_multi c v (unit_text top bot) = Ok m /\ mc m = c /\ mv m = v /\
    map (fun x => (bname x, ev (bexp x))) (mtop m) = map factor_unit top /\
    map (fun x => (bname x, ev (bexp x))) (mbot m) = map factor_unit bot.
Proof. exact parse_exact. Qed.
Print Assumptions C01_parse_exact.
Example C01_case : unit_text case_top case_bot = "kg*m^-1.25/s^2e0" /\ (forall f, In f (case_top ++ case_bot) -> factor_ok f)
  /\ map factor_unit case_top = [("kg", Q2Qc 1); ("m", Q2Qc (-125 # 100))] /\ map factor_unit case_bot = [("s", Q2Qc 2)].
Proof. exact parse_case. Qed.

(** ** C02

    With at most one slash every string is either read as spelled or refused.  The
    full claim would also have strings with several slashes refused; the code
    instead takes them as one half in which / is part of a name. *)
Theorem C02_reject_partial : forall c (v : R) s, s <> "" -> (count_char "/" s <= 1)%nat -> (forall t b, ~ unit_reads s t b) ->
  mk_multi c v s = Raise EValueError \/ mk_multi c v s = Raise Unmodelled.
Proof. exact reject. Qed.
Print Assumptions C02_reject_partial.
Theorem C02_accept_or_raise_partial : forall c (v : R) s, s <> "" ->
  (exists m, mk_multi c v s = Ok m /\ mc m = c /\ mv m = v /\
     ((count_char "/" s <= 1)%nat -> unit_reads s (mtop m) (mbot m)) /\
     ((2 <= count_char "/" s)%nat -> mbot m = nil /\ half_reads s (mtop m))) \/
  mk_multi c v s = Raise EValueError \/ mk_multi c v s = Raise Unmodelled.
Proof. exact accept_or_raise. Qed.
Print Assumptions C02_accept_or_raise_partial.
Example C02_case : forall v : R, mk_multi MMulti v "m^2^3/s" = Raise EValueError /\ mk_multi MMulti v "kg/m^x" = Raise EValueError
  /\ count_char "/" "m^2^3/s" = 1%nat.
Proof. intro v. split; [reflexivity|]. split; reflexivity. Qed.
Theorem C02_refuted : forall c (v : R), exists m, mk_multi c v "m/s/s" = Ok m /\ mtop m = [BU "m/s/s" (eflt (Q2Qc 1))] /\ mbot m = nil.
Proof. exact slashes. Qed.
Print Assumptions C02_refuted.

(** ** C37

    Exact for whole exponents and for those whose first decimal is not 0, for any
    number of factors; factors of the bottom half with a negative exponent are
    shown on top with the opposite exponent.  In general refuted: the decimals are
    dropped as soon as the text contains .0 *)
Theorem C37_display_exact_partial : forall top bot s,
  (forall x, In x (top ++ bot) -> showable x /\ bname x <> "") -> get_unit_string top bot = Ok s ->
  exists ts ns bs, Forall2 shown top ts /\ Forall2 shown_moved (map flip_bu (filter negative bot)) ns /\
    Forall2 shown (filter (fun x => negb (negative x)) bot) bs /\
    s = spaced (ts ++ ns) +++ (match bot with nil => "" | _ => " / " +++ spaced bs end).
Proof. exact unit_string_ok. Qed.
Print Assumptions C37_display_exact_partial.
(** What is displayed determines the exponent. *)
Theorem C37_display_unambiguous : forall n m, num_ok n -> num_ok m -> nexp n = None -> nexp m = None ->
  sup_num n = sup_num m -> (num_val n == num_val m)%Q.
Proof. exact sup_num_inj. Qed.
Print Assumptions C37_display_unambiguous.
(** The exponents that are displayed wrongly, all of them. *)
Theorem C37_decimals_lost : forall e z, expo_wf e -> ~ first_decimal_kept e -> remove_zero e = Ok z ->
  ev z = qc (trunc (ev e)) /\ ev z <> ev e.
Proof. exact remove_zero_lost. Qed.
Print Assumptions C37_decimals_lost.
Theorem C37_refuted : exists e z, expo_wf e /\ ev e = Q2Qc (205 # 100) /\ remove_zero e = Ok z /\ ev z = Q2Qc 2 /\
  get_unit_string [BU "m" e] nil = get_unit_string [BU "m" (eint 2)] nil.
Proof. exact display_lossy. Qed.
Print Assumptions C37_refuted.
Example C37_case : (exists s, get_unit_string [BU "m" (eflt (Q2Qc (5 # 2))); BU "kg" (eint 1)] [BU "s" (eint (-2)); BU "K" (eint 3)] = Ok s)
  /\ showable (BU "m" (eflt (Q2Qc (5 # 2)))) /\ showable (BU "s" (eint (-2))).
Proof.
  split; [eexists; reflexivity|]. split; (split; [intro h; try discriminate h; reflexivity|]).
  - right. cbn. discriminate.
  - left. reflexivity.
Qed.

(** ** C57 *)
Theorem C57_text_roundtrip : forall e s, expo_wf e -> str_expo e = Ok s ->
  py_float s = Ok (ev e) /\ exists n, num_ok n /\ nexp n = None /\ (num_val n == this (ev e))%Q /\ s = num_text n.
Proof. exact (fun e s hw h => conj (float_str e s hw h) (str_expo_numeral e s hw h)). Qed.
Print Assumptions C57_text_roundtrip.
(** float() of any numeral is its value, and only numerals are accepted. *)
Theorem C57_float_exact : (forall n, num_ok n -> py_float (num_text n) = Ok (Q2Qc (num_val n))) /\
  (forall s q, py_float s = Ok q -> number_reads s q).
Proof. exact (conj py_float_numeral py_float_reads). Qed.
Print Assumptions C57_float_exact.
Example C57_case : str_expo (eflt (Q2Qc (-1203 # 400))) = Ok "-3.0075" /\ expo_wf (eflt (Q2Qc (-1203 # 400))) /\ str_expo (eint 1070) = Ok "1070".
Proof. split; [reflexivity|]. split; [intro h; discriminate h|reflexivity]. Qed.

(** ** C58

    Holds for a single unit without exponent; otherwise the blanks and superscripts
    of the displayed form become part of the names. *)
Theorem C58_redisplay_partial : forall c (v : R) n, plain_text n = true -> n <> "" ->
  get_unit_string [BU n (eflt (Q2Qc 1))] nil = Ok n /\ mk_multi c v n = Ok (MO c v [BU n (eflt (Q2Qc 1))] nil).
Proof. exact redisplay. Qed.
Print Assumptions C58_redisplay_partial.
Theorem C58_refuted : exists top bot s, get_unit_string top bot = Ok s /\ top = [BU "mol" (eint 1)] /\ bot = [BU "L" (eint 1); BU "s" (eint 1)] /\
  forall c (v : R), exists m, mk_multi c v s = Ok m /\ map bname (mtop m) = ["mol"] /\ map bname (mbot m) = ["L "; " s"].
Proof. exact redisplay_wrong. Qed.
Print Assumptions C58_refuted.
(** Exactly which units are read back. *)
Theorem C58_exact : forall c (v : R) top bot s, (forall x, In x (top ++ bot) -> plain_text (bname x) = true /\ bname x <> "") ->
  get_unit_string top bot = Ok s ->
  (exists m, mk_multi c v s = Ok m /\ map name_exp (mtop m) = map name_exp top /\ map name_exp (mbot m) = map name_exp bot)
  <-> survives top bot.
Proof. exact (@read_back R). Qed.
Print Assumptions C58_exact.
Example C58_exact_case : get_unit_string [BU "m" (eint 1)] [BU "s" (eint 1)] = Ok "m / s" /\ survives [BU "m" (eint 1)] [BU "s" (eint 1)] /\
  get_unit_string [BU "m" (eint 2)] nil = Ok ("m" +++ sup_num (Numeral None [2%nat] None None)) /\ ~ survives [BU "m" (eint 2)] nil.
Proof. exact read_back_cases. Qed.
Example C58_case : plain_text "kmol" = true.
Proof. reflexivity. Qed.

(** ** C112

    Full statement: blanks in a unit string do not matter.  Those around the whole,
    around the slash and around the number after ^ do not. *)
Theorem C112_around_partial : forall c (v : R) a b d e top bot, top <> nil -> (forall f, In f (top ++ bot) -> wide_ok f) ->
  all_blank a = true -> all_blank b = true -> all_blank d = true -> all_blank e = true ->
  mk_multi c v (wide_unit a b d e top bot) = mk_multi c v (unit_text (map narrow top) (map narrow bot)) /\
  exists m, mk_multi c v (wide_unit a b d e top bot) = Ok m.
Proof. exact wide_unit_read. Qed.
Print Assumptions C112_around_partial.
(** Those around a star become part of the names, whatever the factors. *)
Theorem C112_star_refuted : forall c (v : R) f g, factor_ok f -> factor_ok g -> exists m, mk_multi c v (factor_text f +++ " * " +++ factor_text g) = Ok m /\ mbot m = nil /\
  map (fun x => (bname x, ev (bexp x))) (mtop m) =
  [(fst f +++ (match snd f with None => " " | Some _ => "" end), snd (factor_unit f)); (" " +++ fst g, snd (factor_unit g))].
Proof. exact star_blanks. Qed.
Print Assumptions C112_star_refuted.
Example C112_case : wide_unit " " " " " " "" [("kg", None); ("m", Some (" ", Numeral None [2%nat] None None, ""))] [("s", None)] = " kg*m^ 2 / s" /\
  wide_ok ("m", Some (" ", Numeral None [2%nat] None None, "")) /\ factor_ok ("kg", None) /\
  mk_multi MMulti 1%Q "kg * m" = Ok (MO MMulti 1%Q [BU "kg " (eflt (Q2Qc 1)); BU " m" (eflt (Q2Qc 1))] nil).
Proof.
  split; [reflexivity|]. split; [|split; [split; [discriminate|split; [reflexivity|exact I]]|reflexivity]].
  split; [|split; reflexivity]. split; [discriminate|]. split; [reflexivity|]. cbn. split; [intros d [<-|[]]; apply Nat.leb_le; reflexivity|]. split; [intros d []|]. split; [discriminate|exact I].
Qed.
(** Such names do not cancel, and a blank may make a prefix of the first letter. *)
Theorem C112_division_refuted : exists a b m u, mk_multi MMulti 6%Q "kg * m" = Ok a /\ mk_multi MMulti 6%Q "kg*m" = Ok b /\ mk_multi MMulti 2%Q "m" = Ok m /\
  py_div (VMulti b) (VMulti m) = Ok (VUnit u) /\ un u = "kg" /\ (uv u == 3)%Q /\
  exists r, py_div (VMulti a) (VMulti m) = Ok (VMulti r) /\ (mv r == 3000)%Q /\ map bname (mtop r) = ["g "; " m"] /\ map bname (mbot r) = ["m"].
Proof.
  do 4 eexists. split; [reflexivity|]. split; [reflexivity|]. split; [reflexivity|]. split; [vm_compute; reflexivity|]. split; [reflexivity|]. split; [reflexivity|].
  eexists. split; [vm_compute; reflexivity|]. split; [reflexivity|]. split; reflexivity.
Qed.
Print Assumptions C112_division_refuted.
