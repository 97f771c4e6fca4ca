(** * ExprCases: concrete cases for the operator properties *)
From Coq Require Import String Ascii List ZArith QArith Qcanon Bool Reals Qreals Lia Lra.
From Verif Require Import Py Num UnitsData UnitsStruct Units NumFacts Spec SpecFacts OpFacts ClosureFacts FactorFacts LawFacts WitnessFacts PropFacts OpPropFacts Expr ExprFacts.
Import ListNotations.
Local Open Scope string_scope.
Local Open Scope list_scope.
Local Open Scope R_scope.

Lemma kmps_pos : 0 < mv kmps /\ mv kmps <> 0.
Proof. cbn. lra. Qed.
Lemma kmps_case : adm_multi kmps /\ mv kmps <> 0 /\ coherent si /\ qty si (VMulti kmps) = Some 5000.
Proof.
  split; [exact (proj1 kmps_adm)|]. split; [exact (proj2 kmps_pos)|]. split; [exact coherent_si|].
  destruct kmps_mul as [r [_ [_ [q _]]]]. exact q.
Qed.
Lemma C12_case_ok : unp_multi (MO MMulti 3 [BU "kg" ex1; BU "m" ex1] [BU "min" (eint 2)]) /\ unprefixed "min".
Proof. split; [split; apply unprefixed_half_b_ok; reflexivity|apply unprefixed_b_ok; reflexivity]. Qed.
Lemma C14_case_ok : built (UO Pressure 2 "Pa" (eint 3)) /\
  exists r, py_mul (VUnit (UO Pressure 2 "Pa" (eint 3))) (VUnit (UO Pressure 5 "Pa" (eint (-1)))) = Ok (VUnit r) /\ ev (ue r) = qc 2.
Proof.
  split; [exists 2, "Pa", (eint 3); reflexivity|]. eexists. split; [reflexivity|]. cbn. apply Qc_is_canon. reflexivity.
Qed.
Lemma C15_case_ok : built ft2 /\ uv min3 <> 0.
Proof. split; [apply built_simple; [reflexivity|exact I]|cbn; lra]. Qed.
Lemma C22_case_ok : py_eq (VMulti (MO MMulti 2 [BU "m" ex1; BU "s" (eint 2)] [BU "K" ex1]))
                         (VMulti (MO MMulti 2 [BU "s" (eint 2); BU "m" (eint 1)] [BU "K" ex1])) = true.
Proof. apply multi_eq_char. cbn [mc mv mtop mbot]. split; [reflexivity|]. split; [reflexivity|]. split; vm_compute; reflexivity. Qed.
Lemma C55_case_ok : built min3 /\ ev (ue min3) = qc 1.
Proof. split; [apply built_simple; [reflexivity|exact I]|reflexivity]. Qed.

(** 100 kg * 36 km/hr / 4 m^3. *)
Definition force_over_area : expr :=
  EDiv (EMul (ELeaf (VMulti (MO MMulti 100 [BU "kg" ex1] nil))) (ELeaf (VMulti (MO MMulti 36 [BU "km" ex1] [BU "hr" ex1]))))
       (ELeaf (VMulti (MO MMulti 4 [BU "m" (eint 3)] nil))).
Lemma force_good v : In v (leaves force_over_area) -> good v.
Proof. cbn [leaves force_over_area app]. intros [<-|[<-|[<-|[]]]]; split; adm. Qed.
Lemma si_m : si "m" = 1.
Proof. sival "m". unfold Q2R. cbn. lra. Qed.
Lemma force_case : (forall v, In v (leaves force_over_area) -> good v) /\ clean force_over_area /\
  denotes si force_over_area (100 * (36 * 1000 / 3600) / 4) /\ exists r, eval force_over_area = Ok r.
Proof.
  split; [exact force_good|]. split; [|split].
  - cbn [clean force_over_area]. repeat split; cbn [eval]; intros x y hx hy.
    + injection hx as <-. injection hy as <-. exact I.
    + injection hy as <-. destruct (mul_mm (MO MMulti 100 [BU "kg" ex1] nil) (MO MMulti 36 [BU "km" ex1] [BU "hr" ex1])) as [r [e _]]; [split; adm|split; adm|].
      cbn [bind] in hx. rewrite e in hx. injection hx as <-. exact I.
  - constructor; [constructor| |].
    + constructor. cbn [qty mv mtop mbot]. unfold msize. cbn [usize bname bexp]. rewrite ev_ex1, Rpower1 by apply si_pos.
      sival "kg". unfold Q2R. cbn. f_equal. field.
    + constructor. cbn [qty mv mtop mbot]. unfold msize. cbn [usize bname bexp]. rewrite ev_ex1, !Rpower1 by apply si_pos.
      sival "km". sival "hr". unfold Q2R. cbn. f_equal. field.
    + constructor. cbn [qty mv mtop mbot]. unfold msize. cbn [usize bname bexp]. rewrite si_m. rewrite Rpower_one. f_equal. field.
    + lra.
  - destruct (mul_mm (MO MMulti 100 [BU "kg" ex1] nil) (MO MMulti 36 [BU "km" ex1] [BU "hr" ex1])) as [r [e _]]; [split; adm|split; adm|].
    cbn [eval force_over_area bind]. rewrite e. cbn [bind].
    destruct (div_mm r (MO MMulti 4 [BU "m" (eint 3)] nil)) as [r' [e' _]].
    + refine (good_mul (VMulti _) (VMulti _) (VMulti r) _ _ e); split; adm.
    + split; adm.
    + cbn. lra.
    + eauto.
Qed.
