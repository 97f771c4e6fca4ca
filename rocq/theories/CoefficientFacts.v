(** * CoefficientFacts: heat transfer coefficients *)
From Coq Require Import String Ascii List ZArith QArith Qcanon Bool Reals Qreals Lia Lra.
From Verif Require Import Py Num UnitsData UnitsStruct Units NumFacts Spec SpecFacts StructFacts
  OpFacts NamesFacts ClosureFacts FactorFacts LawFacts WitnessFacts PropFacts OpPropFacts Solve Formulas Correlations FormulaSpec TransferSpec SemFacts SymFacts SweepFacts SimFacts ParamFacts DimlessFacts ProbeFacts DenoteFacts ConvSpec ConvLaws ConvDims ConvTotal ConvCases.
Import ListNotations.
Local Open Scope string_scope.
Local Open Scope list_scope.
Local Open Scope R_scope.

(** ** Powers of numbers *)
Lemma qcr q : QcR (Q2Qc q) = Q2R q.
Proof. unfold QcR. apply Qeq_eqR. cbn [this]. apply Qred_correct. Qed.
Lemma pow_number x q : 0 < x -> (opow (Ok (VNum x)) (eflt (Q2Qc q))) = Ok (VNum (Rpower x (Q2R q))).
Proof. intro h. unfold opow. cbn [bind py_pow eflt ev npow Rnum]. rewrite Rpowq_pos by exact h. cbn [rmap]. rewrite qcr. reflexivity. Qed.
Lemma q2 : Q2R (1 # 2) = 1 / 2. Proof. unfold Q2R. cbn. lra. Qed.
Lemma q3 : Q2R (1 # 3) = 1 / 3. Proof. unfold Q2R. cbn. lra. Qed.
Lemma q4 : Q2R (1 # 4) = 1 / 4. Proof. unfold Q2R. cbn. lra. Qed.
Lemma q45 : Q2R (4 # 5) = 0.8. Proof. unfold Q2R. cbn. lra. Qed.
Lemma q310 : Q2R (3 # 10) = 0.3. Proof. unfold Q2R. cbn. lra. Qed.
Lemma q52 : Q2R (52 # 100) = 0.52. Proof. unfold Q2R. cbn. lra. Qed.
Lemma q7 : Q2R (7 # 10) = 0.7. Proof. unfold Q2R. cbn. lra. Qed.
Lemma q14 : Q2R (14 # 100) = 0.14. Proof. unfold Q2R. cbn. lra. Qed.

(** ** (Nu * k) / L *)
Definition h_of (n : R) (k L : val) : res val := ((Ok (VNum n) * Ok k) / Ok L)%py.
Lemma table_nu f nu : In (f, nu) nusselt_table -> forall Re Pr psi L k, 0 < Re -> 0 < Pr -> f (VNum Re) (VNum Pr) L k (VNum psi) = h_of (nu Re Pr psi) k L.
Proof.
  intros hi Re Pr psi L k h1 h2. cbn [nusselt_table In] in hi.
  repeat destruct hi as [hi|hi]; try contradiction; injection hi as <- <-;
    unfold htc_open_field_turbulent_avg, htc_open_field_turbulent_local, htc_pipe_turbulent, htc_cross_cylinder, htc_cross_sphere, third_, half_;
    rewrite ?pow_number by assumption; rewrite ?q2, ?q3, ?q45, ?q310, ?q52; unfold omul, osub, oadd; cbn [bind py_mul py_sub py_add nmul nsub nadd Rnum]; reflexivity.
Qed.
Definition f_h := FDiv (FMul (FVar 0) (FVar 1)) (FVar 2).
Definition h_sys (p l th : string) : bool :=
  osys [Ok (VNum 1%Q); qmulti "ThermalConductivity" 1 (p +++ l +++ "*" +++ th); qsimple Length 1 l] f_h (in_unit (p +++ l +++ "^2*" +++ th)).
Lemma h_sweep : forallb (fun p => forallb (fun l => forallb (h_sys p l) temperatures) lengths) powers = true.
Proof. vm_compute. reflexivity. Qed.
Lemma h_units p l th n (k L : R) vk vL : In p powers -> In l lengths -> In th temperatures ->
  multi "ThermalConductivity" k (p +++ l +++ "*" +++ th) = Ok vk -> simple Length L l = Ok vL -> L <> 0 ->
  exists r, h_of n vk vL = Ok r /\ value r = n * k / L /\ denotes r (n * k / L) (p +++ l +++ "^2*" +++ th).
Proof.
  intros hp hl ht h1 h2 hz. pose proof (sweep3 _ _ _ _ _ _ _ h_sweep hp hl ht) as hs.
  assert (hm : qmakes_all [Ok (VNum 1%Q); qmulti "ThermalConductivity" 1 (p +++ l +++ "*" +++ th); qsimple Length 1 l] [VNum n; vk; vL] [n; k; L]) by qmake.
  destruct (denotes_run _ _ _ _ _ hm hs) as [r [e [v d]]]; [cbn; tauto|]. exists r. split; [exact e|]. split; [exact v|exact d].
Qed.
Lemma htc_units f nu p l th (Re Pr psi k L : R) vk vL : In (f, nu) nusselt_table -> In p powers -> In l lengths -> In th temperatures ->
  multi "ThermalConductivity" k (p +++ l +++ "*" +++ th) = Ok vk -> simple Length L l = Ok vL -> 0 < Re -> 0 < Pr -> L <> 0 ->
  exists r, f (VNum Re) (VNum Pr) vL vk (VNum psi) = Ok r /\ value r = nu Re Pr psi * k / L /\ denotes r (nu Re Pr psi * k / L) (p +++ l +++ "^2*" +++ th).
Proof. intros hf hp hl ht h1 h2 hR hP hz. rewrite (table_nu f nu hf) by assumption. eapply h_units; eassumption. Qed.

(** ** Prefixed units as well *)
Lemma h_quantity n (k : multi_obj R) (L : unit_obj R) : adm_multi k -> admissible (un L) -> uv L <> 0 ->
  exists r, h_of n (VMulti k) (VUnit L) = Ok r /\
  forall w x y, coherent w -> qty w (VMulti k) = Some x -> qty w (VUnit L) = Some y -> qty w r = Some (n * x / y).
Proof.
  intros hk hL hz. unfold h_of, omul, odiv. cbn [bind py_mul multi_rmul nmul Rnum].
  destruct (div_mu (MO MMulti (n * mv k) (mtop k) (mbot k)) L hk hL hz) as [r [e h]]. exists r. split; [exact e|].
  intros w x y hw hx hy. apply h; [exact hw| |exact hy]. cbn [qty mv mtop mbot] in *. injection hx as <-. f_equal. ring.
Qed.
Lemma htc_quantity f nu Re Pr psi (k : multi_obj R) (L : unit_obj R) : In (f, nu) nusselt_table -> 0 < Re -> 0 < Pr ->
  adm_multi k -> admissible (un L) -> uv L <> 0 ->
  exists r, f (VNum Re) (VNum Pr) (VUnit L) (VMulti k) (VNum psi) = Ok r /\
  forall w x y, coherent w -> qty w (VMulti k) = Some x -> qty w (VUnit L) = Some y -> qty w r = Some (nu Re Pr psi * x / y).
Proof. intros hf hR hP hk hL hz. rewrite (table_nu f nu hf) by assumption. apply h_quantity; assumption. Qed.

(** ** Any units: proportional to the Nusselt number *)
Lemma h_scale n k L r : h_of n k L = Ok r -> 0 < value k -> 0 < value L -> exists s, 0 < s /\ value r = n * s /\ forall n', exists r', h_of n' k L = Ok r' /\ same_unit r r' /\ value r' = n' * s.
Proof.
  intros h hk hL. unfold h_of, omul, odiv in *. cbn [bind] in *. apply bind_ok in h. destruct h as [a [ha h]].
  assert (ck : carries k) by (apply nz_carries; lra). assert (cL : carries L) by (apply nz_carries; lra).
  destruct (mul_ok _ _ _ ha) as [c [s [ps [hc [ea ga]]]]]. cbn [value] in *. specialize (hc I ck).
  destruct (div_ok _ _ _ cL h) as [d [t [pt [hd [nz [er gr]]]]]].
  assert (ca : carries a) by (rewrite ea; apply carries_setv; exact hc). specialize (hd ca cL).
  exists (value k * s / value L * t). split; [|split].
  - repeat apply Rmult_lt_0_compat; try assumption. apply Rinv_0_lt_compat. exact hL.
  - rewrite er, value_setv by exact hd. rewrite ea, value_setv by exact hc. field. lra.
  - intro n'. specialize (ga n' (value k)). rewrite setv_value in ga. change (setv (VNum n) n') with (VNum n') in ga. rewrite ga. cbn [bind].
    specialize (gr (n' * value k * s) (value L) nz). rewrite setv_value in gr. rewrite ea, setv_setv in gr. rewrite gr. eexists. split; [reflexivity|]. split.
    + rewrite er. apply setv_same. exact hd.
    + rewrite value_setv by exact hd. field. lra.
Qed.
Lemma Rpower_inc x y q : 0 < x -> x < y -> 0 < q -> Rpower x q < Rpower y q.
Proof. intros h1 h2 h3. unfold Rpower. apply exp_increasing. apply Rmult_lt_compat_l; [exact h3|]. apply ln_increasing; assumption. Qed.
Lemma nu_increasing f nu Re Re' Pr psi : In (f, nu) nusselt_table -> 0 < Re -> Re < Re' -> 0 < Pr -> 0 < psi -> nu Re Pr psi < nu Re' Pr psi.
Proof.
  intros hf h1 h2 h3 h4. cbn [nusselt_table In] in hf.
  assert (p8 : Rpower Re 0.8 < Rpower Re' 0.8) by (apply Rpower_inc; lra).
  assert (p5 : Rpower Re 0.52 < Rpower Re' 0.52) by (apply Rpower_inc; lra).
  assert (p2 : Rpower Re (1 / 2) < Rpower Re' (1 / 2)) by (apply Rpower_inc; lra).
  assert (o3 : 0 < Rpower Pr (1 / 3)) by apply exp_pos. assert (o4 : 0 < Rpower Pr 0.3) by apply exp_pos.
  assert (o5 : 0 < Rpower Pr (1 / 3) * psi) by (apply Rmult_lt_0_compat; assumption).
  repeat destruct hf as [hf|hf]; try contradiction; injection hf as <- <-.
  - pose proof (Rmult_lt_compat_r _ _ _ o5 p8). lra.
  - pose proof (Rmult_lt_compat_r _ _ _ o5 p8). lra.
  - pose proof (Rmult_lt_compat_r _ _ _ o5 p8). lra.
  - pose proof (Rmult_lt_compat_r _ _ _ o4 p5). lra.
  - pose proof (Rmult_lt_compat_r _ _ _ o3 p2). lra.
Qed.
Lemma htc_increasing f nu Re Re' Pr psi k L r : In (f, nu) nusselt_table -> 0 < Re -> Re < Re' -> 0 < Pr -> 0 < psi -> 0 < value k -> 0 < value L ->
  f (VNum Re) (VNum Pr) L k (VNum psi) = Ok r -> exists r', f (VNum Re') (VNum Pr) L k (VNum psi) = Ok r' /\ same_unit r r' /\ value r < value r'.
Proof.
  intros hf h1 h2 h3 h4 hk hL h. rewrite (table_nu f nu hf) in h by assumption.
  destruct (h_scale _ _ _ _ h hk hL) as [s [ps [e g]]]. destruct (g (nu Re' Pr psi)) as [r' [e1 [e2 e3]]].
  exists r'. rewrite (table_nu f nu hf) by lra. split; [exact e1|]. split; [exact e2|]. rewrite e, e3. apply Rmult_lt_compat_r; [exact ps|].
  eapply nu_increasing; eassumption.
Qed.
(** Outside its range the averaged turbulent correlation is negative. *)
Lemma rpow_nat x y n : 0 < x -> y = INR n -> Rpower x y = x ^ n.
Proof. intros h ->. apply Rpower_pow. exact h. Qed.
Lemma pow_10_4 : Rpower 100000 0.8 = 10000.
Proof.
  replace 100000 with (Rpower 10 5) by (rewrite (rpow_nat 10 5 5) by (cbn; lra); lra).
  rewrite Rpower_mult. replace (5 * 0.8) with 4 by lra. rewrite (rpow_nat 10 4 4) by (cbn; lra). lra.
Qed.
Lemma turbulent_negative k L : 0 < k -> 0 < L -> exists vk vL r, multi "ThermalConductivity" k "W/m*K" = Ok vk /\ simple Length L "m" = Ok vL /\ htc_open_field_turbulent_avg (VNum 100000) (VNum 1) vL vk (VNum 1) = Ok r /\ value r < 0.
Proof.
  intros hk hL. destruct (multi "ThermalConductivity" k "W/m*K") as [vk|] eqn:ek; [|vm_compute in ek; discriminate].
  destruct (htc_units htc_open_field_turbulent_avg _ "W/" "m" "K" 100000 1 1 k L vk (VUnit (UO Length L "m" (eint 1))) (or_introl eq_refl)) as [r [e [v _]]];
    try (left; reflexivity); try exact ek; try reflexivity; try lra.
  exists vk, (VUnit (UO Length L "m" (eint 1))), r. split; [reflexivity|]. split; [reflexivity|]. split; [exact e|].
  rewrite v, pow_10_4, Rpower_one. unfold Rdiv. pose proof (Rinv_0_lt_compat L hL). pose proof (Rmult_lt_0_compat _ _ hk H). nra.
Qed.


(** ** Laminar flow in a pipe, short pipes, the viscosity at the wall *)
Lemma powr_float x q : 0 < x -> powr x (eflt (Q2Qc q)) = Rpower x (Q2R q).
Proof. intro h. unfold powr. cbn [eflt ev]. rewrite Rpowq_pos by exact h. rewrite qcr. reflexivity. Qed.
Lemma powr_def x k : 0 < x -> exists y, Rpowq x (ev k) = Ok y.
Proof. intro h. rewrite Rpowq_pos by exact h. eexists. reflexivity. Qed.
Definition f_pl := FLet (FMul (FMul (FNum 1.85) (FPow (FMul (FMul (FVar 0) (FVar 1)) (FDiv (FVar 2) (FVar 3))) third_)) (FVar 5)) (FDiv (FMul (FVar 0) (FVar 5)) (FVar 3)).
Definition pl_sys (p l th : string) : bool :=
  osys [Ok (VNum 1%Q); Ok (VNum 1%Q); qsimple Length 1 l; qsimple Length 1 l; qmulti "ThermalConductivity" 1 (p +++ l +++ "*" +++ th); Ok (VNum 1%Q)] f_pl
    (in_unit (p +++ l +++ "^2*" +++ th)).
Lemma pl_sweep : forallb (fun p => forallb (fun l => forallb (pl_sys p l) temperatures) lengths) powers = true.
Proof. vm_compute. reflexivity. Qed.
Lemma pipe_laminar_units p l th (Re Pr d L k psi : R) vd vL vk : In p powers -> In l lengths -> In th temperatures ->
  simple Length d l = Ok vd -> simple Length L l = Ok vL -> multi "ThermalConductivity" k (p +++ l +++ "*" +++ th) = Ok vk -> 0 < Re -> 0 < Pr -> 0 < d -> 0 < L ->
  exists r, htc_pipe_laminar (VNum Re) (VNum Pr) vd vL vk (VNum psi) = Ok r /\
  value r = 1.85 * Rpower (Re * Pr * (d / L)) (1 / 3) * psi * k / d /\ denotes r (1.85 * Rpower (Re * Pr * (d / L)) (1 / 3) * psi * k / d) (p +++ l +++ "^2*" +++ th).
Proof.
  intros hp hl ht h1 h2 h3 hR hP hd hL. pose proof (sweep3 _ _ _ _ _ _ _ pl_sweep hp hl ht) as hs.
  assert (ps : 0 < Re * Pr * (d / L)). { repeat apply Rmult_lt_0_compat; try assumption. apply Rinv_0_lt_compat. exact hL. }
  assert (hm : qmakes_all [Ok (VNum 1%Q); Ok (VNum 1%Q); qsimple Length 1 l; qsimple Length 1 l; qmulti "ThermalConductivity" 1 (p +++ l +++ "*" +++ th); Ok (VNum 1%Q)]
    [VNum Re; VNum Pr; vd; vL; vk; VNum psi] [Re; Pr; d; L; k; psi]) by qmake.
  assert (hn : num [Re; Pr; d; L; k; psi] f_pl = 1.85 * Rpower (Re * Pr * (d / L)) (1 / 3) * psi * k / d).
  { cbn [num f_pl nth]. unfold third_. rewrite powr_float, q3 by exact ps. reflexivity. }
  destruct (denotes_run _ _ _ _ _ hm hs) as [r [e [v dn]]].
  { cbn [def f_pl num nth]. repeat split; try lra. apply powr_def. exact ps. }
  rewrite hn in *. exists r. split; [exact e|]. split; [exact v|exact dn].
Qed.

Definition f_sp := FMul (FVar 0) (FAdd (FNum 1) (FPow (FDiv (FVar 1) (FVar 2)) (eflt (Q2Qc (7 # 10))))).
Definition sp_sys (u l : string) : bool :=
  osys [qmulti "HeatTransferCoefficient" 1 u; qsimple Length 1 l; qsimple Length 1 l] f_sp (in_unit u).
Lemma sp_sweep : forallb (fun u => forallb (sp_sys u) lengths) (map (fun x => fst (fst x)) bi_texts) = true.
Proof. vm_compute. reflexivity. Qed.
Lemma short_pipe_units u u2 u3 l (h d L : R) vh vd vL : In (u, u2, u3) bi_texts -> In l lengths ->
  multi "HeatTransferCoefficient" h u = Ok vh -> simple Length d l = Ok vd -> simple Length L l = Ok vL -> 0 < d -> 0 < L ->
  exists r, htc_short_pipe_correction vh vd vL = Ok r /\ value r = h * (1 + Rpower (d / L) 0.7) /\ denotes r (h * (1 + Rpower (d / L) 0.7)) u.
Proof.
  intros hu hl h1 h2 h3 hd hL. apply (in_map (fun x => fst (fst x))) in hu. cbn [fst] in hu. pose proof (sweep2 _ _ _ _ _ sp_sweep hu hl) as hs.
  assert (ps : 0 < d / L). { apply Rmult_lt_0_compat; [exact hd|]. apply Rinv_0_lt_compat. exact hL. }
  assert (hm : qmakes_all [qmulti "HeatTransferCoefficient" 1 u; qsimple Length 1 l; qsimple Length 1 l] [vh; vd; vL] [h; d; L]) by qmake.
  assert (hn : num [h; d; L] f_sp = h * (1 + Rpower (d / L) 0.7)) . { cbn [num f_sp nth]. rewrite powr_float by exact ps. reflexivity. }
  destruct (denotes_run _ _ _ _ _ hm hs) as [r [e [v dn]]].
  { cbn [def f_sp num nth]. repeat split; try lra. apply powr_def. exact ps. }
  rewrite hn in *. exists r. split; [exact e|]. split; [exact v|exact dn].
Qed.
Definition f_wv := FPow (FDiv (FVar 0) (FVar 1)) (eflt (Q2Qc (14 # 100))).
Definition is_number (o : qval) : bool := match o with VNum _ => true | _ => false end.
Definition wv_sys (u : string) : bool := osys [qmulti "DynamicViscosity" 1 u; qmulti "DynamicViscosity" 1 u] f_wv is_number.
Lemma wv_sweep : forallb wv_sys viscosities = true.
Proof. vm_compute. reflexivity. Qed.
Lemma number_obj o x : is_number o = true -> obj o x = VNum x.
Proof. destruct o; try discriminate. reflexivity. Qed.
Lemma wall_viscosity_number u (a b : R) va vb : In u viscosities -> multi "DynamicViscosity" a u = Ok va -> multi "DynamicViscosity" b u = Ok vb -> 0 < a -> 0 < b ->
  wall_viscosity_correction_factor va vb = Ok (VNum (Rpower (a / b) 0.14)).
Proof.
  intros hu h1 h2 ha hb. pose proof (proj1 (forallb_forall _ _) wv_sweep u hu) as hs. unfold wv_sys in hs.
  assert (ps : 0 < a / b). { apply Rmult_lt_0_compat; [exact ha|]. apply Rinv_0_lt_compat. exact hb. }
  assert (hm : qmakes_all [qmulti "DynamicViscosity" 1 u; qmulti "DynamicViscosity" 1 u] [va; vb] [a; b]) by qmake.
  destruct (osys_sound _ _ _ _ _ hm hs) as [o [e [ho _]]].
  { cbn [def f_wv num nth]. repeat split; try lra. apply powr_def. exact ps. }
  rewrite number_obj in e by exact ho. cbn [num f_wv nth] in e. rewrite powr_float in e by exact ps. exact e.
Qed.

(** ** Laminar flow along a plate: converted at the end *)
Lemma table_laminar f nu : In (f, nu) laminar_table -> forall tb Re Pr psi L k, 0 < Re -> 0 < Pr ->
  f tb (VNum Re) (VNum Pr) L k (VNum psi) = (let* h := h_of (nu Re Pr psi) k L in laminar_convert tb h k).
Proof.
  intros hi tb Re Pr psi L k h1 h2. cbn [laminar_table In] in hi.
  repeat destruct hi as [hi|hi]; try contradiction; injection hi as <- <-;
    unfold htc_open_field_laminar_local, htc_open_field_laminar_avg, third_, half_;
    rewrite ?pow_number by assumption; rewrite ?q2, ?q3; unfold omul; cbn [bind py_mul nmul Rnum]; reflexivity.
Qed.
Definition halves_b (l : half) : bool :=
  (forallb (fun x => admissible_b (bname x)) l && after_b ["psi"; "C"] l && degrees_b l) &&
  (forallb (fun x => safe_b (bname x)) l &&
   forallb (fun x => negb (String.eqb (bname x) "acre" || prefixed_b "L" (bname x)) || Qc_eq_bool (ev (bexp x)) (qc 1)) l &&
   forallb (fun x => negb (existsb (fun t => prefixed_b t (bname x)) ["K"; "C"; "R"; "F"]) || negb (Qc_eq_bool (ev (bexp x)) (qc 0))) l &&
   after_b ["W"; "V"; "cP"] l).
Lemma halves_b_ok l : halves_b l = true -> convertible_half l /\ safe_half l.
Proof. unfold halves_b. intro h. apply andb_true_iff in h. destruct h as [h1 h2]. split; [apply convertible_b, h1|apply safe_half_b, h2]. Qed.
Definition all_bases := [DMass; DLength; DTime; DTemp; DCurrent; DAmount].
Definition converts_b (s : string) (o : qval) : bool :=
  match o, parse_units s with
  | VMulti m, Ok (pt, pb) => forallb halves_b [mtop m; mbot m; pt; pb] && forallb (fun b => Qc_eq_bool (mdim (mtop m) (mbot m) b) (mdim pt pb b)) all_bases
  | _, _ => false
  end.
Lemma converts_ok s o x : converts_b s o = true -> exists m pt pb, obj o x = VMulti m /\ parse_units s = Ok (pt, pb) /\
  exists r, multi_convert_to tables0 m s = Ok r /\ mtop r = pt /\ mbot r = pb /\ forall w, physical w -> qty w (VMulti r) = qty w (VMulti m).
Proof.
  unfold converts_b. intro h. destruct o as [| | | |m]; try discriminate h. destruct (parse_units s) as [[pt pb]|] eqn:ep; [|discriminate h].
  apply andb_true_iff in h. destruct h as [h1 h2]. rewrite forallb_forall in h1. rewrite forallb_forall in h2.
  exists (MO (mc m) x (mtop m) (mbot m)), pt, pb. split; [reflexivity|]. split; [reflexivity|].
  assert (hc : forall l, In l [mtop m; mbot m; pt; pb] -> convertible_half l /\ safe_half l) by (intros l hl; apply halves_b_ok, h1, hl).
  destruct (convert_total (MO (mc m) x (mtop m) (mbot m)) s pt pb ep) as [r e].
  - cbn [mtop mbot]. rewrite Forall_forall. intros l hl. apply hc, hl.
  - intro b. cbn [mtop mbot]. apply Qceqb_eq. apply h2. destruct b; cbn; tauto.
  - exists r. assert (hk : Forall convertible_half [mtop (MO (mc m) x (mtop m) (mbot m)); mbot (MO (mc m) x (mtop m) (mbot m)); pt; pb]).
    { cbn [mtop mbot]. rewrite Forall_forall. intros l hl. apply hc, hl. }
    destruct (convert_keeps _ _ _ _ _ ep hk e) as [_ [k1 [k2 k3]]]. repeat split; assumption.
Qed.
Definition laminar_target (p : string) : string := if str_in "BTU" p then "BTU/hr*ft^2*F" else "W/m^2*K".
Definition btu_q (o : qval) : res bool :=
  match o with
  | VUnit u => let* s := show_bu (BU (un u) (ue u)) in Ok (str_in "BTU" s)
  | VMulti m => let* s := get_unit_string (mtop m) (mbot m) in Ok (str_in "BTU" s)
  | _ => Ok false
  end.
Definition shape_b (p l th : string) : bool :=
  match qmulti "ThermalConductivity" 1 (p +++ l +++ "*" +++ th), qsimple Length 1 l with
  | Ok (VMulti m), Ok (VUnit u) =>
      match btu_q (VMulti m) with Ok b => Bool.eqb b (str_in "BTU" p) | Raise _ => false end && adm_half_b (mtop m) && adm_half_b (mbot m) && admissible_b (un u)
  | _, _ => false
  end.
Definition lam_sys (p l th : string) : bool :=
  shape_b p l th && osys [Ok (VNum 1%Q); qmulti "ThermalConductivity" 1 (p +++ l +++ "*" +++ th); qsimple Length 1 l] f_h (converts_b (laminar_target p)).
Lemma lam_sweep : forallb (fun p => forallb (fun l => forallb (lam_sys p l) ["K"; "R"; "F"]) lengths) powers = true.
Proof. vm_compute. reflexivity. Qed.
Lemma laminar_units f nu p l th (Re Pr psi k L : R) vk vL : In (f, nu) laminar_table -> In p powers -> In l lengths -> In th ["K"; "R"; "F"] ->
  multi "ThermalConductivity" k (p +++ l +++ "*" +++ th) = Ok vk -> simple Length L l = Ok vL -> 0 < Re -> 0 < Pr -> L <> 0 ->
  exists m, f tables0 (VNum Re) (VNum Pr) vL vk (VNum psi) = Ok (VMulti m) /\ mc m = MSub "HeatTransferCoefficient" /\
  parse_units (if str_in "BTU" p then "BTU/hr*ft^2*F" else "W/m^2*K") = Ok (mtop m, mbot m) /\
  forall w x y, physical w -> qty w vk = Some x -> qty w vL = Some y -> qty w (VMulti m) = Some (nu Re Pr psi * x / y).
Proof.
  intros hf hp hl ht h1 h2 hR hP hz. rewrite (table_laminar f nu hf) by assumption.
  pose proof (sweep3 _ _ _ _ _ _ _ lam_sweep hp hl ht) as hs. unfold lam_sys in hs. apply andb_true_iff in hs. destruct hs as [hs1 hs].
  assert (hm : qmakes_all [Ok (VNum 1%Q); qmulti "ThermalConductivity" 1 (p +++ l +++ "*" +++ th); qsimple Length 1 l] [VNum (nu Re Pr psi); vk; vL] [nu Re Pr psi; k; L]) by qmake.
  destruct (osys_sound _ _ _ _ _ hm hs) as [o [e [ho _]]]; [cbn; tauto|]. change (h_of (nu Re Pr psi) vk vL = Ok (obj o (num [nu Re Pr psi; k; L] f_h))) in e.
  destruct (converts_ok _ _ (num [nu Re Pr psi; k; L] f_h) ho) as [m [pt [pb [em [ep [r [ec [k1 [k2 k3]]]]]]]]].
  destruct (multi_qmakes _ _ _ _ h1) as [ok [ek [_ vk_]]]. destruct (simple_qmakes _ _ _ _ h2) as [oL [eL [_ vL_]]].
  unfold shape_b in hs1. rewrite ek, eL in hs1. destruct ok as [| | | |mk]; try discriminate hs1. destruct oL as [| | |uL|]; try discriminate hs1.
  apply andb_true_iff in hs1. destruct hs1 as [hs1 a3]. apply andb_true_iff in hs1. destruct hs1 as [hs1 a2]. apply andb_true_iff in hs1. destruct hs1 as [hb a1].
  assert (eb : mentions_BTU vk = Ok (str_in "BTU" p)).
  { rewrite vk_. unfold obj. cbn [vmap setv mmap mentions_BTU mc mv mtop mbot]. change (let* s := get_unit_string (mtop mk) (mbot mk) in Ok (str_in "BTU" s)) with (btu_q (VMulti mk)).
    destruct (btu_q (VMulti mk)) as [b|]; [|discriminate hb]. apply eqb_prop in hb. rewrite hb. reflexivity. }
  rewrite e. cbn [bind]. unfold laminar_convert. rewrite eb. cbn [bind]. rewrite em. cbn [bind].
  fold (laminar_target p). rewrite ec. cbn [bind]. eexists. split; [reflexivity|]. cbn [mc mtop mbot]. split; [reflexivity|]. split; [rewrite ep, k1, k2; reflexivity|].
  intros w x y hw hx hy. rewrite em in e. change (qty w (VMulti (MO (MSub "HeatTransferCoefficient") (mv r) (mtop r) (mbot r)))) with (qty w (VMulti r)).
  rewrite k3 by exact hw. subst vk vL.
  destruct (h_quantity (nu Re Pr psi) (MO (mc mk) k (mtop mk) (mbot mk)) (UO (uc uL) L (un uL) (ue uL))) as [r' [e' q']].
  - split; apply adm_half_b_ok; assumption.
  - apply admissible_b_ok. exact a3.
  - exact hz.
  - unfold obj in e. cbn [vmap setv mmap umap uc uv un ue mc mv mtop mbot] in e. rewrite e in e'. injection e' as <-. apply q'; [apply ph_coherent, hw|exact hx|exact hy].
Qed.

(** Degrees Celsius are read as coulombs, and the conversion is refused. *)
Definition refuses_b (s : string) (o : qval) : bool :=
  match o, parse_units s with
  | VMulti m, Ok (pt, pb) => forallb (fun x => match dict_get dim_table (bname x) with Some _ => true | None => false end) (mtop m ++ mbot m ++ pt ++ pb) &&
      negb (Qc_eq_bool (mdim (mtop m) (mbot m) DTemp) (mdim pt pb DTemp))
  | _, _ => false
  end.
Lemma refuses_ok s o x : refuses_b s o = true -> exists m e, obj o x = VMulti m /\ multi_convert_to tables0 m s = Raise e.
Proof.
  unfold refuses_b. intro h. destruct o as [| | | |m]; try discriminate h. destruct (parse_units s) as [[pt pb]|] eqn:ep; [|discriminate h].
  apply andb_true_iff in h. destruct h as [h1 h2]. rewrite forallb_forall in h1.
  destruct (convert_refuses (MO (mc m) x (mtop m) (mbot m)) s pt pb DTemp ep) as [e he].
  - cbn [mtop mbot]. intros y hy. specialize (h1 y hy). unfold known_name. destruct (dict_get dim_table (bname y)); [discriminate|discriminate h1].
  - cbn [mtop mbot]. intro q. apply Qceqb_eq in q. rewrite q in h2. discriminate h2.
  - exists (MO (mc m) x (mtop m) (mbot m)), e. split; [reflexivity|exact he].
Qed.
Definition cel_sys (p l : string) : bool :=
  shape_b p l "C" && osys [Ok (VNum 1%Q); qmulti "ThermalConductivity" 1 (p +++ l +++ "*" +++ "C"); qsimple Length 1 l] f_h (refuses_b (laminar_target p)).
Lemma cel_sweep : forallb (fun p => forallb (cel_sys p) lengths) powers = true.
Proof. vm_compute. reflexivity. Qed.
Lemma laminar_celsius f nu p l (Re Pr psi k L : R) vk vL : In (f, nu) laminar_table -> In p powers -> In l lengths ->
  multi "ThermalConductivity" k (p +++ l +++ "*C") = Ok vk -> simple Length L l = Ok vL -> 0 < Re -> 0 < Pr -> L <> 0 ->
  exists e, f tables0 (VNum Re) (VNum Pr) vL vk (VNum psi) = Raise e.
Proof.
  intros hf hp hl h1 h2 hR hP hz. rewrite (table_laminar f nu hf) by assumption.
  pose proof (sweep2 _ _ _ _ _ cel_sweep hp hl) as hs. unfold cel_sys in hs. apply andb_true_iff in hs. destruct hs as [hs1 hs].
  assert (hm : qmakes_all [Ok (VNum 1%Q); qmulti "ThermalConductivity" 1 (p +++ l +++ "*" +++ "C"); qsimple Length 1 l] [VNum (nu Re Pr psi); vk; vL] [nu Re Pr psi; k; L]) by qmake.
  destruct (osys_sound _ _ _ _ _ hm hs) as [o [e [ho _]]]; [cbn; tauto|]. change (h_of (nu Re Pr psi) vk vL = Ok (obj o (num [nu Re Pr psi; k; L] f_h))) in e.
  destruct (refuses_ok _ _ (num [nu Re Pr psi; k; L] f_h) ho) as [m [ex [em ec]]].
  destruct (multi_qmakes _ _ _ _ h1) as [ok [ek [_ vk_]]]. destruct (simple_qmakes _ _ _ _ h2) as [oL [eL [_ vL_]]].
  unfold shape_b in hs1. change (l +++ "*C") with (l +++ "*" +++ "C") in ek. rewrite ek, eL in hs1. destruct ok as [| | | |mk]; try discriminate hs1. destruct oL as [| | |uL|]; try discriminate hs1.
  apply andb_true_iff in hs1. destruct hs1 as [hs1 _]. apply andb_true_iff in hs1. destruct hs1 as [hs1 _]. apply andb_true_iff in hs1. destruct hs1 as [hb _].
  assert (eb : mentions_BTU vk = Ok (str_in "BTU" p)).
  { rewrite vk_. unfold obj. cbn [vmap setv mmap mentions_BTU mc mv mtop mbot]. change (let* s := get_unit_string (mtop mk) (mbot mk) in Ok (str_in "BTU" s)) with (btu_q (VMulti mk)).
    destruct (btu_q (VMulti mk)) as [b|]; [|discriminate hb]. apply eqb_prop in hb. rewrite hb. reflexivity. }
  exists ex. rewrite e. cbn [bind]. unfold laminar_convert. rewrite eb. cbn [bind]. rewrite em. fold (laminar_target p). rewrite ec. reflexivity.
Qed.
Lemma turbulent_negative_ex : exists k L vk vL r, 0 < k /\ 0 < L /\ multi "ThermalConductivity" k "W/m*K" = Ok vk /\ simple Length L "m" = Ok vL /\
  htc_open_field_turbulent_avg (VNum 100000) (VNum 1) vL vk (VNum 1) = Ok r /\ value r < 0.
Proof. exists 1, 1. destruct (turbulent_negative 1 1 ltac:(lra) ltac:(lra)) as [vk [vL [r h]]]. exists vk, vL, r. repeat split; try lra; apply h. Qed.
Lemma laminar_celsius_ex : exists k L vk vL e, 0 < k /\ 0 < L /\ multi "ThermalConductivity" k "W/m*C" = Ok vk /\ simple Length L "m" = Ok vL /\
  htc_open_field_laminar_avg tables0 (VNum 1000) (VNum 1) vL vk (VNum 1) = Raise e.
Proof.
  exists 1, 1. destruct (multi "ThermalConductivity" 1 "W/m*C") as [vk|] eqn:h1; [|vm_compute in h1; discriminate].
  destruct (simple Length 1 "m") as [vL|] eqn:h2; [|vm_compute in h2; discriminate].
  destruct (laminar_celsius htc_open_field_laminar_avg (fun Re Pr psi => 0.664 * Rpower Re (1 / 2) * Rpower Pr (1 / 3) * psi) "W/" "m" 1000 1 1 1 1 vk vL) as [e he];
    try (exact h1 || exact h2 || lra); try (cbn; tauto). exists vk, vL, e. repeat split; lra || exact he.
Qed.
