(** * GroupFacts: dimensionless groups, transient conduction and diffusion *)
From Coq Require Import String Ascii List ZArith QArith Qcanon Bool Reals Qreals Lia Lra.
From Verif Require Import Py Num UnitsData UnitsStruct Units NumFacts Spec SpecFacts StructFacts
  OpFacts NamesFacts ClosureFacts FactorFacts LawFacts WitnessFacts PropFacts OpPropFacts Solve Formulas Correlations FormulaSpec TransferSpec SemFacts SymFacts SweepFacts SimFacts ParamFacts DimlessFacts ProbeFacts DenoteFacts PrefixFacts CoefficientFacts.
Import ListNotations.
Local Open Scope string_scope.
Local Open Scope list_scope.
Local Open Scope R_scope.

(** ** Tools *)
Lemma sweep5 (f : string -> string -> string -> string -> string -> bool) l1 l2 l3 l4 l5 a b c d e :
  forallb (fun x => forallb (fun y => forallb (fun z => forallb (fun u => forallb (f x y z u) l5) l4) l3) l2) l1 = true ->
  In a l1 -> In b l2 -> In c l3 -> In d l4 -> In e l5 -> f a b c d e = true.
Proof. rewrite forallb_forall. intros h ha hb hc hd he. specialize (h _ ha). eapply sweep4; eassumption. Qed.
Lemma number_run ss vs xs f : qmakes_all ss vs xs -> osys ss f is_number = true -> def xs f -> run vs f = Ok (VNum (num xs f)).
Proof. intros hm h hd. destruct (osys_sound _ _ _ _ _ hm h hd) as [o [e [ho _]]]. rewrite number_obj in e by exact ho. exact e. Qed.
Definition is_unit (c : ucls) (s : string) (o : qval) : bool :=
  match o with VUnit u => ucls_eqb (uc u) c && String.eqb (un u) s && Qc_eq_bool (ev (ue u)) (qc 1) | _ => false end.
Lemma unit_run ss vs xs f c s : qmakes_all ss vs xs -> osys ss f (is_unit c s) = true -> def xs f -> exists r, run vs f = Ok r /\ is_simple c (num xs f) s r.
Proof.
  intros hm h hd. destruct (osys_sound _ _ _ _ _ hm h hd) as [o [e [ho _]]]. unfold is_unit in ho. destruct o as [| | |u|]; try discriminate ho.
  apply andb_true_iff in ho. destruct ho as [ho h3]. apply andb_true_iff in ho. destruct ho as [h1 h2]. apply ucls_eqb_eq in h1. apply String.eqb_eq in h2. apply Qceqb_eq in h3.
  eexists. split; [exact e|]. exists (ue u). unfold obj. cbn [vmap setv umap uc uv un ue]. rewrite h1, h2. split; [reflexivity|exact h3].
Qed.

(** ** Graetz, Grashof, thermal expansion *)
Definition f_gz := FDiv (FMul (FMul (FMul (FMul (FVar 2) (FVar 0)) (FVar 3)) (FVar 4)) (FVar 5)) (FMul (FVar 6) (FVar 1)).
Definition gz_sys (M l t e th : string) : bool :=
  osys [qsimple Length 1 l; qsimple Length 1 l; qmulti "HeatCapacity" 1 (e +++ "/" +++ M +++ "*" +++ th); qsimple Length 1 l; qmulti "Density" 1 (M +++ "/" +++ l +++ "^3");
        qmulti "Velocity" 1 (l +++ "/" +++ t); qmulti "ThermalConductivity" 1 (e +++ "/" +++ t +++ "*" +++ l +++ "*" +++ th)] f_gz is_number.
Lemma gz_sweep : forallb (fun M => forallb (fun l => forallb (fun t => forallb (fun e => forallb (gz_sys M l t e) temperatures) energies) times) lengths) masses = true.
Proof. vm_compute. reflexivity. Qed.
Lemma gretz_number M l t e th (d L cp cl rho v k : R) vd vL vcp vcl vrho vv vk : In M masses -> In l lengths -> In t times -> In e energies -> In th temperatures ->
  simple Length d l = Ok vd -> simple Length L l = Ok vL -> multi "HeatCapacity" cp (e +++ "/" +++ M +++ "*" +++ th) = Ok vcp -> simple Length cl l = Ok vcl ->
  multi "Density" rho (M +++ "/" +++ l +++ "^3") = Ok vrho -> multi "Velocity" v (l +++ "/" +++ t) = Ok vv ->
  multi "ThermalConductivity" k (e +++ "/" +++ t +++ "*" +++ l +++ "*" +++ th) = Ok vk -> k <> 0 -> L <> 0 ->
  gretz vd vL vcp vcl vrho vv vk = Ok (VNum (cp * d * cl * rho * v / (k * L))).
Proof.
  intros hM hl ht he hth h1 h2 h3 h4 h5 h6 h7 hk hL. pose proof (sweep5 _ _ _ _ _ _ _ _ _ _ _ gz_sweep hM hl ht he hth) as hs.
  eapply (number_run _ _ [d; L; cp; cl; rho; v; k] _ (ltac:(qmake) : qmakes_all _ [vd; vL; vcp; vcl; vrho; vv; vk] _) hs).
  cbn. repeat split; auto.
Qed.

(** A Unit with an exponent. *)
Definition qpowered (c : ucls) (q : Q) (s : string) (e : expo) : res qval := rmap VUnit (mk_unit c q s e).
Lemma powered_qmakes c x s e v : powered c x s e = Ok v -> qmakes (qpowered c 1 s e) v x.
Proof.
  unfold powered, qpowered. intro h. destruct c; cbn [mk_unit] in *;
    try (injection h as <-; eexists; split; [reflexivity|split; [split; reflexivity|reflexivity]]);
    try (match type of h with context [mem_str ?a ?b] => destruct (mem_str a b); [injection h as <-; eexists; split; [reflexivity|split; [split; reflexivity|reflexivity]]|discriminate] end);
    unfold split_caret in *; (destruct (has_char "^" s); [|injection h as <-; eexists; split; [reflexivity|split; [split; reflexivity|reflexivity]]]);
    (destruct (split_on "^" s) as [|a [|b [|? ?]]]; try discriminate); (destruct (py_float b); [injection h as <-; eexists; split; [reflexivity|split; [split; reflexivity|reflexivity]]|discriminate]).
Qed.
Ltac pmake := repeat (first [apply qmakes_nil | apply qmakes_cons; [first [apply multi_qmakes; eassumption | apply simple_qmakes; eassumption | apply powered_qmakes; eassumption | apply constant_qmakes; eassumption | apply num_qmakes]|]]).
Lemma Rpowq_nat x n : Rpowq x (ev (eint (Z.of_nat n))) = Ok (x ^ n).
Proof. cbn [eint ev]. rewrite Rpowq_int by (right; lia). rewrite <- pow_powerRZ. reflexivity. Qed.
Lemma powr2 x : powr x (eint 2) = x ^ 2. Proof. unfold powr. pose proof (Rpowq_nat x 2) as h; cbn [Z.of_nat Pos.of_succ_nat Pos.succ] in h; rewrite h. reflexivity. Qed.
Lemma powr3 x : powr x (eint 3) = x ^ 3. Proof. unfold powr. pose proof (Rpowq_nat x 3) as h; cbn [Z.of_nat Pos.of_succ_nat Pos.succ] in h; rewrite h. reflexivity. Qed.
Lemma powr4 x : powr x (eint 4) = x ^ 4. Proof. unfold powr. pose proof (Rpowq_nat x 4) as h; cbn [Z.of_nat Pos.of_succ_nat Pos.succ] in h; rewrite h. reflexivity. Qed.
Lemma def2 x : exists y, Rpowq x (ev (eint 2)) = Ok y. Proof. pose proof (Rpowq_nat x 2) as h; cbn [Z.of_nat Pos.of_succ_nat Pos.succ] in h; rewrite h. eexists. reflexivity. Qed.
Lemma def3 x : exists y, Rpowq x (ev (eint 3)) = Ok y. Proof. pose proof (Rpowq_nat x 3) as h; cbn [Z.of_nat Pos.of_succ_nat Pos.succ] in h; rewrite h. eexists. reflexivity. Qed.
Lemma def4 x : exists y, Rpowq x (ev (eint 4)) = Ok y. Proof. pose proof (Rpowq_nat x 4) as h; cbn [Z.of_nat Pos.of_succ_nat Pos.succ] in h; rewrite h. eexists. reflexivity. Qed.
Lemma half_pow x : 0 < x -> powr x half_ = sqrt x.
Proof. intro h. unfold half_. rewrite powr_float, q2 by exact h. replace (1 / 2) with (/ 2) by lra. apply Rpower_sqrt. exact h. Qed.
Lemma sq_nz x : x <> 0 -> x ^ 2 <> 0. Proof. intro h. apply pow_nonzero. exact h. Qed.
Ltac defs := repeat split; rewrite ?powr2, ?powr3, ?powr4; try exact I; try assumption; try apply def2; try apply def3; try apply def4; try (apply sq_nz; assumption); try lra; auto with real.

Definition f_gr := FDiv (FMul (FMul (FMul (FMul (FPow (FVar 4) (eint 3)) (FPow (FVar 5) (eint 2))) (FVar 1)) (FSub (FVar 2) (FVar 3))) (FVar 0)) (FPow (FVar 6) (eint 2)).
Definition gr_args (M l t th : string) (b : res qval) : list (res qval) :=
  [qmulti "Acceleration" 1 (l +++ "/" +++ t +++ "^2"); b; qsimple Temperature 1 th; qsimple Temperature 1 th; qsimple Length 1 l;
   qmulti "Density" 1 (M +++ "/" +++ l +++ "^3"); qmulti "DynamicViscosity" 1 (M +++ "/" +++ l +++ "*" +++ t)].
Definition gr_sys (M l t th : string) : bool := osys (gr_args M l t th (qpowered Temperature 1 th (eint (-1)))) f_gr is_number.
Lemma gr_sweep : forallb (fun M => forallb (fun l => forallb (fun t => forallb (gr_sys M l t) temperatures) times) lengths) masses = true.
Proof. vm_compute. reflexivity. Qed.
Lemma grashof_number M l t th (g b T2 T1 L rho mu : R) vg vb v2 v1 vL vrho vmu : In M masses -> In l lengths -> In t times -> In th temperatures ->
  multi "Acceleration" g (l +++ "/" +++ t +++ "^2") = Ok vg -> powered Temperature b th (eint (-1)) = Ok vb ->
  simple Temperature T2 th = Ok v2 -> simple Temperature T1 th = Ok v1 -> simple Length L l = Ok vL ->
  multi "Density" rho (M +++ "/" +++ l +++ "^3") = Ok vrho -> multi "DynamicViscosity" mu (M +++ "/" +++ l +++ "*" +++ t) = Ok vmu -> mu <> 0 ->
  grashof vg vb v2 v1 vL vrho vmu = Ok (VNum (L ^ 3 * rho ^ 2 * b * (T2 - T1) * g / mu ^ 2)).
Proof.
  intros hM hl ht hth h1 h2 h3 h4 h5 h6 h7 hmu. pose proof (sweep4 _ _ _ _ _ _ _ _ _ gr_sweep hM hl ht hth) as hs. unfold gr_sys in hs.
  assert (hm : qmakes_all (gr_args M l t th (qpowered Temperature 1 th (eint (-1)))) [vg; vb; v2; v1; vL; vrho; vmu] [g; b; T2; T1; L; rho; mu]) by (unfold gr_args; pmake).
  assert (e : run [vg; vb; v2; v1; vL; vrho; vmu] f_gr = Ok (VNum (num [g; b; T2; T1; L; rho; mu] f_gr))).
  { apply (number_run _ _ _ _ hm hs). cbn [def f_gr num nth]. defs. }
  cbn [num f_gr nth] in e. rewrite powr3, !powr2 in e. exact e.
Qed.
(** A coefficient of expansion written 1/K makes the result a Unit, and a plain number
    leaves the kelvin. *)
Lemma gr_text : osys [qmulti "Acceleration" 1 "m/s^2"; rmap VMulti (mk_multi MMulti 1%Q "1/K"); qsimple Temperature 1 "K"; qsimple Temperature 1 "K"; qsimple Length 1 "m";
   qmulti "Density" 1 "kg/m^3"; qmulti "DynamicViscosity" 1 "kg/m*s"] f_gr (fun o => match o with VUnit u => String.eqb (un u) "1" | _ => false end) = true.
Proof. vm_compute. reflexivity. Qed.

Definition f_be := FDiv (FSub (FVar 0) (FVar 1)) (FMul (FDiv (FAdd (FVar 0) (FVar 1)) (FNum 2)) (FSub (FVar 2) (FVar 3))).
Definition per_degree (th : string) (o : qval) : bool :=
  match o with VUnit u => String.eqb (un u) th && Qc_eq_bool (ev (ue u)) (qc (-1)) | _ => false end.
Definition be_sys (M l th : string) : bool :=
  osys [qmulti "Density" 1 (M +++ "/" +++ l +++ "^3"); qmulti "Density" 1 (M +++ "/" +++ l +++ "^3"); qsimple Temperature 1 th; qsimple Temperature 1 th] f_be (per_degree th).
Lemma be_sweep : forallb (fun M => forallb (fun l => forallb (be_sys M l) degrees) lengths) masses = true.
Proof. vm_compute. reflexivity. Qed.

Lemma beta_per_degree M l th (r1 r2 T2 T1 : R) v1 v2 u2 u1 : In M masses -> In l lengths -> In th degrees ->
  multi "Density" r1 (M +++ "/" +++ l +++ "^3") = Ok v1 -> multi "Density" r2 (M +++ "/" +++ l +++ "^3") = Ok v2 ->
  simple Temperature T2 th = Ok u2 -> simple Temperature T1 th = Ok u1 -> r1 + r2 <> 0 -> T2 <> T1 ->
  exists u, beta_expansion v1 v2 u2 u1 = Ok (VUnit u) /\ uv u = (r1 - r2) / ((r1 + r2) / 2 * (T2 - T1)) /\ un u = th /\ ev (ue u) = qc (-1).
Proof.
  intros hM hl hth h1 h2 h3 h4 hr hT. pose proof (sweep3 _ _ _ _ _ _ _ be_sweep hM hl hth) as hs. unfold be_sys in hs.
  assert (hm : qmakes_all [qmulti "Density" 1 (M +++ "/" +++ l +++ "^3"); qmulti "Density" 1 (M +++ "/" +++ l +++ "^3"); qsimple Temperature 1 th; qsimple Temperature 1 th]
    [v1; v2; u2; u1] [r1; r2; T2; T1]) by pmake.
  destruct (osys_sound _ _ _ _ _ hm hs) as [o [e [ho _]]].
  { cbn [def f_be num nth]. repeat split; try lra. apply Rmult_integral_contrapositive. split; lra. }
  unfold per_degree in ho. destruct o as [| | |u|]; try discriminate ho. apply andb_true_iff in ho. destruct ho as [h5 h6]. apply String.eqb_eq in h5. apply Qceqb_eq in h6.
  eexists. split; [exact e|]. cbn [uv un ue]. auto.
Qed.
(** The expansion coefficient computed by the library goes into the Grashof number. *)
Definition f_bg := FLet f_be (FDiv (FMul (FMul (FMul (FMul (FPow (FVar 6) (eint 3)) (FPow (FVar 1) (eint 2))) (FVar 0)) (FSub (FVar 3) (FVar 4))) (FVar 5)) (FPow (FVar 7) (eint 2))).
Definition bg_sys (M l t th : string) : bool :=
  osys [qmulti "Density" 1 (M +++ "/" +++ l +++ "^3"); qmulti "Density" 1 (M +++ "/" +++ l +++ "^3"); qsimple Temperature 1 th; qsimple Temperature 1 th;
        qmulti "Acceleration" 1 (l +++ "/" +++ t +++ "^2"); qsimple Length 1 l; qmulti "DynamicViscosity" 1 (M +++ "/" +++ l +++ "*" +++ t)] f_bg is_number.
Lemma bg_sweep : forallb (fun M => forallb (fun l => forallb (fun t => forallb (bg_sys M l t) temperatures) times) lengths) masses = true.
Proof. vm_compute. reflexivity. Qed.
Lemma beta_grashof M l t th (r1 r2 T2 T1 g L mu : R) v1 v2 u2 u1 vg vL vmu : In M masses -> In l lengths -> In t times -> In th temperatures ->
  multi "Density" r1 (M +++ "/" +++ l +++ "^3") = Ok v1 -> multi "Density" r2 (M +++ "/" +++ l +++ "^3") = Ok v2 ->
  simple Temperature T2 th = Ok u2 -> simple Temperature T1 th = Ok u1 ->
  multi "Acceleration" g (l +++ "/" +++ t +++ "^2") = Ok vg -> simple Length L l = Ok vL -> multi "DynamicViscosity" mu (M +++ "/" +++ l +++ "*" +++ t) = Ok vmu ->
  r1 + r2 <> 0 -> T2 <> T1 -> mu <> 0 ->
  (let* b := beta_expansion v1 v2 u2 u1 in grashof vg b u2 u1 vL v1 vmu) = Ok (VNum (L ^ 3 * r1 ^ 2 * g * (2 * (r1 - r2) / (r1 + r2)) / mu ^ 2)).
Proof.
  intros hM hl ht hth h1 h2 h3 h4 h5 h6 h7 hr hT hmu. pose proof (sweep4 _ _ _ _ _ _ _ _ _ bg_sweep hM hl ht hth) as hs. unfold bg_sys in hs.
  match type of hs with osys ?a _ _ = _ => assert (hm : qmakes_all a [v1; v2; u2; u1; vg; vL; vmu] [r1; r2; T2; T1; g; L; mu]) by pmake end.
  assert (e : run [v1; v2; u2; u1; vg; vL; vmu] f_bg = Ok (VNum (num [r1; r2; T2; T1; g; L; mu] f_bg))).
  { apply (number_run _ _ _ _ hm hs). cbn [def f_bg f_be num nth]. defs. apply Rmult_integral_contrapositive. split; lra. }
  cbn [num f_bg f_be nth] in e. rewrite powr3, !powr2 in e. etransitivity; [exact e|]. do 2 f_equal. field. repeat split; lra.
Qed.

(** Degrees Celsius become coulombs. *)
Definition bc_sys (M l : string) : bool :=
  osys [qmulti "Density" 1 (M +++ "/" +++ l +++ "^3"); qmulti "Density" 1 (M +++ "/" +++ l +++ "^3"); qsimple Temperature 1 "C"; qsimple Temperature 1 "C"] f_be (in_unit "A^-1*s^-1").
Lemma bc_sweep : forallb (fun M => forallb (bc_sys M) lengths) masses = true.
Proof. vm_compute. reflexivity. Qed.
Lemma beta_celsius M l (r1 r2 T2 T1 : R) v1 v2 u2 u1 : In M masses -> In l lengths ->
  multi "Density" r1 (M +++ "/" +++ l +++ "^3") = Ok v1 -> multi "Density" r2 (M +++ "/" +++ l +++ "^3") = Ok v2 ->
  simple Temperature T2 "C" = Ok u2 -> simple Temperature T1 "C" = Ok u1 -> r1 + r2 <> 0 -> T2 <> T1 ->
  exists r, beta_expansion v1 v2 u2 u1 = Ok r /\ denotes r ((r1 - r2) / ((r1 + r2) / 2 * (T2 - T1))) "A^-1*s^-1".
Proof.
  intros hM hl h1 h2 h3 h4 hr hT. pose proof (sweep2 _ _ _ _ _ bc_sweep hM hl) as hs. unfold bc_sys in hs.
  match type of hs with osys ?a _ _ = _ => assert (hm : qmakes_all a [v1; v2; u2; u1] [r1; r2; T2; T1]) by pmake end.
  destruct (denotes_run _ _ _ _ _ hm hs) as [r [e [v d]]].
  { cbn [def f_be num nth]. repeat split; try lra. apply Rmult_integral_contrapositive. split; lra. }
  exists r. split; [exact e|exact d].
Qed.
(** An expansion coefficient written 1/K. *)
Lemma grashof_text (g b T2 T1 L rho mu : R) vg vb v2 v1 vL vrho vmu :
  multi "Acceleration" g "m/s^2" = Ok vg -> constant b "1/K" = Ok vb -> simple Temperature T2 "K" = Ok v2 -> simple Temperature T1 "K" = Ok v1 -> simple Length L "m" = Ok vL ->
  multi "Density" rho "kg/m^3" = Ok vrho -> multi "DynamicViscosity" mu "kg/m*s" = Ok vmu -> mu <> 0 ->
  exists u, grashof vg vb v2 v1 vL vrho vmu = Ok (VUnit u) /\ un u = "1".
Proof.
  intros h1 h2 h3 h4 h5 h6 h7 hmu. pose proof gr_text as hs.
  match type of hs with osys ?a _ _ = _ => assert (hm : qmakes_all a [vg; vb; v2; v1; vL; vrho; vmu] [g; b; T2; T1; L; rho; mu]) by pmake end.
  destruct (osys_sound _ _ _ _ _ hm hs) as [o [e [ho _]]].
  { cbn [def f_gr num nth]. defs. }
  destruct o as [| | |u|]; try discriminate ho. apply String.eqb_eq in ho. eexists. split; [exact e|exact ho].
Qed.

(** ** Transient conduction *)
Definition f_ps := FLet (FDiv (FMul (FVar 0) (FVar 1)) (FMul (FVar 2) (FSub (FVar 3) (FVar 4))))
  (FLet (FDiv (FSub (FPow (FVar 7) (eint 2)) (FPow (FVar 6) (eint 2))) (FNum 2)) (FMul (FVar 1) (FVar 0))).
Definition ps_sys (x : string * string * string * string * string * string) : bool :=
  let '(rho, hf, k, th, l, t) := x in
  osys [qmulti "Density" 1 rho; rmap VMulti (mk_multi MMulti 1%Q hf); qmulti "ThermalConductivity" 1 k; qsimple Temperature 1 th; qsimple Temperature 1 th; qsimple Length 1 l; qsimple Length 1 l] f_ps (in_unit t).
Lemma ps_sweep : forallb ps_sys melt_texts = true.
Proof. vm_compute. reflexivity. Qed.
Lemma melting_time ud uh uk th l t (rho hf k Ts Tm li lf : R) vd vh vk vs vm vi vf : In (ud, uh, uk, th, l, t) melt_texts ->
  multi "Density" rho ud = Ok vd -> constant hf uh = Ok vh -> multi "ThermalConductivity" k uk = Ok vk ->
  simple Temperature Ts th = Ok vs -> simple Temperature Tm th = Ok vm -> simple Length li l = Ok vi -> simple Length lf l = Ok vf -> k <> 0 -> Ts <> Tm ->
  exists r, pseudo_steady_time vd vh vk vs vm vi vf = Ok r /\ value r = rho * hf / (k * (Ts - Tm)) * ((lf ^ 2 - li ^ 2) / 2) /\
  denotes r (rho * hf / (k * (Ts - Tm)) * ((lf ^ 2 - li ^ 2) / 2)) t.
Proof.
  intros hi h1 h2 h3 h4 h5 h6 h7 hk hT. pose proof (proj1 (forallb_forall _ _) ps_sweep _ hi) as hs. unfold ps_sys in hs.
  match type of hs with osys ?a _ _ = _ => assert (hm : qmakes_all a [vd; vh; vk; vs; vm; vi; vf] [rho; hf; k; Ts; Tm; li; lf]) by pmake end.
  assert (hn : num [rho; hf; k; Ts; Tm; li; lf] f_ps = rho * hf / (k * (Ts - Tm)) * ((lf ^ 2 - li ^ 2) / 2)) by (cbn [num f_ps nth]; rewrite !powr2; reflexivity).
  destruct (denotes_run _ _ _ _ _ hm hs) as [r [e [v d]]].
  { cbn [def f_ps num nth]. defs. }
  rewrite hn in *. exists r. split; [exact e|]. split; [exact v|exact d].
Qed.

Definition slab_args (x : string * string * string * string * string * string) : list (res qval) :=
  let '(rho, cp, k, th, l, t) := x in
  [qsimple Temperature 1 th; qsimple Temperature 1 th; qsimple Length 1 l; qsimple Length 1 l; qsimple Time 1 t; qmulti "Density" 1 rho; qmulti "HeatCapacity" 1 cp; qmulti "ThermalConductivity" 1 k; Ok (VNum 1%Q); Ok (VNum 1%Q)].
Definition f_alpha := FDiv (FVar 7) (FMul (FVar 5) (FVar 6)).
(** Semi-infinite slab. *)
Definition f_si (g : R -> R) := FLet f_alpha (FSub (FVar 1) (FMul (FSub (FVar 1) (FVar 2)) (FFun g (FDiv (FVar 3) (FPow (FMul (FMul (FNum 4) (FVar 0)) (FVar 5)) half_))))).
Definition si_sys (g : R -> R) (x : string * string * string * string * string * string) : bool := osys (slab_args x) (f_si g) (is_unit Temperature (snd (fst (fst x)))).
Lemma si_sweep g : forallb (si_sys g) slab_texts = true.
Proof. vm_compute. reflexivity. Qed.

Ltac slab_make := match goal with hs : osys _ _ _ = true |- qmakes_all _ ?vs ?xs => unfold slab_args; pmake end.
Lemma sqrt_nz x : 0 < x -> sqrt x <> 0.
Proof. intros h e. pose proof (sqrt_lt_R0 x h). lra. Qed.
Lemma semi_infinite (g : R -> R) ud uc_ uk th l t (Ts To z time rho cp k : R) vs vo vz vt vd vc vk : In (ud, uc_, uk, th, l, t) slab_texts ->
  simple Temperature Ts th = Ok vs -> simple Temperature To th = Ok vo -> simple Length z l = Ok vz -> simple Time time t = Ok vt ->
  multi "Density" rho ud = Ok vd -> multi "HeatCapacity" cp uc_ = Ok vc -> multi "ThermalConductivity" k uk = Ok vk -> 0 < rho -> 0 < cp -> 0 < k -> 0 < time ->
  exists r, semi_infinite_slab_conduction g vs vo vz vt vd vc vk = Ok r /\ is_simple Temperature (Ts - (Ts - To) * g (z / sqrt (4 * (k / (rho * cp)) * time))) th r.
Proof.
  intros hi h1 h2 h3 h4 h5 h6 h7 pr pc pk pt. pose proof (proj1 (forallb_forall _ _) (si_sweep g) _ hi) as hs. unfold si_sys in hs. cbn [fst snd slab_args] in hs.
  match type of hs with osys ?a _ _ = _ => assert (hm : qmakes_all a [vs; vo; vz; vz; vt; vd; vc; vk; VNum 1; VNum 1] [Ts; To; z; z; time; rho; cp; k; 1; 1]) by pmake end.
  assert (prc : 0 < rho * cp) by (apply Rmult_lt_0_compat; assumption).
  assert (pa : 0 < 4 * (k / (rho * cp)) * time). { apply Rmult_lt_0_compat; [|exact pt]. apply Rmult_lt_0_compat; [lra|]. apply Rdiv_lt_0_compat; assumption. }
  destruct (unit_run _ _ _ _ _ _ hm hs) as [r [e d]].
  { cbn [def f_si f_alpha num nth]. repeat split; try exact I; try lra. - apply powr_def, pa. - rewrite half_pow by exact pa. apply sqrt_nz, pa. }
  exists r. split; [exact e|]. cbn [num f_si f_alpha nth] in d. rewrite half_pow in d by exact pa. exact d.
Qed.
(** Finite slab. *)
Definition f_term := FMul (FMul (FVar 10) (FFun sin (FDiv (FMul (FMul (FVar 9) (FNum PI)) (FVar 3)) (FMul (FNum 2) (FVar 4)))))
  (FFun exp (FMul (FNeg (FPow (FMul (FVar 9) (FDiv (FNum PI) (FNum 2))) (eint 2))) (FDiv (FMul (FVar 0) (FVar 5)) (FPow (FVar 4) (eint 2))))).
Definition ft_sys (x : string * string * string * string * string * string) : bool := osys (slab_args x) (FLet f_alpha f_term) is_number.
Lemma ft_sweep : forallb ft_sys slab_texts = true.
Proof. vm_compute. reflexivity. Qed.
Definition f_hterm := FMul (FVar 10) (FSub (FNum 1) (FFun exp (FMul (FNeg (FPow (FMul (FVar 9) (FDiv (FNum PI) (FNum 2))) (eint 2))) (FDiv (FMul (FVar 0) (FVar 5)) (FPow (FVar 4) (eint 2)))))).
Definition fh_sys (x : string * string * string * string * string * string) : bool := osys (slab_args x) (FLet f_alpha f_hterm) is_number.
Lemma fh_sweep : forallb fh_sys slab_texts = true.
Proof. vm_compute. reflexivity. Qed.
Definition any_val (o : qval) : bool := true.
Lemma fa_sweep : forallb (fun x => osys (slab_args x) f_alpha any_val) slab_texts = true.
Proof. vm_compute. reflexivity. Qed.
Lemma odd_pos n : 0 < 2 * INR n + 1.
Proof. pose proof (pos_INR n). lra. Qed.
Lemma slab_terms ud uc_ uk th l t (x s time rho cp k : R) vx vs vt vd vc vk : In (ud, uc_, uk, th, l, t) slab_texts ->
  simple Length x l = Ok vx -> simple Length s l = Ok vs -> simple Time time t = Ok vt ->
  multi "Density" rho ud = Ok vd -> multi "HeatCapacity" cp uc_ = Ok vc -> multi "ThermalConductivity" k uk = Ok vk -> rho <> 0 -> cp <> 0 -> s <> 0 ->
  exists a, (Ok vk / (Ok vd * Ok vc))%py = Ok a /\
    (forall n, sum_terms (slab_term vx vs a vt) n = Ok (VNum (slab_series x s (k / (rho * cp) * time / s ^ 2) n))) /\
    (forall n, sum_terms (slab_heat_term a vt vs) n = Ok (VNum (heat_series (k / (rho * cp) * time / s ^ 2) n))).
Proof.
  intros hi h3 h4 h5 h6 h7 h8 nr nc ns.
  assert (hT : exists v0, simple Temperature 0 th = Ok v0) by (eexists; reflexivity).
  destruct hT as [v0 h0]. assert (nrc : rho * cp <> 0) by (apply Rmult_integral_contrapositive; split; assumption).
  pose proof (proj1 (forallb_forall _ _) fa_sweep _ hi) as hs. cbn beta in hs. cbn [slab_args] in hs.
  assert (hm : forall m i, qmakes_all [qsimple Temperature 1 th; qsimple Temperature 1 th; qsimple Length 1 l; qsimple Length 1 l; qsimple Time 1 t; qmulti "Density" 1 ud; qmulti "HeatCapacity" 1 uc_; qmulti "ThermalConductivity" 1 uk; Ok (VNum 1%Q); Ok (VNum 1%Q)]
    [v0; v0; vx; vs; vt; vd; vc; vk; VNum m; VNum i] [0; 0; x; s; time; rho; cp; k; m; i]) by (intros; pmake).
  destruct (osys_sound _ _ _ _ _ (hm 1 1) hs) as [o [e _]]; [cbn; auto|]. cbn [f_alpha run var nth_error] in e.
  exists (obj o (k / (rho * cp))). split; [exact e|]. clear hs. split.
  - pose proof (proj1 (forallb_forall _ _) ft_sweep _ hi) as hs. unfold ft_sys in hs. cbn [slab_args] in hs.
    assert (ht : forall n, slab_term vx vs (obj o (k / (rho * cp))) vt n = Ok (VNum (1 / (2 * INR n + 1) * sin ((2 * INR n + 1) * PI * x / (2 * s)) * exp (- ((2 * INR n + 1) * (PI / 2)) ^ 2 * (k / (rho * cp) * time / s ^ 2))))).
    { intro n. pose proof (number_run _ _ _ _ (hm (2 * INR n + 1) (1 / (2 * INR n + 1))) hs) as q. cbn [run f_alpha var nth_error] in q. rewrite e in q. cbn [bind] in q.
      etransitivity; [apply q|].
      - cbn [def f_alpha f_term num nth]. defs.
      - cbn [num f_alpha f_term nth]. rewrite !powr2. reflexivity. }
    induction n as [|n IH]; [reflexivity|]. cbn [sum_terms slab_series]. rewrite IH, ht. reflexivity.
  - pose proof (proj1 (forallb_forall _ _) fh_sweep _ hi) as hs. unfold fh_sys in hs. cbn [slab_args] in hs.
    assert (ht : forall n, slab_heat_term (obj o (k / (rho * cp))) vt vs n = Ok (VNum (1 / (2 * INR n + 1) ^ 2 * (1 - exp (- ((2 * INR n + 1) * (PI / 2)) ^ 2 * (k / (rho * cp) * time / s ^ 2)))))).
    { intro n. pose proof (number_run _ _ _ _ (hm (2 * INR n + 1) (1 / (2 * INR n + 1) ^ 2)) hs) as q. cbn [run f_alpha var nth_error] in q. rewrite e in q. cbn [bind] in q.
      etransitivity; [apply q|].
      - cbn [def f_alpha f_hterm num nth]. defs.
      - cbn [num f_alpha f_hterm nth]. rewrite !powr2. reflexivity. }
    induction n as [|n IH]; [reflexivity|]. cbn [sum_terms heat_series]. rewrite IH, ht. reflexivity.
Qed.

Definition f_cool := FSub (FVar 0) (FMul (FMul (FSub (FVar 0) (FVar 1)) (FDiv (FNum 4) (FNum PI))) (FVar 2)).
Lemma cool_sweep : forallb (fun th => osys [qsimple Temperature 1 th; qsimple Temperature 1 th; Ok (VNum 1%Q)] f_cool (is_unit Temperature th)) temperatures = true.
Proof. vm_compute. reflexivity. Qed.
Lemma slab_th : forallb (fun x : string * string * string * string * string * string => let '(_, _, _, th, _, _) := x in mem_str th temperatures) slab_texts = true.
Proof. vm_compute. reflexivity. Qed.
Lemma finite_slab ud uc_ uk th l t (Ts To x s time rho cp k : R) vTs vTo vx vs vt vd vc vk n : In (ud, uc_, uk, th, l, t) slab_texts ->
  simple Temperature Ts th = Ok vTs -> simple Temperature To th = Ok vTo -> simple Length x l = Ok vx -> simple Length s l = Ok vs -> simple Time time t = Ok vt ->
  multi "Density" rho ud = Ok vd -> multi "HeatCapacity" cp uc_ = Ok vc -> multi "ThermalConductivity" k uk = Ok vk -> rho <> 0 -> cp <> 0 -> s <> 0 ->
  exists r, finite_slab_conduction vTs vTo vx vs vk vd vc vt n = Ok r /\
    is_simple Temperature (Ts - (Ts - To) * (4 / PI) * slab_series x s (k / (rho * cp) * time / s ^ 2) (S n)) th r.
Proof.
  intros hi h1 h2 h3 h4 h5 h6 h7 h8 nr nc ns. destruct (slab_terms _ _ _ _ _ _ x s time rho cp k _ _ _ _ _ _ hi h3 h4 h5 h6 h7 h8 nr nc ns) as [a [ea [hf _]]].
  unfold finite_slab_conduction. rewrite ea. cbn [bind]. rewrite hf. cbn [bind].
  pose proof (proj1 (forallb_forall _ _) slab_th _ hi) as hth. cbn beta iota in hth. apply mem_str_In in hth.
  pose proof (proj1 (forallb_forall _ _) cool_sweep _ hth) as hs. cbn beta in hs.
  set (S_ := slab_series x s (k / (rho * cp) * time / s ^ 2) (S n)).
  assert (hm : qmakes_all [qsimple Temperature 1 th; qsimple Temperature 1 th; Ok (VNum 1%Q)] [vTs; vTo; VNum S_] [Ts; To; S_]) by pmake.
  destruct (unit_run _ _ _ _ _ _ hm hs) as [r [e d]].
  { cbn. pose proof PI_RGT_0. repeat split; lra. }
  exists r. split; [exact e|exact d].
Qed.
(** Symmetry and boundary values. *)
Lemma slab_series_0 s fo n : slab_series 0 s fo n = 0.
Proof. induction n as [|n IH]; [reflexivity|]. cbn [slab_series]. rewrite IH. replace ((2 * INR n + 1) * PI * 0 / (2 * s)) with 0 by (unfold Rdiv; ring). rewrite sin_0. ring. Qed.
Lemma sin_odd n y : sin ((2 * INR n + 1) * PI - y) = sin y.
Proof. replace ((2 * INR n + 1) * PI - y) with ((PI - y) + 2 * INR n * PI) by ring. rewrite sin_period. apply sin_PI_x. Qed.
Lemma slab_series_sym x s fo n : s <> 0 -> slab_series (2 * s - x) s fo n = slab_series x s fo n.
Proof.
  intro hs. induction n as [|n IH]; [reflexivity|]. cbn [slab_series]. rewrite IH.
  replace ((2 * INR n + 1) * PI * (2 * s - x) / (2 * s)) with ((2 * INR n + 1) * PI - (2 * INR n + 1) * PI * x / (2 * s)) by (field; exact hs).
  rewrite sin_odd. reflexivity.
Qed.
Lemma exp_le_1 y : y <= 0 -> exp y <= 1.
Proof. intro h. rewrite <- exp_0. destruct h as [h| ->]; [left; apply exp_increasing, h|right; reflexivity]. Qed.
Lemma exp_lt_1 y : y < 0 -> exp y < 1.
Proof. intro h. rewrite <- exp_0. apply exp_increasing, h. Qed.
Lemma m_pos n : 0 < ((2 * INR n + 1) * (PI / 2)) ^ 2.
Proof. apply pow_lt. apply Rmult_lt_0_compat; [apply odd_pos|]. pose proof PI_RGT_0. lra. Qed.
Lemma inv_m2 n : 0 < 1 / (2 * INR n + 1) ^ 2.
Proof. apply Rdiv_lt_0_compat; [lra|]. apply pow_lt, odd_pos. Qed.
Lemma heat_series_inc fo n : 0 < fo -> heat_series fo n < heat_series fo (S n).
Proof.
  intro h. cbn [heat_series]. pose proof (inv_m2 n) as p. pose proof (m_pos n) as q.
  assert (e : exp (- ((2 * INR n + 1) * (PI / 2)) ^ 2 * fo) < 1) by (apply exp_lt_1; pose proof (Rmult_lt_0_compat _ _ q h); lra).
  assert (0 < 1 / (2 * INR n + 1) ^ 2 * (1 - exp (- ((2 * INR n + 1) * (PI / 2)) ^ 2 * fo))) by (apply Rmult_lt_0_compat; lra). lra.
Qed.
Lemma heat_series_fo fo fo' n : 0 <= fo -> fo < fo' -> (0 < n)%nat -> heat_series fo n < heat_series fo' n.
Proof.
  intros h0 h hn. destruct n as [|n]; [lia|]. clear hn.
  assert (ht : forall n, 1 / (2 * INR n + 1) ^ 2 * (1 - exp (- ((2 * INR n + 1) * (PI / 2)) ^ 2 * fo)) < 1 / (2 * INR n + 1) ^ 2 * (1 - exp (- ((2 * INR n + 1) * (PI / 2)) ^ 2 * fo'))).
  { intro i. apply Rmult_lt_compat_l; [apply inv_m2|]. apply Rplus_lt_compat_l, Ropp_lt_contravar, exp_increasing.
    pose proof (Rmult_lt_compat_l _ _ _ (m_pos i) h). lra. }
  induction n as [|n IH]; cbn [heat_series].
  - specialize (ht 0%nat). lra.
  - specialize (ht (S n)). cbn [heat_series] in IH. lra.
Qed.
Lemma heat_series_0 n : heat_series 0 n = 0.
Proof. induction n as [|n IH]; [reflexivity|]. cbn [heat_series]. rewrite IH. rewrite Rmult_0_r, exp_0. ring. Qed.

(** Heat taken up by the slab. *)
Definition f_taken := FMul (FDiv (FMul (FMul (FMul (FMul (FMul (FNum 8) (FVar 0)) (FVar 1)) (FVar 2)) (FSub (FVar 3) (FVar 4))) (FVar 5)) (FNum (PI ^ 2))) (FVar 6).
Definition tk_sys (M l e th : string) : bool :=
  osys [qsimple Length 1 l; qmulti "Density" 1 (M +++ "/" +++ l +++ "^3"); qmulti "HeatCapacity" 1 (e +++ "/" +++ M +++ "*" +++ th); qsimple Temperature 1 th; qsimple Temperature 1 th; qsimple Area 1 (l +++ "^2"); Ok (VNum 1%Q)] f_taken (in_unit e).
Lemma tk_sweep : forallb (fun M => forallb (fun l => forallb (fun e => forallb (tk_sys M l e) temperatures) energies) lengths) masses = true.
Proof. vm_compute. reflexivity. Qed.
Lemma slab_texts_in M l t e th uk : In M masses -> In l lengths -> In t times -> In e energies -> In th temperatures ->
  (uk = e +++ "/" +++ t +++ "*" +++ l +++ "*" +++ th \/ (e = "J" /\ t = "s" /\ uk = "W/" +++ l +++ "*" +++ th)) ->
  In (M +++ "/" +++ l +++ "^3", e +++ "/" +++ M +++ "*" +++ th, uk, th, l, t) slab_texts.
Proof.
  intros hM hl ht he hth hu. unfold slab_texts. apply in_or_app. destruct hu as [->|[-> [-> ->]]]; [left|right].
  - apply in_flat_map. exists M. split; [exact hM|]. apply in_flat_map. exists l. split; [exact hl|]. apply in_flat_map. exists t. split; [exact ht|].
    apply in_flat_map. exists e. split; [exact he|]. apply in_map_iff. exists th. split; [reflexivity|exact hth].
  - apply in_flat_map. exists M. split; [exact hM|]. apply in_flat_map. exists l. split; [exact hl|]. apply in_map_iff. exists th. split; [reflexivity|exact hth].
Qed.
Lemma slab_heat M l t e th uk (s rho cp Ts To k time A : R) vs vd vc vTs vTo vk vt vA n : In M masses -> In l lengths -> In t times -> In e energies -> In th temperatures ->
  (uk = e +++ "/" +++ t +++ "*" +++ l +++ "*" +++ th \/ (e = "J" /\ t = "s" /\ uk = "W/" +++ l +++ "*" +++ th)) ->
  simple Length s l = Ok vs -> multi "Density" rho (M +++ "/" +++ l +++ "^3") = Ok vd -> multi "HeatCapacity" cp (e +++ "/" +++ M +++ "*" +++ th) = Ok vc ->
  simple Temperature Ts th = Ok vTs -> simple Temperature To th = Ok vTo -> multi "ThermalConductivity" k uk = Ok vk -> simple Time time t = Ok vt -> simple Area A (l +++ "^2") = Ok vA ->
  rho <> 0 -> cp <> 0 -> s <> 0 ->
  exists r, finite_slab_total_heat vs vd vc vTs vTo vk vt vA n = Ok r /\
    value r = 8 * s * rho * cp * (Ts - To) * A / PI ^ 2 * heat_series (k / (rho * cp) * time / s ^ 2) n /\
    denotes r (8 * s * rho * cp * (Ts - To) * A / PI ^ 2 * heat_series (k / (rho * cp) * time / s ^ 2) n) e.
Proof.
  intros hM hl ht he hth hu h1 h2 h3 h4 h5 h6 h7 h8 nr nc ns.
  destruct (slab_terms _ _ _ _ _ _ s s time rho cp k _ _ _ _ _ _ (slab_texts_in _ _ _ _ _ _ hM hl ht he hth hu) h1 h1 h7 h2 h3 h6 nr nc ns) as [a [ea [_ hf]]].
  pose proof (sweep4 _ _ _ _ _ _ _ _ _ tk_sweep hM hl he hth) as hs. unfold tk_sys in hs.
  set (H := heat_series (k / (rho * cp) * time / s ^ 2) n).
  match type of hs with osys ?a _ _ = _ => assert (hm : qmakes_all a [vs; vd; vc; vTs; vTo; vA; VNum H] [s; rho; cp; Ts; To; A; H]) by pmake end.
  destruct (denotes_run _ _ _ _ _ hm hs) as [r [er [v d]]].
  { cbn. pose proof PI_RGT_0. repeat split. intro q. nra. }
  exists r. split; [|split; [exact v|exact d]].
  unfold finite_slab_total_heat. cbn [run f_taken var nth_error] in er. destruct (odiv _ _) as [left|] eqn:el in er; [|discriminate er]. rewrite el. cbn [bind].
  rewrite ea. cbn [bind]. rewrite hf. cbn [bind]. exact er.
Qed.

(** ** Diffusion *)
(** Concentration texts with a length and a time. *)
Definition diff_args (c l t : string) : list (res qval) :=
  [qmulti "Concentration" 1 c; qmulti "Concentration" 1 c; qsimple Length 1 l; qsimple Length 1 l; qmulti "DiffusionCoefficient" 1 (l +++ "^2/" +++ t); qsimple Time 1 t; Ok (VNum 1%Q); Ok (VNum 1%Q)].
Definition f_sd (g : R -> R) := FSub (FVar 0) (FMul (FSub (FVar 0) (FVar 1)) (FFun g (FDiv (FVar 2) (FPow (FMul (FMul (FNum 4) (FVar 4)) (FVar 5)) half_)))).
Definition sd_sys (g : R -> R) (c l t : string) : bool := osys (diff_args c l t) (f_sd g) (in_unit c).
Lemma sd_sweep g : forallb (fun c => forallb (fun l => forallb (sd_sys g c l) times) lengths) concentrations = true.
Proof. vm_compute. reflexivity. Qed.
Lemma semi_infinite_diffusion (g : R -> R) c l t (Cs Co z D time : R) vs vo vz vD vt : In c concentrations -> In l lengths -> In t times ->
  multi "Concentration" Cs c = Ok vs -> multi "Concentration" Co c = Ok vo -> simple Length z l = Ok vz -> multi "DiffusionCoefficient" D (l +++ "^2/" +++ t) = Ok vD ->
  simple Time time t = Ok vt -> 0 < D -> 0 < time ->
  exists r, semi_infinite_slab_diffusion g vs vo vz vD vt = Ok r /\ value r = Cs - (Cs - Co) * g (z / sqrt (4 * D * time)) /\
    denotes r (Cs - (Cs - Co) * g (z / sqrt (4 * D * time))) c.
Proof.
  intros hc hl ht h1 h2 h3 h4 h5 pD pt. pose proof (sweep3 _ _ _ _ _ _ _ (sd_sweep g) hc hl ht) as hs. unfold sd_sys, diff_args in hs.
  match type of hs with osys ?a _ _ = _ => assert (hm : qmakes_all a [vs; vo; vz; vz; vD; vt; VNum 1; VNum 1] [Cs; Co; z; z; D; time; 1; 1]) by pmake end.
  assert (pa : 0 < 4 * D * time) by (apply Rmult_lt_0_compat; [lra|exact pt]).
  assert (hn : num [Cs; Co; z; z; D; time; 1; 1] (f_sd g) = Cs - (Cs - Co) * g (z / sqrt (4 * D * time))) by (cbn [num f_sd nth]; rewrite half_pow by exact pa; reflexivity).
  destruct (denotes_run _ _ _ _ _ hm hs) as [r [e [v d]]].
  { cbn [def f_sd num nth]. repeat split; try exact I. - apply powr_def, pa. - rewrite half_pow by exact pa. apply sqrt_nz, pa. }
  rewrite hn in *. exists r. split; [exact e|]. split; [exact v|exact d].
Qed.
Definition f_dt (g : R -> R) := FMul (FVar 7) (FAdd (FFun g (FDiv (FAdd (FMul (FVar 6) (FVar 2)) (FVar 3)) (FPow (FMul (FMul (FNum 4) (FVar 4)) (FVar 5)) half_)))
  (FFun g (FDiv (FSub (FMul (FVar 6) (FVar 2)) (FVar 3)) (FPow (FMul (FMul (FNum 4) (FVar 4)) (FVar 5)) half_)))).
Definition dt_sys (g : R -> R) (c l t : string) : bool := osys (diff_args c l t) (f_dt g) is_number.
Lemma dt_sweep g : forallb (fun c => forallb (fun l => forallb (dt_sys g c l) times) lengths) ["mol/L"] = true.
Proof. vm_compute. reflexivity. Qed.
Definition f_df := FSub (FVar 0) (FMul (FSub (FVar 0) (FVar 1)) (FVar 6)).
Definition df_sys (c l t : string) : bool := osys (diff_args c l t) f_df (in_unit c).
Lemma df_sweep : forallb (fun c => forallb (fun l => forallb (df_sys c l) times) lengths) concentrations = true.
Proof. vm_compute. reflexivity. Qed.
Lemma finite_diffusion (g : R -> R) c l t (Cs Co a z D time : R) vs vo va vz vD vt n : In c concentrations -> In l lengths -> In t times ->
  multi "Concentration" Cs c = Ok vs -> multi "Concentration" Co c = Ok vo -> simple Length a l = Ok va -> simple Length z l = Ok vz ->
  multi "DiffusionCoefficient" D (l +++ "^2/" +++ t) = Ok vD -> simple Time time t = Ok vt -> 0 < D -> 0 < time ->
  exists r, finite_slab_diffusion g vs vo va vz vD vt n = Ok r /\ value r = Cs - (Cs - Co) * diffusion_series g a z (sqrt (4 * D * time)) n /\
    denotes r (Cs - (Cs - Co) * diffusion_series g a z (sqrt (4 * D * time)) n) c.
Proof.
  intros hc hl ht h1 h2 h3 h4 h5 h6 pD pt. assert (pa : 0 < 4 * D * time) by (apply Rmult_lt_0_compat; [lra|exact pt]).
  assert (hsum : forall n, sum_terms (slab_diffusion_term g va vz vD vt) n = Ok (VNum (diffusion_series g a z (sqrt (4 * D * time)) n))).
  { destruct (multi "Concentration" 1 "mol/L") as [v0|] eqn:h0; [|vm_compute in h0; discriminate].
    pose proof (sweep3 _ _ _ _ _ _ _ (dt_sweep g) (or_introl eq_refl) hl ht) as hs. unfold dt_sys, diff_args in hs.
    assert (hterm : forall n, slab_diffusion_term g va vz vD vt n = Ok (VNum ((-1) ^ n * (g (((2 * INR n + 1) * a + z) / sqrt (4 * D * time)) + g (((2 * INR n + 1) * a - z) / sqrt (4 * D * time)))))).
    { intro i. match type of hs with osys ?q _ _ = _ => assert (hm : qmakes_all q [v0; v0; va; vz; vD; vt; VNum (2 * INR i + 1); VNum ((-1) ^ i)] [1; 1; a; z; D; time; 2 * INR i + 1; (-1) ^ i]) by pmake end.
      pose proof (number_run _ _ _ _ hm hs) as q. etransitivity; [apply q|].
      - cbn [def f_dt num nth]. repeat split; try exact I; try (apply powr_def, pa); rewrite half_pow by exact pa; apply sqrt_nz, pa.
      - cbn [num f_dt nth]. rewrite half_pow by exact pa. reflexivity. }
    induction n0 as [|i IH]; [reflexivity|]. cbn [sum_terms diffusion_series]. rewrite IH, hterm. reflexivity. }
  pose proof (sweep3 _ _ _ _ _ _ _ df_sweep hc hl ht) as hs. unfold df_sys, diff_args in hs. unfold finite_slab_diffusion. rewrite hsum. cbn [bind].
  set (S_ := diffusion_series g a z (sqrt (4 * D * time)) n).
  match type of hs with osys ?q _ _ = _ => assert (hm : qmakes_all q [vs; vo; va; vz; vD; vt; VNum S_; VNum 1] [Cs; Co; a; z; D; time; S_; 1]) by pmake end.
  destruct (denotes_run _ _ _ _ _ hm hs) as [r [e [v d]]]; [cbn; tauto|]. exists r. split; [exact e|]. split; [exact v|exact d].
Qed.
Lemma diffusion_series_sym g a z w n : diffusion_series g a (- z) w n = diffusion_series g a z w n.
Proof.
  induction n as [|n IH]; [reflexivity|]. cbn [diffusion_series]. rewrite IH. do 2 f_equal.
  replace ((2 * INR n + 1) * a + - z) with ((2 * INR n + 1) * a - z) by ring. replace ((2 * INR n + 1) * a - - z) with ((2 * INR n + 1) * a + z) by ring. ring.
Qed.
Lemma grashof_text_ex : exists vg vb v2 v1 vL vrho vmu u,
  multi "Acceleration" 9.81 "m/s^2" = Ok vg /\ constant 1 "1/K" = Ok vb /\ simple Temperature 2 "K" = Ok v2 /\ simple Temperature 1 "K" = Ok v1 /\ simple Length 1 "m" = Ok vL /\
  multi "Density" 1 "kg/m^3" = Ok vrho /\ multi "DynamicViscosity" 1 "kg/m*s" = Ok vmu /\ grashof vg vb v2 v1 vL vrho vmu = Ok (VUnit u).
Proof.
  destruct (multi "Acceleration" 9.81 "m/s^2") as [vg|] eqn:h1; [|vm_compute in h1; discriminate].
  destruct (constant 1 "1/K") as [vb|] eqn:h2; [|vm_compute in h2; discriminate].
  destruct (multi "Density" 1 "kg/m^3") as [vrho|] eqn:h3; [|vm_compute in h3; discriminate].
  destruct (multi "DynamicViscosity" 1 "kg/m*s") as [vmu|] eqn:h4; [|vm_compute in h4; discriminate].
  destruct (simple Temperature 2 "K") as [v2|] eqn:h5; [|vm_compute in h5; discriminate].
  destruct (simple Temperature 1 "K") as [v1|] eqn:h6; [|vm_compute in h6; discriminate].
  destruct (simple Length 1 "m") as [vL|] eqn:h7; [|vm_compute in h7; discriminate].
  destruct (grashof_text _ _ _ _ _ _ _ _ _ _ _ _ _ _ h1 h2 h5 h6 h7 h3 h4 ltac:(lra)) as [u [hu _]].
  exists vg, vb, v2, v1, vL, vrho, vmu, u. repeat split; exact hu.
Qed.
