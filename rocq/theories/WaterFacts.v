(** * WaterFacts *)
From Coq Require Import String List ZArith QArith Qcanon Bool Reals Qreals Lia Lra.
From Verif Require Import Py Num UnitsData UnitsStruct Units NumFacts Formulas WaterData Water WaterSpec.
Import ListNotations.
Local Open Scope string_scope.
Local Open Scope list_scope.
Local Open Scope R_scope.

(** ** Floor and ceiling *)
Lemma floor_spec x : IZR (Rfloor x) <= x < IZR (Rfloor x) + 1.
Proof. unfold Rfloor. destruct (archimed x) as [h1 h2]. rewrite minus_IZR. lra. Qed.
Lemma floor_unique x z : IZR z <= x < IZR z + 1 -> Rfloor x = z.
Proof.
  intros [h1 h2]. destruct (floor_spec x) as [h3 h4].
  assert (IZR (Rfloor x) < IZR (z + 1)) by (rewrite plus_IZR; lra). assert (IZR z < IZR (Rfloor x + 1)) by (rewrite plus_IZR; lra).
  apply lt_IZR in H. apply lt_IZR in H0. lia.
Qed.
Lemma ceil_unique x z : IZR z - 1 < x <= IZR z -> Rceil x = z.
Proof. intros [h1 h2]. unfold Rceil. rewrite (floor_unique (- x) (- z)); [lia|]. rewrite opp_IZR. lra. Qed.

(** ** The table, row by row of the grid *)
Definition grid (n : Z) : Z := (n * 10 + 275)%Z.
Definition gcell (n : Z) (p : string) : option cell := match item WATER_PROPERTIES (grid n) p with Ok c => Some c | Raise _ => None end.
Definition gnum (p : string) (n : Z) : Q := match gcell n p with Some (CN q) => q | _ => 0%Q end.
Definition nums : list string := filter (fun p => negb (String.eqb p "Phase")) WATER_PROPERTY_KEYS.
Lemma numeric_nums p : numeric p <-> In p nums.
Proof.
  unfold numeric, nums. rewrite filter_In. split; intros [h1 h2]; (split; [exact h1|]).
  - destruct (String.eqb_spec p "Phase"); [contradiction|reflexivity].
  - intro e. subst. discriminate h2.
Qed.
Fixpoint zrange (a : Z) (n : nat) : list Z := match n with O => nil | S n => a :: zrange (a + 1) n end.
Lemma zrange_in a n z : (a <= z < a + Z.of_nat n)%Z -> In z (zrange a n).
Proof.
  revert a. induction n as [|n IH]; intros a h; [lia|]. cbn [zrange]. destruct (Z.eq_dec a z); [left; assumption|right; apply IH; lia].
Qed.
Lemma all_z f a n : forallb f (zrange a n) = true -> forall z, (a <= z < a + Z.of_nat n)%Z -> f z = true.
Proof. intros h z hz. rewrite forallb_forall in h. apply h, zrange_in, hz. Qed.
Definition is_num_cell (c : option cell) : bool := match c with Some (CN _) => true | _ => false end.
Lemma cells_ok : forallb (fun z => forallb (fun p => is_num_cell (gcell z p)) nums) (zrange 0 108) = true.
Proof. vm_compute. reflexivity. Qed.
Definition phase_at (n : Z) : string := if (n <=? 9)%Z then "liquid" else "vapor".
Lemma phases_ok : forallb (fun z => match gcell z "Phase" with Some (CT s) => String.eqb s (phase_at z) | _ => false end) (zrange 0 108) = true.
Proof. vm_compute. reflexivity. Qed.
Lemma cell_num z p : (0 <= z < 108)%Z -> In p nums -> item WATER_PROPERTIES (grid z) p = Ok (CN (gnum p z)).
Proof.
  intros hz hp. pose proof (all_z _ _ _ cells_ok z ltac:(lia)) as h. rewrite forallb_forall in h. specialize (h p hp).
  unfold gnum, gcell in *. destruct (item WATER_PROPERTIES (grid z) p) as [[q|s]|e]; cbn in h; [reflexivity|discriminate|discriminate].
Qed.
Lemma cell_phase z : (0 <= z < 108)%Z -> item WATER_PROPERTIES (grid z) "Phase" = Ok (CT (phase_at z)).
Proof.
  intro hz. pose proof (all_z _ _ _ phases_ok z ltac:(lia)) as h. unfold gcell in h. destruct (item WATER_PROPERTIES (grid z) "Phase") as [[q|s]|e]; try discriminate h.
  apply String.eqb_eq in h. subst. reflexivity.
Qed.

(** ** The answer *)
Definition cell_of (T : R) : Z := Rfloor ((T - 275) / 10).
Definition interp (p : string) (T : R) : R :=
  Q2R (gnum p (cell_of T)) + (T - IZR (grid (cell_of T))) * ((Q2R (gnum p (cell_of T + 1)) - Q2R (gnum p (cell_of T))) / 10).
Definition phase_of (T : R) : string := if Rltb 365 T then "vapor" else "liquid".
Lemma grid_R n : IZR (grid n) = IZR n * 10 + 275.
Proof. unfold grid. rewrite plus_IZR, mult_IZR. reflexivity. Qed.
Lemma cell_range T : 275 <= T <= 1345 -> (0 <= cell_of T <= 107)%Z.
Proof.
  intro h. unfold cell_of. destruct (floor_spec ((T - 275) / 10)) as [h1 h2]. set (z := Rfloor _) in *.
  split.
  - assert (-1 < z)%Z; [|lia]. apply lt_IZR. lra.
  - assert (z < 108)%Z; [|lia]. apply lt_IZR. lra.
Qed.
Lemma cell_spec T : IZR (grid (cell_of T)) <= T < IZR (grid (cell_of T)) + 10.
Proof. rewrite grid_R. unfold cell_of. destruct (floor_spec ((T - 275) / 10)) as [h1 h2]. lra. Qed.
Lemma ceil_cases T : (T = IZR (grid (cell_of T)) /\ Rceil ((T - 275) / 10) = cell_of T) \/ (IZR (grid (cell_of T)) < T /\ Rceil ((T - 275) / 10) = (cell_of T + 1)%Z).
Proof.
  destruct (cell_spec T) as [h1 h2]. rewrite grid_R in *. destruct (Req_dec T (IZR (cell_of T) * 10 + 275)) as [e|n].
  - left. split; [exact e|]. apply ceil_unique. lra.
  - right. split; [lra|]. apply ceil_unique. rewrite plus_IZR. lra.
Qed.
Lemma last_cell T : 275 <= T <= 1345 -> IZR (grid (cell_of T)) < T -> (cell_of T < 107)%Z.
Proof. intros h hl. pose proof (cell_range T h). assert (cell_of T <> 107)%Z; [|lia]. intro e. rewrite e, grid_R in hl. lra. Qed.
Lemma one_num T p : 275 <= T <= 1345 -> In p nums ->
  one_property WATER_PROPERTIES T (grid (cell_of T)) (grid (Rceil ((T - 275) / 10))) p = Ok (WN (interp p T)).
Proof.
  intros h hp. pose proof (cell_range T h) as hc. unfold one_property. rewrite (cell_num _ p) by (lia || assumption). cbn [bind].
  assert (np : String.eqb p "Phase" = false). { apply numeric_nums in hp. destruct hp as [_ hp]. destruct (String.eqb_spec p "Phase"); [contradiction|reflexivity]. }
  destruct (ceil_cases T) as [[e ->]|[hl ->]].
  - rewrite (cell_num _ p) by (lia || assumption). cbn [bind cell_eqb]. rewrite Qeq_bool_refl. unfold interp. rewrite <- e. cbn [cell_val]. do 2 f_equal. ring.
  - pose proof (last_cell T h hl). rewrite (cell_num (cell_of T + 1) p) by (lia || assumption). cbn [bind cell_eqb]. rewrite np. cbn [negb].
    destruct (Qeq_bool (gnum p (cell_of T)) (gnum p (cell_of T + 1))) eqn:eq.
    + apply Qeq_bool_iff in eq. unfold interp. rewrite <- (Qeq_eqR _ _ eq). cbn [cell_val]. do 2 f_equal. unfold Rdiv. ring.
    + rewrite !grid_R, plus_IZR. rewrite pydiv_ok by lra. cbn [bind]. unfold interp. rewrite grid_R. do 2 f_equal.
      replace ((IZR (cell_of T) + 1) * 10 + 275 - (IZR (cell_of T) * 10 + 275)) with 10 by ring. reflexivity.
Qed.
Lemma one_phase T : 275 <= T <= 1345 ->
  one_property WATER_PROPERTIES T (grid (cell_of T)) (grid (Rceil ((T - 275) / 10))) "Phase" = Ok (WT (phase_of T)).
Proof.
  intro h. pose proof (cell_range T h) as hc. unfold one_property. rewrite cell_phase by lia. cbn [bind]. destruct (cell_spec T) as [s1 s2]. rewrite grid_R in s1, s2.
  destruct (ceil_cases T) as [[e ->]|[hl ->]].
  - rewrite cell_phase by lia. cbn [bind cell_eqb]. rewrite String.eqb_refl. cbn [cell_val]. do 2 f_equal. unfold phase_at, phase_of. rewrite grid_R in e.
    destruct (Z.leb_spec (cell_of T) 9) as [l|l]; destruct (Rltb 365 T) eqn:hb; try reflexivity; exfalso.
    + apply Rltb_true in hb. apply IZR_le in l. lra.
    + apply Rltb_false in hb. assert (hh : (10 <= cell_of T)%Z) by lia. apply IZR_le in hh. lra.
  - pose proof (last_cell T h hl) as hq. rewrite cell_phase by lia. cbn [bind cell_eqb]. rewrite grid_R in hl.
    assert (hp : phase_at (cell_of T + 1) = phase_of T).
    { unfold phase_at, phase_of. destruct (Z.leb_spec (cell_of T + 1) 9) as [l|l]; destruct (Rltb 365 T) eqn:hb; try reflexivity; exfalso.
      - apply Rltb_true in hb. apply IZR_le in l. rewrite plus_IZR in l. lra.
      - apply Rltb_false in hb. assert (hh : (9 <= cell_of T)%Z) by lia. apply IZR_le in hh. lra. }
    rewrite hp. destruct (String.eqb_spec (phase_at (cell_of T)) (phase_of T)) as [->|]; reflexivity.
Qed.
Definition answer (T : R) : list wv :=
  [WN T; WN (interp k_p T); WN (interp k_cp T); WN (interp k_cv T); WN (interp k_rho T); WN (interp k_h T); WN (interp k_s T); WN (interp k_u T);
   WT (phase_of T); WN (interp k_k T); WN (interp k_mu T); WN (interp k_v T)].
Lemma water_ok T : 275 <= T <= 1345 -> get_water_properties T = Ok (answer T).
Proof.
  intro h. unfold get_water_properties. rewrite (proj2 (Rltb_false T 275)) by lra. rewrite (proj2 (Rltb_false 1345 T)) by lra. cbn [negb andb].
  change (Rfloor ((T - 275) / 10) * 10 + 275)%Z with (grid (cell_of T)). change (Rceil ((T - 275) / 10) * 10 + 275)%Z with (grid (Rceil ((T - 275) / 10))).
  unfold get_property_data, WATER_PROPERTY_KEYS. cbn [properties_of].
  change k_phase with "Phase". rewrite one_phase by exact h. rewrite !one_num by (try exact h; vm_compute; tauto). reflexivity.
Qed.
Lemma water_out T : T < 275 \/ 1345 < T -> get_water_properties T = Raise EOutOfRangeProperty.
Proof.
  intro h. unfold get_water_properties. destruct (Rltb T 275) eqn:e1; [reflexivity|]. destruct (Rltb 1345 T) eqn:e2; [reflexivity|].
  apply Rltb_false in e1. apply Rltb_false in e2. lra.
Qed.
Lemma reported_num T p : In p nums -> reported (answer T) p = Some (WN (interp p T)).
Proof. intro hp. cbv [nums WATER_PROPERTY_KEYS filter negb] in hp. revert hp. vm_compute (String.eqb _ _). cbn. intro hp. repeat (destruct hp as [<-|hp]; [reflexivity|]). destruct hp. Qed.
Lemma reported_phase T : reported (answer T) "Phase" = Some (WT (phase_of T)).
Proof. reflexivity. Qed.

(** ** Table rows *)
Lemma row_at_in d k r : row_at d k = Some r -> exists q, In (q, r) d /\ Q2R q = IZR k.
Proof.
  induction d as [|[t x] d IH]; [discriminate|]. cbn [row_at]. destruct (row_at d k) as [r'|].
  - intro e. destruct (IH e) as [q [h1 h2]]. exists q. split; [right; exact h1|exact h2].
  - destruct (Qeq_bool t (inject_Z k)) eqn:eq; [|discriminate]. intro e. injection e as ->. exists t. split; [left; reflexivity|].
    apply Qeq_bool_iff in eq. rewrite (Qeq_eqR _ _ eq). unfold Q2R, inject_Z. cbn. field.
Qed.
Lemma dict_in {V} (d : list (string * V)) k v : dict_get d k = Some v -> In (k, v) d.
Proof.
  induction d as [|[t x] d IH]; [discriminate|]. cbn [dict_get]. destruct (dict_get d k) as [r'|].
  - intro e. right. apply IH, e.
  - destruct (String.eqb_spec t k) as [->|]; [|discriminate]. intro e. injection e as ->. left. reflexivity.
Qed.
Lemma item_tab k p c : item WATER_PROPERTIES k p = Ok c -> tabulated p (IZR k) (cell_val c).
Proof.
  unfold item. destruct (row_at WATER_PROPERTIES k) as [r|] eqn:e; [|discriminate]. destruct (dict_get r p) as [c'|] eqn:e'; [|discriminate].
  intro h. injection h as <-. destruct (row_at_in _ _ _ e) as [q [h1 h2]]. exists q, r, c'. split; [exact h1|]. split; [apply dict_in, e'|]. split; [symmetry; exact h2|reflexivity].
Qed.
(** Every row but the boiling row is on the grid and holds each property once. *)
Definition on_grid (q : Q) : bool := Qeq_bool q (37312 # 100) || existsb (fun z => Qeq_bool q (inject_Z (grid z))) (zrange 0 173).
Lemma rows_ok : forallb (fun x => on_grid (fst x)) WATER_PROPERTIES = true.
Proof. vm_compute. reflexivity. Qed.
Lemma row_grid q r : In (q, r) WATER_PROPERTIES -> Q2R q <> boiling -> exists z, (0 <= z < 173)%Z /\ Q2R q = IZR (grid z).
Proof.
  intros h hb. pose proof rows_ok as ho. rewrite forallb_forall in ho. specialize (ho _ h). cbn [fst] in ho. unfold on_grid in ho.
  apply orb_true_iff in ho. destruct ho as [ho|ho].
  - apply Qeq_bool_iff in ho. exfalso. apply hb. rewrite (Qeq_eqR _ _ ho). unfold boiling, Q2R. cbn [Qnum Qden]. lra.
  - apply existsb_exists in ho. destruct ho as [z [hz e]]. exists z. apply Qeq_bool_iff in e. rewrite (Qeq_eqR _ _ e). split.
    + clear -hz. assert (hg : forall n a z, In z (zrange a n) -> (a <= z < a + Z.of_nat n)%Z).
      { induction n as [|n IH]; intros a y hy; [destruct hy|]. cbn [zrange] in hy. destruct hy as [<-|hy]; [lia|]. specialize (IH _ _ hy). lia. }
      apply (hg 173%nat 0%Z z hz).
    + unfold Q2R, inject_Z. cbn. field.
Qed.
(** The keys and the columns of the table are unambiguous. *)
Lemma cell_same z p q r c : (0 <= z < 108)%Z -> In p WATER_PROPERTY_KEYS -> In (q, r) WATER_PROPERTIES -> Q2R q = IZR (grid z) -> In (p, c) r -> item WATER_PROPERTIES (grid z) p = Ok c.
Proof.
  intros hz hp h hq hc.
  assert (hb : forallb (fun x => forallb (fun z => if Qeq_bool (fst x) (inject_Z (grid z)) then (forallb (fun y => match item WATER_PROPERTIES (grid z) (fst y), snd y with
     | Ok (CN a), CN b => Zeq_bool (Qnum a) (Qnum b) && Pos.eqb (Qden a) (Qden b) | Ok (CT a), CT b => String.eqb a b | _, _ => false end) (snd x)) else true) (zrange 0 108)) WATER_PROPERTIES = true) by (vm_compute; reflexivity).
  rewrite forallb_forall in hb. specialize (hb _ h). rewrite forallb_forall in hb. specialize (hb z (zrange_in 0 108 z ltac:(lia))). cbn [fst snd] in hb.
  assert (eq : Qeq_bool q (inject_Z (grid z)) = true). { apply Qeq_bool_iff. apply eqR_Qeq. rewrite hq. unfold Q2R, inject_Z. cbn. field. }
  rewrite eq in hb. rewrite forallb_forall in hb. specialize (hb _ hc). cbn [fst snd] in hb.
  destruct (item WATER_PROPERTIES (grid z) p) as [[[a1 a2]|a]|]; destruct c as [[b1 b2]|b]; try discriminate hb.
  - cbn [Qnum Qden] in hb. apply andb_true_iff in hb. destruct hb as [h1 h2]. apply Zeq_bool_eq in h1. apply Pos.eqb_eq in h2. subst. reflexivity.
  - apply String.eqb_eq in hb. subst. reflexivity.
Qed.
Lemma interp_at z p : (0 <= z < 108)%Z -> interp p (IZR (grid z)) = Q2R (gnum p z).
Proof.
  intro hz. assert (e : cell_of (IZR (grid z)) = z). { unfold cell_of. apply floor_unique. rewrite grid_R. lra. }
  unfold interp. rewrite e. ring.
Qed.
Lemma key_cases p : In p WATER_PROPERTY_KEYS -> In p nums \/ p = "Phase".
Proof. intro h. destruct (String.eqb_spec p "Phase"); [right; assumption|left; apply numeric_nums; split; assumption]. Qed.
(** At a tabulated temperature of the supported range, other than the boiling row:
    the row. *)
Lemma at_row p t x : In p WATER_PROPERTY_KEYS -> tabulated p t x -> t <= 1345 -> t <> boiling ->
  exists l, get_water_properties t = Ok l /\ hd_error l = Some (WN t) /\ reported l p = Some x.
Proof.
  intros hp [q [r [c [h1 [h2 [-> ->]]]]]] ht hb. destruct (row_grid _ _ h1 hb) as [z [hz e]].
  assert (hz' : (0 <= z < 108)%Z). { rewrite e, grid_R in ht. assert (z <= 107)%Z by (apply le_IZR; lra). lia. }
  assert (hT : 275 <= IZR (grid z) <= 1345). { rewrite e in ht. split; [|exact ht]. rewrite grid_R. assert (0 <= IZR z) by (apply IZR_le; lia). lra. }
  exists (answer (Q2R q)). rewrite e. split; [apply water_ok; exact hT|]. split; [reflexivity|].
  pose proof (cell_same z p q r c hz' hp h1 e h2) as hi. destruct (key_cases p hp) as [hn| ->].
  - rewrite reported_num by exact hn. rewrite interp_at by exact hz'. rewrite cell_num in hi by assumption. injection hi as <-. reflexivity.
  - rewrite reported_phase. rewrite cell_phase in hi by assumption. injection hi as <-. cbn [cell_val]. do 2 f_equal.
    unfold phase_of, phase_at. destruct (Z.leb_spec z 9) as [l|l]; destruct (Rltb 365 (IZR (grid z))) eqn:hh; try reflexivity; exfalso.
    + apply Rltb_true in hh. rewrite grid_R in hh. apply IZR_le in l. lra.
    + apply Rltb_false in hh. rewrite grid_R in hh. assert (h9 : (10 <= z)%Z) by lia. apply IZR_le in h9. lra.
Qed.

(** ** Between the rows *)
Lemma neighbours_grid z : neighbours (IZR (grid z)) (IZR (grid (z + 1))).
Proof.
  split; [rewrite !grid_R, plus_IZR; lra|]. intros p t x [q [r [c [h1 [_ [-> _]]]]]] hb. destruct (row_grid _ _ h1 hb) as [y [_ e]]. rewrite e.
  destruct (Z.le_gt_cases y z) as [l|l]; [left|right]; apply IZR_le; unfold grid; lia.
Qed.
Lemma mix_between a b s : 0 <= s <= 1 -> Rmin a b <= a + s * (b - a) <= Rmax a b.
Proof.
  intro h. destruct (Rle_dec a b) as [l|l].
  - rewrite Rmin_left, Rmax_right by lra. assert (0 <= s * (b - a)) by (apply Rmult_le_pos; lra). assert (s * (b - a) <= 1 * (b - a)) by (apply Rmult_le_compat_r; lra). lra.
  - rewrite Rmin_right, Rmax_left by lra. assert (0 <= s * (a - b)) by (apply Rmult_le_pos; lra). assert (s * (a - b) <= 1 * (a - b)) by (apply Rmult_le_compat_r; lra). lra.
Qed.
Lemma between p T : numeric p -> 275 <= T < 1345 -> exists l y t1 t2 x1 x2, get_water_properties T = Ok l /\ reported l p = Some (WN y) /\
  neighbours t1 t2 /\ t1 <= T < t2 /\ tabulated p t1 (WN x1) /\ tabulated p t2 (WN x2) /\
  y = x1 + (T - t1) / (t2 - t1) * (x2 - x1) /\ Rmin x1 x2 <= y <= Rmax x1 x2.
Proof.
  intros hp h. apply numeric_nums in hp. pose proof (cell_range T ltac:(lra)) as hc. set (z := cell_of T) in *.
  assert (hz : (z < 107)%Z). { destruct (cell_spec T) as [s1 _]. fold z in s1. rewrite grid_R in s1. apply lt_IZR. lra. }
  exists (answer T), (interp p T), (IZR (grid z)), (IZR (grid (z + 1))), (Q2R (gnum p z)), (Q2R (gnum p (z + 1))).
  destruct (cell_spec T) as [s1 s2]. fold z in s1, s2.
  assert (e2 : IZR (grid (z + 1)) = IZR (grid z) + 10) by (rewrite !grid_R, plus_IZR; ring).
  assert (e : interp p T = Q2R (gnum p z) + (T - IZR (grid z)) / (IZR (grid (z + 1)) - IZR (grid z)) * (Q2R (gnum p (z + 1)) - Q2R (gnum p z))).
  { unfold interp. fold z. rewrite e2. replace (IZR (grid z) + 10 - IZR (grid z)) with 10 by ring. unfold Rdiv. ring. }
  split; [apply water_ok; lra|]. split; [apply reported_num; exact hp|]. split; [apply neighbours_grid|]. split; [lra|].
  split; [apply item_tab with (c := CN (gnum p z)), cell_num; (lia || assumption)|].
  split; [apply item_tab with (c := CN (gnum p (z + 1))), cell_num; (lia || assumption)|]. split; [exact e|].
  rewrite e. apply mix_between. rewrite e2. replace (IZR (grid z) + 10 - IZR (grid z)) with 10 by ring. split; lra.
Qed.

(** ** Continuity: at most 300 units per kelvin *)
Definition steep (p : string) (z : Z) : bool := Qle_bool (gnum p (z + 1) - gnum p z) 3000 && Qle_bool (gnum p z - gnum p (z + 1)) 3000.
Lemma steep_ok : forallb (fun z => forallb (fun p => steep p z) nums) (zrange 0 107) = true.
Proof. vm_compute. reflexivity. Qed.
Lemma step_bound p z : In p nums -> (0 <= z < 107)%Z -> Rabs (Q2R (gnum p (z + 1)) - Q2R (gnum p z)) <= 3000.
Proof.
  intros hp hz. pose proof (all_z _ _ _ steep_ok z ltac:(lia)) as h. rewrite forallb_forall in h. specialize (h p hp). unfold steep in h. apply andb_true_iff in h.
  destruct h as [h1 h2]. apply Qle_bool_iff in h1. apply Qle_bool_iff in h2. apply Qle_Rle in h1. apply Qle_Rle in h2. rewrite Q2R_minus in h1, h2.
  assert (e : Q2R 3000 = 3000) by (unfold Q2R; cbn; lra). rewrite e in h1, h2. apply Rabs_le. lra.
Qed.
Lemma lip_cell p T : In p nums -> 275 <= T <= 1345 -> Rabs (interp p T - interp p (IZR (grid (cell_of T)))) <= 300 * (T - IZR (grid (cell_of T))).
Proof.
  intros hp h. pose proof (cell_range T h) as hc. rewrite interp_at by lia. destruct (cell_spec T) as [s1 s2]. unfold interp. set (z := cell_of T) in *.
  destruct (Req_dec T (IZR (grid z))) as [e|n].
  - rewrite <- e. replace (Q2R (gnum p z) + (T - T) * _ - Q2R (gnum p z)) with 0 by ring. rewrite Rabs_R0. lra.
  - pose proof (last_cell T h ltac:(unfold z in *; lra)) as hz. fold z in hz. pose proof (step_bound p z hp ltac:(lia)) as hs.
    replace (Q2R (gnum p z) + (T - IZR (grid z)) * ((Q2R (gnum p (z + 1)) - Q2R (gnum p z)) / 10) - Q2R (gnum p z))
      with ((T - IZR (grid z)) * ((Q2R (gnum p (z + 1)) - Q2R (gnum p z)) / 10)) by ring.
    rewrite Rabs_mult, (Rabs_right (T - IZR (grid z))) by lra. unfold Rdiv. rewrite Rabs_mult, (Rabs_right (/ 10)) by lra.
    rewrite Rmult_comm. apply Rmult_le_compat_r; lra.
Qed.
Lemma lip_cell2 p T : In p nums -> 275 <= T <= 1345 -> (cell_of T < 107)%Z ->
  Rabs (interp p (IZR (grid (cell_of T + 1))) - interp p T) <= 300 * (IZR (grid (cell_of T + 1)) - T).
Proof.
  intros hp h hz. pose proof (cell_range T h) as hc. rewrite interp_at by lia. destruct (cell_spec T) as [s1 s2]. unfold interp. set (z := cell_of T) in *.
  pose proof (step_bound p z hp ltac:(lia)) as hs.
  assert (e2 : IZR (grid (z + 1)) = IZR (grid z) + 10) by (rewrite !grid_R, plus_IZR; ring). rewrite e2.
  replace (Q2R (gnum p (z + 1)) - (Q2R (gnum p z) + (T - IZR (grid z)) * ((Q2R (gnum p (z + 1)) - Q2R (gnum p z)) / 10)))
    with ((IZR (grid z) + 10 - T) * ((Q2R (gnum p (z + 1)) - Q2R (gnum p z)) / 10)) by field.
  rewrite Rabs_mult, (Rabs_right (IZR (grid z) + 10 - T)) by lra. unfold Rdiv. rewrite Rabs_mult, (Rabs_right (/ 10)) by lra.
  rewrite Rmult_comm. apply Rmult_le_compat_r; lra.
Qed.
Lemma lip_grid p n z : In p nums -> (0 <= z)%Z -> (z + Z.of_nat n < 108)%Z ->
  Rabs (interp p (IZR (grid (z + Z.of_nat n))) - interp p (IZR (grid z))) <= 300 * (IZR (grid (z + Z.of_nat n)) - IZR (grid z)).
Proof.
  intros hp hz. induction n as [|n IH]; intro hn.
  - rewrite Z.add_0_r. replace (_ - _) with 0 by ring. rewrite Rabs_R0. lra.
  - specialize (IH ltac:(lia)). rewrite Nat2Z.inj_succ in *. replace (z + Z.succ (Z.of_nat n))%Z with (z + Z.of_nat n + 1)%Z in * by lia. set (w := (z + Z.of_nat n)%Z) in *.
    pose proof (step_bound p w hp ltac:(unfold w; lia)) as hs. rewrite !interp_at in * by (unfold w in *; lia).
    assert (e2 : IZR (grid (w + 1)) = IZR (grid w) + 10) by (rewrite !grid_R, plus_IZR; ring). rewrite e2.
    replace (Q2R (gnum p (w + 1)) - Q2R (gnum p z)) with ((Q2R (gnum p (w + 1)) - Q2R (gnum p w)) + (Q2R (gnum p w) - Q2R (gnum p z))) by ring.
    eapply Rle_trans; [apply Rabs_triang|]. lra.
Qed.
Lemma lipschitz p T T' : In p nums -> 275 <= T -> T <= T' -> T' <= 1345 -> Rabs (interp p T' - interp p T) <= 300 * (T' - T).
Proof.
  intros hp h1 h2 h3. pose proof (cell_range T ltac:(lra)) as c1. pose proof (cell_range T' ltac:(lra)) as c2.
  destruct (cell_spec T) as [s1 s2]. destruct (cell_spec T') as [s3 s4].
  assert (hle : (cell_of T <= cell_of T')%Z). { assert (cell_of T < cell_of T' + 1)%Z; [|lia]. apply lt_IZR. rewrite plus_IZR. rewrite grid_R in *. lra. }
  destruct (Z.eq_dec (cell_of T) (cell_of T')) as [e|n].
  - destruct (Req_dec T T') as [<-|hn]; [replace (_ - _) with 0 by ring; rewrite Rabs_R0; lra|].
    assert (hl : (cell_of T < 107)%Z). { rewrite e. apply last_cell; [lra|]. rewrite <- e. lra. }
    pose proof (step_bound p (cell_of T) hp ltac:(lia)) as hs. unfold interp. rewrite <- e. set (z := cell_of T) in *.
    replace (Q2R (gnum p z) + (T' - IZR (grid z)) * ((Q2R (gnum p (z + 1)) - Q2R (gnum p z)) / 10) - (Q2R (gnum p z) + (T - IZR (grid z)) * ((Q2R (gnum p (z + 1)) - Q2R (gnum p z)) / 10)))
      with ((T' - T) * ((Q2R (gnum p (z + 1)) - Q2R (gnum p z)) / 10)) by ring.
    rewrite Rabs_mult, (Rabs_right (T' - T)) by lra. unfold Rdiv. rewrite Rabs_mult, (Rabs_right (/ 10)) by lra. rewrite Rmult_comm. apply Rmult_le_compat_r; lra.
  - assert (hl : (cell_of T < 107)%Z) by lia.
    pose proof (lip_cell2 p T hp ltac:(lra) hl) as a1. pose proof (lip_cell p T' hp ltac:(lra)) as a3.
    pose proof (lip_grid p (Z.to_nat (cell_of T' - (cell_of T + 1))) (cell_of T + 1) hp ltac:(lia) ltac:(lia)) as a2.
    rewrite Z2Nat.id in a2 by lia. replace (cell_of T + 1 + (cell_of T' - (cell_of T + 1)))%Z with (cell_of T') in a2 by lia.
    set (A := interp p (IZR (grid (cell_of T + 1)))) in *. set (B := interp p (IZR (grid (cell_of T')))) in *.
    replace (interp p T' - interp p T) with ((interp p T' - B) + ((B - A) + (A - interp p T))) by ring.
    eapply Rle_trans; [apply Rabs_triang|]. pose proof (Rabs_triang (B - A) (A - interp p T)). lra.
Qed.
Lemma continuous p T T' : numeric p -> 275 <= T <= 1345 -> 275 <= T' <= 1345 -> exists l l' y y',
  get_water_properties T = Ok l /\ get_water_properties T' = Ok l' /\ reported l p = Some (WN y) /\ reported l' p = Some (WN y') /\ Rabs (y - y') <= 300 * Rabs (T - T').
Proof.
  intros hp h h'. apply numeric_nums in hp. exists (answer T), (answer T'), (interp p T), (interp p T').
  split; [apply water_ok; exact h|]. split; [apply water_ok; exact h'|]. split; [apply reported_num; exact hp|]. split; [apply reported_num; exact hp|].
  destruct (Rle_dec T T') as [l|l].
  - rewrite Rabs_minus_sym, (Rabs_minus_sym T), (Rabs_right (T' - T)) by lra. apply lipschitz; (lra || assumption).
  - rewrite (Rabs_right (T - T')) by lra. apply lipschitz; (lra || assumption).
Qed.

(** ** Refutations *)
Lemma range_refuted : exists t x, tabulated k_cp t (WN x) /\ get_water_properties t = Raise EOutOfRangeProperty.
Proof.
  exists 1355, (Q2R (gnum k_cp 108)). split; [|apply water_out; lra].
  apply item_tab with (k := grid 108) (c := CN (gnum k_cp 108)). vm_compute. reflexivity.
Qed.
Lemma boiling_row_refuted : exists x l y, tabulated k_rho boiling (WN x) /\ get_water_properties boiling = Ok l /\ reported l k_rho = Some (WN y) /\ y > 100 * x.
Proof.
  exists (Q2R (29883 # 50000)), (answer boiling), (interp k_rho boiling). split; [|split; [apply water_ok; unfold boiling; lra|split; [apply reported_num; vm_compute; tauto|]]].
  - assert (h : exists r, find (fun x => Qeq_bool (fst x) (37312 # 100)) WATER_PROPERTIES = Some ((9328 # 25)%Q, r) /\ In (k_rho, CN (29883 # 50000)) r).
    { eexists. split; [vm_compute; reflexivity|]. vm_compute. tauto. }
    destruct h as [r [h1 h2]]. exists (9328 # 25)%Q, r, (CN (29883 # 50000)). split; [apply find_some in h1; apply h1|]. split; [exact h2|].
    split; [unfold boiling, Q2R; cbn [Qnum Qden]; lra|reflexivity].
  - assert (e : cell_of boiling = 9%Z) by (apply floor_unique; unfold boiling; lra). unfold interp. rewrite e.
    let v := eval vm_compute in (gnum k_rho 9) in replace (gnum k_rho 9) with v by (vm_compute; reflexivity).
    let v := eval vm_compute in (gnum k_rho (9 + 1)) in replace (gnum k_rho (9 + 1)) with v by (vm_compute; reflexivity).
    rewrite grid_R. unfold boiling, Q2R. cbn [Qnum Qden]. lra.
Qed.
Lemma phase_exact T : 275 <= T <= 1345 -> exists l, get_water_properties T = Ok l /\ reported l "Phase" = Some (WT (if Rltb 365 T then "vapor" else "liquid")).
Proof. intro h. exists (answer T). split; [apply water_ok; exact h|apply reported_phase]. Qed.
Lemma phase_partial T : 275 <= T <= 1345 -> T <= 365 \/ boiling < T -> exists l, get_water_properties T = Ok l /\
  (T < boiling -> reported l "Phase" = Some (WT "liquid")) /\ (boiling < T -> reported l "Phase" = Some (WT "vapor")).
Proof.
  intros h ho. exists (answer T). split; [apply water_ok; exact h|]. rewrite reported_phase. unfold phase_of, boiling in *. split; intro hb.
  - rewrite (proj2 (Rltb_false 365 T)) by lra. reflexivity.
  - rewrite (proj2 (Rltb_true 365 T)) by lra. reflexivity.
Qed.
Lemma phase_refuted T : 365 < T < boiling -> exists l, get_water_properties T = Ok l /\ reported l "Phase" = Some (WT "vapor").
Proof.
  unfold boiling. intro h. exists (answer T). split; [apply water_ok; lra|]. rewrite reported_phase. unfold phase_of. rewrite (proj2 (Rltb_true 365 T)) by lra. reflexivity.
Qed.

(** ** The Water object *)
Lemma water_object T : 275 <= T <= 1345 -> exists w l, get_water T = Ok w /\ get_water_properties T = Ok l /\
  w_pressure w = VUnit (UO Pressure T "MPa" (eint 1)) /\
  (exists y, reported l k_p = Some (WN y) /\ w_temperature w = VUnit (UO Temperature y "K" (eint 1))).
Proof.
  intro h. unfold get_water. rewrite water_ok by exact h. cbn [bind answer]. eexists. exists (answer T). split; [reflexivity|]. split; [reflexivity|]. split; [reflexivity|].
  eexists. split; [apply reported_num; vm_compute; tauto|reflexivity].
Qed.
Lemma water_rest T : 275 <= T <= 1345 -> exists w l, get_water T = Ok w /\ get_water_properties T = Ok l /\
  reported l "Phase" = Some (WT (w_phase w)) /\
  Forall (fun x => let '(p, c, s, v) := x in exists y, reported l p = Some (WN y) /\ rmap VMulti (mk_multi (MSub c) y s) = Ok v)
    [(k_cp, "Cp", "J/g*K", w_cp w); (k_cv, "Cv", "J/g*K", w_cv w); (k_rho, "Density", "kg/m^3", w_density w); (k_h, "Enthalpy", "kJ/kg", w_enthalpy w);
     (k_s, "Entropy", "J/g*K", w_entropy w); (k_u, "InternalEnergy", "kJ/kg", w_internal_energy w); (k_k, "ThermalConductivity", "W/m*K", w_conductivity w);
     (k_mu, "DynamicViscosity", "uPa*s", w_viscosity w); (k_v, "SpecificVolume", "m^3/kg", w_volume w)].
Proof.
  intro h. unfold get_water. rewrite water_ok by exact h. cbn [bind answer]. eexists. exists (answer T). split; [reflexivity|]. split; [reflexivity|]. split; [reflexivity|].
  repeat (apply Forall_cons; [eexists; split; [apply reported_num; vm_compute; tauto|reflexivity]|]). apply Forall_nil.
Qed.
Lemma water_label_refuted : exists w, get_water 300 = Ok w /\ exists x, w_temperature w = VUnit (UO Temperature x "K" (eint 1)) /\ x < 1.
Proof.
  destruct (water_object 300 ltac:(lra)) as [w [l [h1 [h2 [_ [y [hy ht]]]]]]]. exists w. split; [exact h1|]. exists y. split; [exact ht|].
  rewrite water_ok in h2 by lra. injection h2 as <-. rewrite reported_num in hy by (vm_compute; tauto). injection hy as <-.
  assert (e : cell_of 300 = 2%Z) by (apply floor_unique; lra). unfold interp. rewrite e.
  let v := eval vm_compute in (gnum k_p 2) in replace (gnum k_p 2) with v by (vm_compute; reflexivity).
  let v := eval vm_compute in (gnum k_p (2 + 1)) in replace (gnum k_p (2 + 1)) with v by (vm_compute; reflexivity).
  rewrite grid_R. unfold Q2R. cbn [Qnum Qden]. lra.
Qed.
