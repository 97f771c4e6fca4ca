(** * FloatConvert: conversions with rounded exponents *)
From Coq Require Import String Ascii List ZArith QArith Qcanon Bool Reals Qreals Lia Lra Psatz.
From Verif Require Import Py Num UnitsData UnitsStruct Units NumFacts Spec StructFacts ExpandFacts SimplifyFacts NamesFacts OpFacts FloatExp FloatRound FloatFacts FloatSimplify FloatSpec FloatOps.
Import ListNotations.
Local Open Scope string_scope.
Local Open Scope list_scope.
Local Open Scope R_scope.

(** ** Parsing rounds every exponent *)
Definition both (f : half -> half) (p : half * half) : half * half := (f (fst p), f (snd p)).
Lemma factor_rounds s : g_parse_factor fo s = rmap (fun x => BU (bname x) (eflt (fl (ev (bexp x))))) (parse_factor s).
Proof.
  unfold g_parse_factor, parse_factor. destruct (has_char "^" s).
  - destruct (split_on "^" s) as [|a [|b [|c l]]]; try reflexivity. destruct (py_float b); reflexivity.
  - cbn [rmap bname bexp ev eflt]. rewrite fl1. reflexivity.
Qed.
Lemma mapM_rounds l : mapM (g_parse_factor fo) l = rmap (rounded fl) (mapM parse_factor l).
Proof.
  induction l as [|s l IH]; [reflexivity|]. cbn [mapM]. rewrite factor_rounds, IH. destruct (parse_factor s) as [x|]; [|reflexivity]. cbn [rmap bind].
  destruct (mapM parse_factor l); reflexivity.
Qed.
Lemma half_rounds s : g_parse_half fo s = rmap (rounded fl) (parse_half s).
Proof. apply mapM_rounds. Qed.
Lemma parse_rounds s : g_parse_units fo s = rmap (both (rounded fl)) (parse_units s).
Proof.
  unfold g_parse_units, parse_units.
  assert (one : forall t, (let* top := g_parse_half fo t in Ok (top, @nil bu)) = rmap (both (rounded fl)) (let* top := parse_half t in Ok (top, nil))).
  { intro t. rewrite half_rounds. destruct (parse_half t); reflexivity. }
  destruct (split_on "/" s) as [|t [|b [|c l]]]; try exact (one s).
  rewrite half_rounds. destruct (parse_half b) as [bs|e]; cbn [rmap].
  - cbn [bind]. rewrite half_rounds. destruct (parse_half t); reflexivity.
  - destruct e; try reflexivity. exact (one s).
Qed.
Lemma factor_flt s x : parse_factor s = Ok x -> isf (bexp x) = true /\ has_char "^" (bname x) = false.
Proof.
  unfold parse_factor. destruct (has_char "^" s) eqn:h; [|intro k; injection k as <-; auto].
  destruct (split_on "^" s) as [|a [|b [|c l]]] eqn:hs; try discriminate. destruct (py_float b); [|discriminate]. cbn [bind]. intro k. injection k as <-. split; [reflexivity|].
  apply (split_on_no "^" s). rewrite hs. left. reflexivity.
Qed.
Lemma half_flt s l : parse_half s = Ok l -> forall x, In x l -> isf (bexp x) = true /\ has_char "^" (bname x) = false.
Proof.
  unfold parse_half. generalize (split_on "*" (strip s)). intro ts. revert l. induction ts as [|t ts IH]; intros l h; cbn [mapM] in h; [injection h as <-; intros x []|].
  destruct (parse_factor t) as [y|] eqn:e; [|discriminate]. cbn [bind] in h. destruct (mapM parse_factor ts) as [l'|] eqn:e'; [|discriminate]. cbn [bind] in h. injection h as <-.
  intros x [<-|hx]; [apply (factor_flt _ _ e)|apply (IH _ eq_refl _ hx)].
Qed.
Lemma parse_flt s p : parse_units s = Ok p -> forall x, In x (fst p ++ snd p) -> isf (bexp x) = true /\ has_char "^" (bname x) = false.
Proof.
  unfold parse_units. intros h x hx. apply in_app_or in hx.
  assert (one : forall t, (let* top := parse_half t in Ok (top, @nil bu)) = Ok p -> isf (bexp x) = true /\ has_char "^" (bname x) = false).
  { intros t k. destruct (parse_half t) as [l|] eqn:e; [|discriminate]. cbn [bind] in k. injection k as <-. destruct hx as [hx|[]]. apply (half_flt _ _ e _ hx). }
  destruct (split_on "/" s) as [|t [|b [|c l]]]; try exact (one s h).
  destruct (parse_half b) as [bs|e] eqn:eb.
  - cbn [bind] in h. destruct (parse_half t) as [l|] eqn:et; [|discriminate]. cbn [bind] in h. injection h as <-. cbn [fst snd] in hx. destruct hx as [hx|hx]; [apply (half_flt _ _ et _ hx)|apply (half_flt _ _ eb _ hx)].
  - destruct e; try discriminate. exact (one s h).
Qed.
Lemma rounded_same l : (forall x, In x l -> isf (bexp x) = true) -> (forall x, In x l -> fl (ev (bexp x)) = ev (bexp x)) -> rounded fl l = l.
Proof.
  intros hf hs. unfold rounded. rewrite <- (map_id l) at 2. apply map_ext_in. intros x hx. rewrite (hs x hx). specialize (hf x hx). destruct x as [n [i q]]. cbn in *. subst. reflexivity.
Qed.
Lemma parse_same s : (forall p, parse_units s = Ok p -> forall x, In x (fst p ++ snd p) -> short (bexp x)) -> g_parse_units fo s = parse_units s.
Proof.
  intro h. rewrite parse_rounds. destruct (parse_units s) as [p|] eqn:e; [|reflexivity]. cbn [rmap]. specialize (h p eq_refl). pose proof (parse_flt s p e) as f.
  unfold both. rewrite !rounded_same; [destruct p; reflexivity| | | |]; intros x hx; first [apply f, in_or_app; auto; fail|apply short_fl, h, in_or_app; auto|idtac]; apply (proj1 (f x (in_or_app _ _ _ ltac:(auto)))).
Qed.

(** ** Exact arithmetic gives back the model *)
Section Exact.
Context {T : Type} {N : Num T}.
Lemma class_exact c (t b : list (unit_obj T)) : ev (g_class_total exact_ops c t b) = class_total c t b.
Proof.
  unfold g_class_total, class_total.
  set (s := fold_right (fun u a => if match get_unit_class (un u) with Ok d => ucls_eqb c d | Raise _ => false end then (ev (ue u) + a)%Qc else a) (qc 0)).
  assert (p : forall l a, ev (fold_left (fun a (u : unit_obj T) => if in_class c u then e_add exact_ops a (ue u) else a) l a) = (ev a + s l)%Qc).
  { induction l as [|u l IH]; intro a; cbn [fold_left]; [unfold s; cbn [fold_right]; change (qc 0) with 0%Qc; ring|]. rewrite IH. unfold s. cbn [fold_right]. fold s.
    change (match get_unit_class (un u) with Ok d => ucls_eqb c d | Raise _ => false end) with (in_class c u). destruct (in_class c u); [|reflexivity]. cbn [exact_ops e_add eadd ev]. ring. }
  assert (m : forall l a, ev (fold_left (fun a (u : unit_obj T) => if in_class c u then e_sub exact_ops a (ue u) else a) l a) = (ev a - s l)%Qc).
  { induction l as [|u l IH]; intro a; cbn [fold_left]; [unfold s; cbn [fold_right]; change (qc 0) with 0%Qc; ring|]. rewrite IH. unfold s. cbn [fold_right]. fold s.
    change (match get_unit_class (un u) with Ok d => ucls_eqb c d | Raise _ => false end) with (in_class c u). destruct (in_class c u); [|reflexivity]. cbn [exact_ops e_sub esub ev]. ring. }
  rewrite m, p. change (ev (eint 0)) with 0%Qc. ring.
Qed.
Lemma dims_exact (t b t' b' : list (unit_obj T)) : g_same_dims exact_ops t b t' b' = same_dims t b t' b'.
Proof. unfold g_same_dims, same_dims. cbn [forallb all_ucls]. unfold eeqb. rewrite !class_exact. reflexivity. Qed.
Lemma loop_exact_ tb inv (l : list (unit_obj T)) f : g_factor_loop exact_ops tb inv l f = factor_loop tb inv l f.
Proof. revert f. induction l as [|u l IH]; intro f; [reflexivity|]. cbn [g_factor_loop factor_loop]. change (g_convert_and_get_factor exact_ops tb u) with (convert_and_get_factor tb u).
  destruct (convert_and_get_factor tb u) as [u'|]; [|reflexivity]. cbn [bind]. destruct inv; [destruct (pydiv _ _); [|reflexivity]|]; cbn [bind]; rewrite IH; reflexivity. Qed.
Lemma convert_exact tb (a : multi_obj T) s : g_multi_convert_to exact_ops tb a s = multi_convert_to tb a s.
Proof.
  unfold g_multi_convert_to, multi_convert_to. change (g_parse_units exact_ops) with parse_units. destruct (parse_units s) as [p|]; [|reflexivity]. cbn [bind].
  change (g_conv_prepare exact_ops (T := T)) with (conv_prepare (T := T)). destruct (conv_prepare (fst p) (snd p)) as [[[rt rb] rf]|]; [|reflexivity]. cbn [bind].
  destruct (conv_prepare (mtop a) (mbot a)) as [[[lt lb] lf]|]; [|reflexivity]. cbn [bind].
  assert (c : forall t b f, g_conv_factor exact_ops tb t b f = conv_factor tb t b f).
  { intros t b f. unfold g_conv_factor, conv_factor. rewrite loop_exact_. destruct (factor_loop tb false t _) as [r1|]; [|reflexivity]. cbn [bind]. rewrite loop_exact_. reflexivity. }
  rewrite c. destruct (conv_factor tb lt lb lf) as [[[lt' lb'] lf']|]; [|reflexivity]. cbn [bind]. rewrite c. destruct (conv_factor tb rt rb rf) as [[[rt' rb'] rf']|]; [|reflexivity]. cbn [bind].
  destruct (classes_known _); [|reflexivity]. cbn [bind]. rewrite dims_exact. reflexivity.
Qed.
Lemma unit_convert_exact tb (u : unit_obj T) s : g_unit_convert_to exact_ops tb u s = unit_convert_to tb u s.
Proof. reflexivity. Qed.
End Exact.

(** ** Rounded exponents *)
Definition bareb (l : half) : Prop := alln (fun n => has_char "^" n = false) l.
Lemma core_bare n : In n core_names -> has_char "^" n = false.
Proof. intro h. cbn in h. repeat (destruct h as [<-|h]; [reflexivity|]). destruct h. Qed.

Lemma split_on_none_ s : has_char "^" s = false -> split_on "^" s = [s].
Proof.
  induction s as [|a s IH]; [reflexivity|]. cbn. destruct (Ascii.eqb a "^"); [discriminate|]. cbn. intro k. rewrite IH by exact k. reflexivity.
Qed.

Section Same.
Context {T : Type} {N : Num T}.
Variable tb : tables T.
Lemma mk_parts (c : ucls) (v : T) n e u : has_char "^" n = false -> mk_unit c v n e = Ok u -> u = UO c v n e.
Proof.
  intros hn h. destruct c; cbn [mk_unit] in h; unfold split_caret in h; rewrite ?hn in h; try (injection h as <-; reflexivity); destruct (mem_str _ _); try discriminate; injection h as <-; reflexivity.
Qed.
Lemma base_same (l : half) : bareb l -> g_base_to_unit fo (T := T) l = base_to_unit l /\ forall us : list (unit_obj T), base_to_unit l = Ok us -> as_bu us = l.
Proof.
  induction l as [|x l IH]; intro h; [split; [reflexivity|intros us k; injection k as <-; reflexivity]|]. apply alln_cons in h. destruct h as [hx hl]. destruct (IH hl) as [i1 i2].
  assert (e1 : g_base_to_unit fo (T := T) (x :: l) = let* u := (let* c := get_unit_class (bname x) in g_mk_unit fo c (nq 1) (bname x) (bexp x)) in let* us := g_base_to_unit fo l in Ok (u :: us)) by reflexivity.
  assert (e2 : base_to_unit (T := T) (x :: l) = let* u := (let* c := get_unit_class (bname x) in mk_unit c (nq 1) (bname x) (bexp x)) in let* us := base_to_unit l in Ok (u :: us)) by reflexivity.
  rewrite e1, e2, i1. clear e1 e2. destruct (get_unit_class (bname x)) as [c|]; cbn [bind]; [|split; [reflexivity|discriminate]].
  rewrite (mk_unit_same c (nq 1) (bname x) (bexp x) hx). destruct (mk_unit c (nq 1) (bname x) (bexp x)) as [u|] eqn:e; cbn [bind]; [|split; [reflexivity|discriminate]].
  destruct (base_to_unit l) as [us'|] eqn:em; cbn [bind]; [|split; [reflexivity|discriminate]]. split; [reflexivity|]. intros us k. injection k as <-. apply (mk_parts _ _ _ _ _ hx) in e. subst u. cbn [as_bu map un ue].
  fold (as_bu us'). rewrite (i2 us' eq_refl). destruct x; reflexivity.
Qed.

Lemma core_same (u : unit_obj T) target ret ex : has_char "^" ret = false -> g_unit_convert_core fo tb u target ret ex = unit_convert_core tb u target ret ex /\
  forall u', unit_convert_core tb u target ret ex = Ok u' -> u' = u \/ (un u' = ret /\ ue u' = ex).
Proof.
  intro hr. assert (m : forall v : T, g_mk_unit fo (uc u) v ret ex = mk_unit (uc u) v ret ex) by (intro; apply mk_unit_same, hr).
  assert (mp : forall (v : T) u', mk_unit (uc u) v ret ex = Ok u' -> u' = u \/ (un u' = ret /\ ue u' = ex)) by (intros v u' h; apply mk_parts in h; [|exact hr]; subst; auto).
  unfold g_unit_convert_core, unit_convert_core. destruct (String.eqb (un u) target); [split; [reflexivity|intros u' h; injection h as <-; auto]|].
  destruct (standard (uc u)) as [std|]; [|split; [reflexivity|discriminate]].
  destruct (String.eqb target std); [destruct (to_val _ _ _ _ _); cbn [bind]; [rewrite m; eauto|split; [reflexivity|discriminate]]|].
  destruct (String.eqb (un u) std); [destruct (from_val _ _ _ _ _); cbn [bind]; [rewrite m; eauto|split; [reflexivity|discriminate]]|].
  destruct (to_val tb (uc u) (un u) (uv u) ex) as [s|[]]; cbn [bind]; try (split; [reflexivity|discriminate]).
  destruct (from_val tb (uc u) target s ex); cbn [bind]; [rewrite m; eauto|split; [reflexivity|discriminate]].
Qed.
Lemma unit_convert_same (u : unit_obj T) target : (forall r e q, split_on "^" target = [r; e] -> py_float e = Ok q -> short (eflt q)) ->
  g_unit_convert_to fo tb u target = unit_convert_to tb u target.
Proof.
  intro hs. unfold g_unit_convert_to, unit_convert_to.
  assert (two : forall r e, split_on "^" target = [r; e] -> has_char "^" r = false) by (intros r e h; apply (split_on_no "^" target); rewrite h; left; reflexivity).
  destruct (mem_str (un u) UNIT_COMPOSITES).
  - destruct (split_on "^" target) as [|r [|e [|z l]]] eqn:h; try reflexivity. destruct (py_float e) as [q|] eqn:f; [|reflexivity]. cbn [bind fo e_lit].
    assert (ef : fl q = q) by exact (short_fl (eflt q) (hs _ _ _ eq_refl f)). rewrite ef. apply core_same, (two _ _ eq_refl).
  - destruct (has_char "^" target) eqn:hc; [|apply core_same, hc].
    destruct (split_on "^" target) as [|r [|e [|z l]]] eqn:h; try reflexivity. destruct (py_float e) as [q|] eqn:f; [|reflexivity]. cbn [bind fo e_lit].
    assert (ef : fl q = q) by exact (short_fl (eflt q) (hs _ _ _ eq_refl f)). rewrite ef. apply core_same, (two _ _ eq_refl).
Qed.

(** What a conversion to the standard unit does to an exponent: it keeps it, or
    turns 1 into at most 3. *)
Lemma std_size c std : standard c = Some std -> size std <= 5 /\ (has_char "^" std = true -> exists z, (1 <= z <= 3)%Z /\ split_on "^" std = ["m"; match z with 2%Z => "2" | _ => "3" end] /\ py_float (match z with 2%Z => "2" | _ => "3" end) = Ok (qc z)).
Proof.
  intro h. destruct c; try discriminate h; injection h as <-; (split; [cbv [size String.eqb Ascii.eqb Bool.eqb]; lra|]); intro k; try discriminate k.
  - exists 3%Z. split; [lia|]. split; [reflexivity|exact py_float_3].
  - exists 2%Z. split; [lia|]. split; [reflexivity|exact py_float_2].
Qed.
Definition load (u : unit_obj T) : R := Rabs (QcR (ev (ue u))) * size (un u).
Lemma caf_same g B (u : unit_obj T) : room g B -> 3 <= B -> has_char "^" (un u) = false -> grid g (ev (ue u)) -> Rabs (QcR (ev (ue u))) <= B ->
  g_convert_and_get_factor fo tb u = convert_and_get_factor tb u /\
  forall u', convert_and_get_factor tb u = Ok u' -> has_char "^" (un u') = false /\ grid g (ev (ue u')) /\ load u' <= 15 * load u.
Proof.
  intros hr h3 hn hg hb. pose proof (size_ge (un u)) as hs. pose proof (Rabs_pos (QcR (ev (ue u)))) as ha.
  assert (keep : forall u', un u' = un u -> ue u' = ue u -> has_char "^" (un u') = false /\ grid g (ev (ue u')) /\ load u' <= 15 * load u).
  { intros u' e1 e2. unfold load. rewrite e1, e2. split; [exact hn|]. split; [exact hg|]. nra. }
  assert (move : forall ret ex u', u' = u \/ (un u' = ret /\ ue u' = ex) -> has_char "^" ret = false -> grid g (ev ex) -> Rabs (QcR (ev ex)) * size ret <= 15 * load u ->
    has_char "^" (un u') = false /\ grid g (ev (ue u')) /\ load u' <= 15 * load u).
  { intros ret ex u' [->|[e1 e2]] k1 k2 k3; [apply keep; reflexivity|]. unfold load at 1. rewrite e1, e2. auto. }
  unfold g_convert_and_get_factor, convert_and_get_factor.
  destruct (mem_str (un u) ["K"; "C"]); [split; [reflexivity|intros u' h; injection h as <-; apply keep; reflexivity]|].
  destruct (mem_str (un u) ["R"; "F"]); [split; [reflexivity|intros u' h; injection h as <-; apply keep; reflexivity]|].
  destruct (standard (uc u)) as [std|] eqn:es; [|split; [reflexivity|discriminate]]. destruct (std_size _ _ es) as [ss sc].
  destruct (e_is (ue u) 1) eqn:e1.
  - apply expo_z in e1. assert (l1 : 1 <= load u) by (unfold load; rewrite e1, A1; lra). split.
    + apply unit_convert_same. intros r e q hsp hf. destruct (has_char "^" std) eqn:hc.
      * destruct (sc eq_refl) as (z & hz & k1 & k2). rewrite k1 in hsp. injection hsp as <- <-. rewrite k2 in hf. injection hf as <-.
        exists 0%nat. split; [exists z; cbn [ev eflt]; rewrite QcR_qc; cbn [pow]; field|]. split; [|lia]. cbn [ev eflt]. rewrite QcR_qc, <- abs_IZR, pow_O, Z.abs_eq by lia.
        assert (IZR z <= 3) by (apply (IZR_le z 3); lia). pose proof (Rle_pow 2 2 53 ltac:(lra) ltac:(lia)) as h2. assert (2 ^ 2 = 4) by (cbn [pow]; lra). lra.
      * rewrite (split_on_none_ std hc) in hsp. discriminate.
    + intros u' h. unfold unit_convert_to in h. destruct (has_char "^" std) eqn:hc.
      * destruct (sc eq_refl) as (z & hz & k1 & k2). assert (z3 : Rabs (QcR (ev (eflt (qc z)))) <= 3) by (cbn [ev eflt]; rewrite QcR_qc, <- abs_IZR, Z.abs_eq by lia; apply (IZR_le z 3); lia).
        assert (sm : size "m" = 1) by reflexivity. assert (gz : grid g (ev (eflt (qc z)))) by (apply grid_qc; exact (proj1 (proj1 hr))).
        rewrite k1 in h. destruct (mem_str (un u) UNIT_COMPOSITES); rewrite k2 in h; cbn [bind] in h; apply (core_same u) in h; try reflexivity;
          apply (move _ _ _ h); auto; rewrite sm; lra.
      * rewrite (split_on_none_ std hc) in h. destruct (mem_str (un u) UNIT_COMPOSITES); [discriminate|]. apply (core_same u) in h; [|exact hc].
        apply (move _ _ _ h); auto; [apply grid_qc; exact (proj1 (proj1 hr))|]. rewrite ev_eint, A1. lra.
  - destruct (has_char "^" std) eqn:hc; [split; [reflexivity|discriminate]|]. cbn [fo e_lit]. rewrite (room_fl g B _ hr hg hb).
    destruct (core_same u std std (eflt (ev (ue u))) hc) as [k1 k2]. split; [exact k1|]. intros u' h. apply (move _ _ _ (k2 _ h)); auto. cbn [ev eflt]. unfold load. nra.
Qed.
Definition fine (g : Z) (us : list (unit_obj T)) : Prop := good g (as_bu us) /\ bareb (as_bu us).
Lemma factor_same g B inv us f : room g B -> 3 <= B -> fine g us -> wt size (as_bu us) <= B ->
  g_factor_loop fo tb inv us f = factor_loop tb inv us f /\
  forall us' f', factor_loop tb inv us f = Ok (us', f') -> fine g us' /\ wt size (as_bu us') <= 15 * wt size (as_bu us).
Proof.
  intros hr h3. revert f. induction us as [|u us IH]; intros f [hg hn] hb.
  - split; [reflexivity|]. intros us' f' h. injection h as <- <-. split; [split; assumption|]. cbn [as_bu map wt]. lra.
  - unfold as_bu in hg, hn, hb. cbn [map] in hg, hn, hb. fold (as_bu us) in hg, hn, hb. apply good_cons in hg. destruct hg as [gu hg]. apply alln_cons in hn. destruct hn as [nu hn]. cbn [wt bname bexp] in *.
    assert (p : 0 <= wt size (as_bu us)) by (apply wt_pos, size_shrinks). pose proof (size_ge (un u)). pose proof (Rabs_pos (QcR (ev (ue u)))).
    assert (0 <= Rabs (QcR (ev (ue u))) * size (un u)) by (apply Rmult_le_pos; lra).
    destruct (caf_same g B u hr h3 nu gu) as [c1 c2]; [nra|]. cbn [g_factor_loop factor_loop]. rewrite c1.
    destruct (convert_and_get_factor tb u) as [u'|]; cbn [bind]; [|split; [reflexivity|discriminate]]. destruct (c2 _ eq_refl) as (d1 & d2 & d3). unfold load in d3.
    destruct (if inv then pydiv (nq 1) (uv u') else Ok (uv u')) as [x|]; cbn [bind]; [|split; [reflexivity|discriminate]].
    destruct (IH (nmul f x)) as [i1 i2]; [split; assumption|lra|]. rewrite i1. destruct (factor_loop tb inv us (nmul f x)) as [[us2 f2]|]; cbn [bind fst snd]; [|split; [reflexivity|discriminate]].
    split; [reflexivity|]. intros us' f' h. injection h as <- <-. destruct (i2 _ _ eq_refl) as [[j1 j2] j3]. unfold as_bu. cbn [map wt bname bexp]. fold (as_bu us2). fold (as_bu us). split; [|lra].
    split; [apply good_cons; auto|apply alln_cons; auto].
Qed.
Lemma decon_base_same g B one top bot : room g B -> 3 <= B -> good g top -> good g bot -> bareb top -> bareb bot -> wt size top + wt size bot <= B ->
  (let* d := g_deconstruct_units fo one top bot in let* t := g_base_to_unit fo (fst d) in let* b := g_base_to_unit fo (snd d) in Ok (t, b)) =
  (let* d := deconstruct_units one top bot in let* t := base_to_unit (fst d) in let* b := base_to_unit (snd d) in Ok (t, b)) /\
  forall t b : list (unit_obj T), (let* d := deconstruct_units one top bot in let* t := base_to_unit (fst d) in let* b := base_to_unit (snd d) in Ok (t, b)) = Ok (t, b) ->
    fine g t /\ fine g b /\ wt size (as_bu t) + wt size (as_bu b) <= wt size top + wt size bot.
Proof.
  intros hr h3 gt gb nt nb hb. destruct (deconstruct_same g B one top bot hr h3 gt gb hb) as [e k]. rewrite e. destruct (deconstruct_units one top bot) as [[t b]|] eqn:ed; cbn [bind fst snd]; [|split; [reflexivity|discriminate]].
  destruct (k _ _ eq_refl) as (g1 & g2 & w). destruct (decon_names _ core_bare _ _ _ _ _ ed nt nb) as [n1 n2]. destruct (base_same t n1) as [b1 b2]. destruct (base_same b n2) as [c1 c2]. rewrite b1, c1.
  split; [reflexivity|]. intros t' b' h. destruct (base_to_unit t) as [us|]; cbn [bind] in h; [|discriminate]. destruct (base_to_unit b) as [vs|]; cbn [bind] in h; [|discriminate].
  injection h as <- <-. unfold fine. rewrite (b2 _ eq_refl), (c2 _ eq_refl). split; [auto|]. split; [auto|]. apply w, size_shrinks.
Qed.

(** ** The tally *)
Lemma step_same g B c us a : room g B -> good g (as_bu us) -> grid g (ev a) -> Rabs (QcR (ev a)) + tot (as_bu us) <= B ->
  let p E := fold_left (fun a (u : unit_obj T) => if in_class c u then e_add E a (ue u) else a) us a in
  let m E := fold_left (fun a (u : unit_obj T) => if in_class c u then e_sub E a (ue u) else a) us a in
  p fo = p exact_ops /\ m fo = m exact_ops /\
  grid g (ev (p exact_ops)) /\ grid g (ev (m exact_ops)) /\
  Rabs (QcR (ev (p exact_ops))) <= Rabs (QcR (ev a)) + tot (as_bu us) /\ Rabs (QcR (ev (m exact_ops))) <= Rabs (QcR (ev a)) + tot (as_bu us).
Proof.
  intros hr hg ga hb p m.
  assert (hp : p fo = p exact_ops /\ grid g (ev (p exact_ops)) /\ Rabs (QcR (ev (p exact_ops))) <= Rabs (QcR (ev a)) + tot (as_bu us)).
  { unfold p. clear p m. revert a hg ga hb. induction us as [|u us IH]; intros a hg ga hb; cbn [fold_left]; [split; [reflexivity|]; split; [exact ga|cbn [as_bu map wt]; lra]|].
    unfold as_bu in *. cbn [map] in *. fold (as_bu us) in *. apply good_cons in hg. destruct hg as [gu hg]. rewrite tot_cons in *. cbn [bexp] in *.
    pose proof (tot_pos (as_bu us)). pose proof (Rabs_pos (QcR (ev a))). pose proof (Rabs_pos (QcR (ev (ue u)))). pose proof (Rabs_triang (QcR (ev a)) (QcR (ev (ue u)))).
    destruct (in_class c u).
    - cbn [fo e_add exact_ops]. rewrite (add_same g B a (ue u)) by (auto; lra). assert (e : QcR (ev (eadd a (ue u))) = QcR (ev a) + QcR (ev (ue u))) by (cbn [eadd ev]; apply QcR_plus).
      destruct (IH (eadd a (ue u))) as (i1 & i2 & i3); [exact hg|cbn [eadd ev]; apply grid_plus; assumption|rewrite e; lra|]. rewrite e in i3. split; [exact i1|]. split; [exact i2|]. cbn [exact_ops e_add] in i3. lra.
    - destruct (IH a) as (i1 & i2 & i3); [exact hg|exact ga|lra|]. split; [exact i1|]. split; [exact i2|]. lra. }
  assert (hm : m fo = m exact_ops /\ grid g (ev (m exact_ops)) /\ Rabs (QcR (ev (m exact_ops))) <= Rabs (QcR (ev a)) + tot (as_bu us)).
  { unfold m. clear p m hp. revert a hg ga hb. induction us as [|u us IH]; intros a hg ga hb; cbn [fold_left]; [split; [reflexivity|]; split; [exact ga|cbn [as_bu map wt]; lra]|].
    unfold as_bu in *. cbn [map] in *. fold (as_bu us) in *. apply good_cons in hg. destruct hg as [gu hg]. rewrite tot_cons in *. cbn [bexp] in *.
    pose proof (tot_pos (as_bu us)). pose proof (Rabs_pos (QcR (ev a))). pose proof (Rabs_pos (QcR (ev (ue u)))). pose proof (Rabs_triang (QcR (ev a)) (- QcR (ev (ue u)))) as t. rewrite Rabs_Ropp in t.
    destruct (in_class c u).
    - cbn [fo e_sub exact_ops]. rewrite (sub_same g B a (ue u)) by (auto; lra). assert (e : QcR (ev (esub a (ue u))) = QcR (ev a) + - QcR (ev (ue u))) by (cbn [esub ev]; apply QcR_minus).
      destruct (IH (esub a (ue u))) as (i1 & i2 & i3); [exact hg|cbn [esub ev]; apply grid_minus; assumption|rewrite e; lra|]. rewrite e in i3. split; [exact i1|]. split; [exact i2|]. cbn [exact_ops e_sub] in i3. lra.
    - destruct (IH a) as (i1 & i2 & i3); [exact hg|exact ga|lra|]. split; [exact i1|]. split; [exact i2|]. lra. }
  tauto.
Qed.
Lemma class_same g B c t b : room g B -> fine g t -> fine g b -> wt size (as_bu t) + wt size (as_bu b) <= B ->
  g_class_total fo (T := T) c t b = g_class_total exact_ops c t b.
Proof.
  intros hr [gt _] [gb _] hb. pose proof (wt_tot (as_bu t)). pose proof (wt_tot (as_bu b)). pose proof (tot_pos (as_bu b)). assert (z : QcR (ev (eint 0)) = 0) by apply ev_eint. unfold g_class_total.
  destruct (step_same g B c t (eint 0) hr gt) as (i1 & _ & i3 & _ & i5 & _); [apply grid_qc; exact (proj1 (proj1 hr))|rewrite z, Rabs_R0; lra|]. cbv beta in *. rewrite i1. rewrite z, Rabs_R0 in i5.
  apply (step_same g B c b); auto. lra.
Qed.
(** ** Both sides *)
Lemma split_bare x p y : split_prefix x = Ok (p, y) -> has_char "^" (bname x) = false -> has_char "^" (bname y) = false.
Proof.
  unfold split_prefix. destruct (String.eqb (bname x) "kg"); [intro h; injection h as _ <-; reflexivity|].
  unfold get_prefix. destruct (bname x) as [|c r]; [discriminate|]. destruct (_ || _); cbn [bind fst snd]; intro h; injection h as _ <-; cbn [bname]; auto.
  cbn [has_char]. intro k. destruct (Ascii.eqb c "^"); [discriminate|exact k].
Qed.
Lemma strip_bare l ps : mapM split_prefix l = Ok ps -> bareb l -> bareb (map snd ps).
Proof.
  revert ps. induction l as [|x l IH]; intros ps h hb; cbn in h; [injection h as <-; intros x []|]. apply alln_cons in hb. destruct hb as [hx hl].
  destruct (split_prefix x) as [[p y]|] eqn:e; cbn [bind] in h; [|discriminate]. destruct (mapM split_prefix l) as [ps'|] eqn:e'; cbn [bind] in h; [|discriminate].
  injection h as <-. cbn [map snd]. apply alln_cons. split; [apply (split_bare _ _ _ e hx)|apply IH; auto].
Qed.
Lemma strip_good g l ps : mapM split_prefix l = Ok ps -> good g l -> good g (map snd ps) /\ wt size (map snd ps) <= amount width l.
Proof.
  intros h hg. apply stripped_half in h. revert h hg. generalize (map snd ps). intros m f. induction f as [|x y l m (e1 & e2 & e3) f IH]; intro hg; [split; [exact hg|cbn; lra]|].
  apply good_cons in hg. destruct hg as [gx gl]. destruct (IH gl) as [i1 i2]. split; [apply good_cons; rewrite e1; auto|]. cbn [wt amount]. rewrite e1, width_size. pose proof (Rabs_pos (rexp x)). nra.
Qed.
Lemma prepare_same g B top bot : room g B -> 3 <= B -> good g (top ++ bot) -> bareb (top ++ bot) -> amount width (top ++ bot) <= B ->
  g_conv_prepare fo (T := T) top bot = conv_prepare top bot /\
  forall t b f, conv_prepare (T := T) top bot = Ok (t, b, f) -> fine g t /\ fine g b /\ wt size (as_bu t) + wt size (as_bu b) <= amount width (top ++ bot).
Proof.
  intros hr h3 hg hn hb. apply good_app in hg. apply alln_app in hn. rewrite amount_app in *. destruct hg as [g1 g2], hn as [n1 n2].
  unfold g_conv_prepare, conv_prepare. unfold deconstruct_unit_prefixes. destruct (mapM split_prefix top) as [tp|] eqn:e1; cbn [bind]; [|split; [reflexivity|discriminate]].
  destruct (mapM split_prefix bot) as [bp|] eqn:e2; cbn [bind]; [|split; [reflexivity|discriminate]].
  destruct (prefix_loop false tp _) as [f1|]; cbn [bind]; [|split; [reflexivity|discriminate]]. destruct (prefix_loop true bp _) as [f2|]; cbn [bind]; [|split; [reflexivity|discriminate]].
  destruct (strip_good g _ _ e1 g1) as [a1 a2]. destruct (strip_good g _ _ e2 g2) as [c1 c2].
  destruct (decon_base_same g B true (map snd tp) (map snd bp) hr h3 a1 c1 (strip_bare _ _ e1 n1) (strip_bare _ _ e2 n2)) as [d1 d2]; [lra|].
  destruct (g_deconstruct_units fo true (map snd tp) (map snd bp)) as [[t b]|], (deconstruct_units true (map snd tp) (map snd bp)) as [[t' b']|]; cbn [bind fst snd] in *.
  all: repeat match goal with
    | |- context [g_base_to_unit fo ?l] => destruct (g_base_to_unit fo l) eqn:?; cbn [bind fst snd] in *
    | |- context [base_to_unit ?l] => destruct (base_to_unit l) eqn:?; cbn [bind fst snd] in *
    end; try discriminate d1; try (split; [congruence|discriminate]).
  all: try (split; [congruence|]; intros t1 b1 f h; injection h as <- <- <-; destruct (d2 _ _ eq_refl) as (k1 & k2 & k3); split; [exact k1|]; split; [exact k2|lra]).
Qed.
Lemma conv_factor_same g B t b f : room g B -> 3 <= B -> fine g t -> fine g b -> 15 * (wt size (as_bu t) + wt size (as_bu b)) <= B ->
  g_conv_factor fo tb t b f = conv_factor tb t b f /\
  forall t' b' f', conv_factor tb t b f = Ok (t', b', f') -> fine g t' /\ fine g b' /\ wt size (as_bu t') + wt size (as_bu b') <= B.
Proof.
  intros hr h3 ft fb hb. assert (p1 : 0 <= wt size (as_bu t)) by (apply wt_pos, size_shrinks). assert (p2 : 0 <= wt size (as_bu b)) by (apply wt_pos, size_shrinks).
  unfold g_conv_factor, conv_factor. destruct (factor_same g B false t (nmul (nq 1) f) hr h3 ft) as [a1 a2]; [lra|]. rewrite a1.
  destruct (factor_loop tb false t _) as [[us1 v1]|]; cbn [bind fst snd]; [|split; [reflexivity|discriminate]]. destruct (a2 _ _ eq_refl) as [[q1 q2] q3].
  destruct (factor_same g B true b v1 hr h3 fb) as [c1 c2]; [lra|]. rewrite c1.
  destruct (factor_loop tb true b v1) as [[us2 v2]|]; cbn [bind fst snd]; [|split; [reflexivity|discriminate]]. destruct (c2 _ _ eq_refl) as [[r1 r2] r3].
  destruct (decon_base_same g B false (as_bu us1) (as_bu us2) hr h3 q1 r1 q2 r2) as [d1 d2]; [lra|].
  destruct (g_deconstruct_units fo false (as_bu us1) (as_bu us2)) as [[t1 b1]|], (deconstruct_units false (as_bu us1) (as_bu us2)) as [[t' b']|]; cbn [bind fst snd] in *.
  all: repeat match goal with
    | |- context [g_base_to_unit fo ?l] => destruct (g_base_to_unit fo l) eqn:?; cbn [bind fst snd] in *
    | |- context [base_to_unit ?l] => destruct (base_to_unit l) eqn:?; cbn [bind fst snd] in *
    end; try discriminate d1; try (split; [congruence|discriminate]).
  all: try (split; [congruence|]; intros t2 b2 f2 h; injection h as <- <- <-; destruct (d2 _ _ eq_refl) as (k1 & k2 & k3); split; [exact k1|]; split; [exact k2|lra]).
Qed.
Lemma fits_room k l : fits k l -> exists B, room (Z.of_nat k) B /\ 3 <= B /\ 16 * amount width l <= B /\ good (Z.of_nat k) l /\ bareb l.
Proof.
  intros [hd hn hk hw]. exists (Rmax 3 (16 * amount width l)). split; [|split; [apply Rmax_l|split; [apply Rmax_r|split]]].
  - split; [lia|]. rewrite <- pow_p2. change (p2 53) with (p2 (Z.of_nat 53)). rewrite <- pow_p2. unfold Rmax. destruct (Rle_dec _ _); [exact hw|].
    pose proof (Rle_pow 2 k 51 ltac:(lra) hk). assert (2 ^ 53 = 4 * 2 ^ 51) by (change 53%nat with (2 + 51)%nat; rewrite pow_add; lra). assert (0 < 2 ^ k) by (apply pow_lt; lra). lra.
  - intros x hx. apply dyadic_grid, hd, hx.
  - intros x hx. apply no_caret, hn, hx.
Qed.
Lemma amount_pos m l : (forall n, 0 <= m n) -> 0 <= amount m l.
Proof. intro h. induction l as [|x l IH]; cbn [amount]; [lra|]. pose proof (Rmult_le_pos _ _ (Rabs_pos (QcR (ev (bexp x)))) (h (stem (bname x)))). lra. Qed.
Lemma fits_short k l : fits k l -> forall x, In x l -> short (bexp x).
Proof.
  intros [hd hn hk hw] x hx. exists k. split; [apply hd, hx|]. split; [|lia]. assert (0 < 2 ^ k) by (apply pow_lt; lra).
  destruct (amount_wt l) as [w _]. pose proof (wt_tot l). pose proof (tot_in _ _ hx) as ti. pose proof (Rabs_pos (rexp x)).
  apply Rle_trans with (16 * amount width l * 2 ^ k); [|exact hw]. apply Rmult_le_compat_r; lra.
Qed.
Lemma multi_convert_same j k (a : multi_obj T) target : fits j (parts (VMulti a)) -> (forall p, parse_units target = Ok p -> fits k (fst p ++ snd p)) ->
  g_multi_convert_to fo tb a target = multi_convert_to tb a target.
Proof.
  intros ha hp. assert (ps : g_parse_units fo target = parse_units target) by (apply parse_same; intros p e; exact (fits_short k _ (hp p e))).
  unfold g_multi_convert_to, multi_convert_to. rewrite ps. destruct (parse_units target) as [[tt tb']|] eqn:ep; cbn [bind fst snd]; [|reflexivity].
  specialize (hp _ eq_refl). cbn [fst snd] in hp. cbn [parts] in ha.
  destruct (fits_room _ _ ha) as (B1 & r1 & t1 & w1 & g1 & n1). destruct (fits_room _ _ hp) as (B2 & r2 & t2 & w2 & g2 & n2).
  assert (sp : forall n, 0 <= width n) by (intro n; rewrite width_size; pose proof (size_ge n); lra).
  pose proof (amount_pos width (mtop a ++ mbot a) sp). pose proof (amount_pos width (tt ++ tb') sp).
  destruct (prepare_same (Z.of_nat k) B2 tt tb' r2 t2 g2 n2) as [x1 x2]; [lra|]. rewrite x1. destruct (conv_prepare tt tb') as [[[rt rb] rf]|]; cbn [bind]; [|reflexivity].
  destruct (x2 _ _ _ eq_refl) as (f1 & f2 & f3). clear x1 x2.
  destruct (prepare_same (Z.of_nat j) B1 (mtop a) (mbot a) r1 t1 g1 n1) as [y1 y2]; [lra|]. rewrite y1. destruct (conv_prepare (mtop a) (mbot a)) as [[[lt lb] lf]|]; cbn [bind]; [|reflexivity].
  destruct (y2 _ _ _ eq_refl) as (h1 & h2 & h3). clear y1 y2.
  destruct (conv_factor_same (Z.of_nat j) B1 lt lb lf r1 t1 h1 h2) as [x1 x2]; [lra|]. rewrite x1. destruct (conv_factor tb lt lb lf) as [[[lt' lb'] lf']|]; cbn [bind]; [|reflexivity]. destruct (x2 _ _ _ eq_refl) as (i1 & i2 & i3).
  destruct (conv_factor_same (Z.of_nat k) B2 rt rb rf r2 t2 f1 f2) as [y1 y2]; [lra|]. rewrite y1. destruct (conv_factor tb rt rb rf) as [[[rt' rb'] rf']|]; cbn [bind]; [|reflexivity]. destruct (y2 _ _ _ eq_refl) as (l1 & l2 & l3).
  destruct (classes_known _); cbn [bind]; [|reflexivity].
  assert (e : g_same_dims fo lt' lb' rt' rb' = same_dims lt' lb' rt' rb').
  { rewrite <- dims_exact. unfold g_same_dims. cbn [forallb all_ucls]. unfold eeqb.
    rewrite !(class_same (Z.of_nat j) B1 _ lt' lb'), !(class_same (Z.of_nat k) B2 _ rt' rb') by assumption. reflexivity. }
  rewrite e. destruct (same_dims _ _ _ _); [|reflexivity]. destruct (pydiv lf' rf'); [|reflexivity]. cbn [bind]. unfold g_mk_multi, mk_multi. rewrite ps, ep. reflexivity.
Qed.
Lemma mk_multi_same (c : mcls) (v : T) s : (forall p, parse_units s = Ok p -> forall x, In x (fst p ++ snd p) -> short (bexp x)) -> g_mk_multi fo c v s = mk_multi c v s.
Proof. intro h. unfold g_mk_multi, mk_multi. rewrite (parse_same s h). reflexivity. Qed.
End Same.

Lemma conversions_exact T (N : Num T) tb (a : multi_obj T) (u : unit_obj T) s :
  g_multi_convert_to exact_ops tb a s = multi_convert_to tb a s /\ g_unit_convert_to exact_ops tb u s = unit_convert_to tb u s.
Proof. split; [apply convert_exact|reflexivity]. Qed.
