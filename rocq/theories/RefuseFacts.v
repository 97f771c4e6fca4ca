(** * RefuseFacts: which error a refused conversion of a MultiUnit raises *)
From Coq Require Import String Ascii List ZArith QArith Qcanon Bool Reals Qreals Lia Lra.
From Verif Require Import Py Num UnitsData UnitsStruct Units NumFacts Spec SpecFacts StructFacts ExpandFacts OpFacts NamesFacts PrefixFacts PrefixSpec PrefixExact PassSpec PassFacts
  ConvSpec ConvFacts ConvDims ConvTotal ConvLaws ReadSpec ReadFacts RefuseSpec.
Import ListNotations.
Local Open Scope string_scope.
Local Open Scope list_scope.
Local Open Scope R_scope.

(** ** Lists *)
Lemma first_app {A B} (f : A -> option B) l1 l2 : first f (l1 ++ l2) = or_else (first f l1) (first f l2).
Proof. induction l1 as [|x l IH]; [reflexivity|]. cbn [app first]. rewrite IH. destruct (f x); reflexivity. Qed.
Lemma first_none {A B} (f : A -> option B) l : first f l = None <-> forall x, In x l -> f x = None.
Proof.
  induction l as [|x l IH]; cbn; [split; [intros _ y []|reflexivity]|]. destruct (f x) eqn:e; cbn.
  - split; [discriminate|]. intro h. rewrite <- e. apply h. left. reflexivity.
  - rewrite IH. split; [intros h y [<-|hy]; auto|intros h y hy; auto].
Qed.
Lemma or_else_assoc {A} (a b c : option A) : or_else (or_else a b) c = or_else a (or_else b c). Proof. destruct a; reflexivity. Qed.
Lemma or_else_none {A} (a : option A) : or_else a None = a. Proof. destruct a; reflexivity. Qed.

(** ** The pass keeps the order of what it does not open *)
Definition part_names : list string := ["kg"; "m"; "s"; "J"; "lbf"; "in"; "g"; "A"].
Section Order.
  Variable f : bu -> option exn.
  Hypothesis part : forall n e, In n part_names -> f (BU n e) = None.
  Definition at_mark (m : bool * bu) : option exn := if fst m then f (snd m) else if is_derived (snd m) then None else f (snd m).
  Lemma parts_none n p e l : defn n = Some p -> l = fst p \/ l = snd p -> forall x, In x (scaled e l) -> In (bname x) part_names.
  Proof.
    intros hd hl x hx. unfold scaled in hx. apply in_map_iff in hx. destruct hx as [y [<- hy]]. cbn [bname].
    apply (defn_in n p y hd). apply in_or_app. destruct hl as [-> | ->]; auto.
  Qed.
  Lemma part_f x : In (bname x) part_names -> f x = None.
  Proof. destruct x as [n e]. apply part. Qed.
  Lemma marked_parts l : (forall x, In x l -> In (bname x) part_names) -> first at_mark (marked l) = None.
  Proof.
    intro h. apply first_none. intros [k x] hx. unfold at_mark. cbn [fst snd].
    assert (hi : In x l).
    { clear h. revert hx. induction l as [|a|a b l IH IH'] using list_two; cbn [marked].
      - intros [].
      - destruct (is_derived a); intros [e|[]]; injection e as _ <-; left; reflexivity.
      - destruct (is_derived a).
        + intros [e|[e|hx]]; [injection e as _ <-; left; reflexivity|injection e as _ <-; right; left; reflexivity|right; right; auto].
        + intros [e|hx]; [injection e as _ <-; left; reflexivity|right; auto]. }
    rewrite (part_f x (h x hi)). destruct k; [reflexivity|]. destruct (is_derived x); reflexivity.
  Qed.
  Lemma marked_app l a : (forall x, In x a -> In (bname x) part_names) -> first at_mark (marked (l ++ a)) = first at_mark (marked l).
  Proof.
    intro h. induction l as [|x|x y l IH IH'] using list_two.
    - cbn [app]. rewrite marked_parts by exact h. reflexivity.
    - cbn [app marked]. destruct (is_derived x) eqn:d.
      + destruct a as [|y a]; [reflexivity|]. cbn [first]. unfold at_mark at 1 2 4. cbn [fst snd]. rewrite d. cbn [or_else].
        rewrite (part_f y) by (apply h; left; reflexivity). cbn [or_else]. apply marked_parts. intros z hz. apply h. right. exact hz.
      + cbn [first]. rewrite marked_parts by exact h. reflexivity.
    - change ((x :: y :: l) ++ a) with (x :: (y :: l) ++ a). cbn [marked]. destruct (is_derived x) eqn:d.
      + cbn [app first]. rewrite IH. reflexivity.
      + cbn [first]. rewrite IH'. reflexivity.
  Qed.
  Lemma loop_order fuel pre rest other hit t o h : expand_loop fuel pre rest other hit = Ok (t, o, h) ->
    exists a, o = other ++ a /\ (forall x, In x a -> In (bname x) part_names) /\ first f t = or_else (first f pre) (first at_mark (marked rest)).
  Proof.
    revert pre rest other hit. induction fuel as [|fuel IH]; intros pre rest other hit e;
      destruct rest as [|x rest']; cbn [expand_loop] in e; try discriminate.
    - injection e as <- <- _. exists nil. cbn [marked first]. rewrite or_else_none. split; [symmetry; apply app_nil_r|]. split; [intros x []|reflexivity].
    - injection e as <- <- _. exists nil. cbn [marked first]. rewrite or_else_none. split; [symmetry; apply app_nil_r|]. split; [intros x []|reflexivity].
    - destruct (derived_cases (bname x)) as [[hd [d [p [h1 [h2 h3]]]]]|[hd [h1 h3]]]; rewrite h1 in e.
      + rewrite (expand_eq d p (bexp x) h2) in e. cbn [bind fst snd] in e. apply is_derived_true in hd.
        set (a1 := scaled (bexp x) (fst p)) in *. set (a2 := scaled (bexp x) (snd p)) in *.
        assert (i1 : forall z, In z a1 -> In (bname z) part_names) by (apply (parts_none _ p _ (fst p) h3); auto).
        assert (i2 : forall z, In z a2 -> In (bname z) part_names) by (apply (parts_none _ p _ (snd p) h3); auto).
        assert (hr : first at_mark (marked (x :: rest')) = match rest' ++ a1 with nil => None | y :: ys => or_else (f y) (first at_mark (marked ys)) end).
        { cbn [marked]. rewrite hd. destruct rest' as [|y r]; cbn [app first].
          - unfold at_mark at 1. cbn [fst snd]. rewrite hd. cbn [or_else]. destruct a1 as [|y ys]; [reflexivity|].
            rewrite (part_f y) by (apply i1; left; reflexivity). cbn [or_else]. symmetry. apply marked_parts. intros z hz. apply i1. right. exact hz.
          - unfold at_mark at 1 2. cbn [fst snd]. rewrite hd. cbn [or_else]. rewrite marked_app by exact i1. reflexivity. }
        rewrite hr. destruct (rest' ++ a1) as [|y ys].
        * injection e as <- <- _. exists a2. rewrite or_else_none. auto.
        * apply IH in e. destruct e as [a [-> [ia e]]]. exists (a2 ++ a). split; [symmetry; apply app_assoc|].
          split; [intros z hz; apply in_app_or in hz; destruct hz; auto|].
          rewrite e, first_app, or_else_assoc. cbn [first]. rewrite or_else_none. reflexivity.
      + apply IH in e. destruct e as [a [-> [ia e]]]. exists a. split; [reflexivity|]. split; [exact ia|]. rewrite e.
        apply is_derived_false in hd. cbn [marked]. rewrite hd. cbn [first]. unfold at_mark at 2. cbn [fst snd]. rewrite hd.
        rewrite first_app, or_else_assoc. cbn [first]. rewrite or_else_none. reflexivity.
  Qed.
  Lemma pass_order top bot t b : deconstruct_units true top bot = Ok (t, b) ->
    first f t = first at_mark (marked top) /\ first f b = first at_mark (marked bot).
  Proof.
    unfold deconstruct_units. cbn [deconstruct_loop]. unfold deconstruct_round. intro h.
    destruct (expand_loop (weights top) nil top bot false) as [[[t1 b1] h1]|] eqn:e1; cbn [bind] in h; [|discriminate].
    destruct (expand_loop (weights b1) nil b1 t1 false) as [[[b2 t2] h2]|] eqn:e2; cbn [bind negb] in h; [|discriminate].
    rewrite andb_false_r in h. injection h as <- <-.
    apply loop_order in e1. destruct e1 as [a [-> [ia e1]]]. apply loop_order in e2. destruct e2 as [a' [-> [ia' e2]]].
    cbn [first or_else] in e1, e2. rewrite marked_app in e2 by exact ia. split; [|exact e2].
    rewrite first_app, e1. assert (n : first f a' = None) by (apply first_none; intros x hx; apply part_f, ia', hx).
    rewrite n. apply or_else_none.
  Qed.
End Order.

(** ** One unit *)
Lemma member_In n l : member n l = true <-> In n l.
Proof. unfold member. destruct (in_dec string_dec n l); split; auto; discriminate. Qed.
Lemma member_not n l : member n l = false <-> ~ In n l.
Proof. unfold member. destruct (in_dec string_dec n l); split; auto; [discriminate|tauto]. Qed.
Lemma e_is_one e : e_is e 1 = if Qc_eq_dec (ev e) (qc 1) then true else false.
Proof.
  destruct (Qc_eq_dec (ev e) (qc 1)) as [h|h].
  - unfold e_is. rewrite h. reflexivity.
  - destruct (e_is e 1) eqn:k; [|reflexivity]. exfalso. apply h, QcR_inj. rewrite QcR_qc. apply e_is_1. exact k.
Qed.

(** Every registered class accepts its names. *)
Lemma registered_mk n c e : dict_get UNIT_REGISTRY n = Some c -> exists u, mk_unit c (1 : R) n e = Ok u.
Proof.
  intro h. apply dict_get_in in h. cbn [In UNIT_REGISTRY] in h.
  repeat (destruct h as [h|h]; [injection h as <- <-; first [eexists; reflexivity |
    cbn [mk_unit]; unfold split_caret; match goal with |- context [split_on "^" ?s] => let r := eval compute in (split_on "^" s) in change (split_on "^" s) with r end;
    cbn; eexists; reflexivity]|]). destruct h.
Qed.
Lemma get_class n c : get_unit_class n = Ok c <-> dict_get UNIT_REGISTRY n = Some c.
Proof. unfold get_unit_class. destruct (dict_get UNIT_REGISTRY n); split; intro h; try discriminate; injection h as ->; reflexivity. Qed.
Lemma get_class_no n : dict_get UNIT_REGISTRY n = None -> get_unit_class n = Raise EKeyError.
Proof. unfold get_unit_class. intros ->. reflexivity. Qed.

Lemma stuck_registered x e : stuck x = Some e -> exists c, dict_get UNIT_REGISTRY (bname x) = Some c.
Proof.
  unfold stuck. set (one := if Qc_eq_dec _ _ then true else false).
  destruct (member (bname x) gaps) eqn:h1.
  { intros _. apply member_In in h1. cbn in h1. repeat (destruct h1 as [<-|h1]; [eexists; reflexivity|]). destruct h1. }
  destruct (one && member (bname x) litres) eqn:h2.
  { intros _. apply andb_true_iff in h2. destruct h2 as [_ h2]. apply member_In in h2. cbn in h2. repeat (destruct h2 as [<-|h2]; [eexists; reflexivity|]). destruct h2. }
  destruct (one && String.eqb (bname x) "ML") eqn:h3.
  { intros _. apply andb_true_iff in h3. destruct h3 as [_ h3]. apply String.eqb_eq in h3. rewrite h3. eexists; reflexivity. }
  destruct (member (bname x) cubes) eqn:h4; [|discriminate].
  intros _. apply member_In in h4. cbn in h4. repeat (destruct h4 as [<-|h4]; [eexists; reflexivity|]). destruct h4.
Qed.
Lemma stands_registered x : stands true x <> None -> exists c, dict_get UNIT_REGISTRY (bname x) = Some c.
Proof.
  intro h. destruct (stands true x) as [[r [s k]]|] eqn:hs; [|congruence].
  destruct (one_yes x r s k hs) as [c [u [u' [e1 _]]]]. exists c. apply get_class. exact e1.
Qed.
Lemma registered_stands x c : dict_get UNIT_REGISTRY (bname x) = Some c -> stands true x = None -> stuck x <> None.
Proof.
  destruct x as [n e]. cbn [bname]. intros hr hs.
  pose proof registry_split as A. rewrite forallb_forall in A. specialize (A _ (dict_get_in _ _ _ hr)). cbn [fst] in A.
  unfold stands in hs. cbn [bname bexp] in hs.
  destruct (dict_get degree_sizes n) as [q|]; [discriminate|].
  destruct (dict_get bulk_sizes n) as [[k q]|] eqn:hb.
  - destruct (Qc_eq_dec (ev e) (qc 1)) as [|he]; [discriminate|]. apply dict_get_in in hb. cbn in hb.
    unfold stuck. cbn [bname bexp]. destruct (Qc_eq_dec (ev e) (qc 1)) as [|_]; [contradiction|].
    destruct hb as [hb|[hb|[]]]; injection hb as <- <- <-; discriminate.
  - destruct (dict_get read_sizes n) as [[s q]|]; [discriminate|]. rewrite !orb_false_r in A. apply mem_str_In in A.
    unfold stuck. cbn [bname bexp]. destruct (Qc_eq_dec (ev e) (qc 1)) as [_|_]; cbn [In unread] in A;
    repeat (destruct A as [<-|A]; [discriminate|]); destruct A.
Qed.
(** A prefixed litre: the lookup of m fails, whatever the litre is worth. *)
Lemma litre_stuck n (e : expo) (y : R) : String.eqb n "m^3" = false -> String.eqb n "m" = false -> mem_str n ["K"; "C"] = false -> mem_str n ["R"; "F"] = false ->
  mem_str n UNIT_COMPOSITES = false -> ev e = qc 1 -> to_val tables0 Volume n (1 : R) (eflt (qc 3)) = Ok y ->
  convert_and_get_factor tables0 (UO Volume (1 : R) n e) = Raise EKeyError.
Proof.
  intros h0 h1 h2 h3 h4 he hv. unfold convert_and_get_factor. cbn [un uc uv ue standard]. rewrite h2, h3.
  rewrite e_is_one. destruct (Qc_eq_dec (ev e) (qc 1)) as [_|ne]; [|contradiction].
  unfold unit_convert_to. cbn [un]. rewrite h4. change (has_char "^" "m^3") with true. cbn iota.
  change (split_on "^" "m^3") with ["m"; "3"]. cbn [bind]. rewrite py_float_3. cbn [bind].
  unfold unit_convert_core. cbn [un uc uv ue standard]. rewrite h0, h1. change (String.eqb "m" "m^3") with false. cbn iota. rewrite hv. reflexivity.
Qed.
Lemma over_val n q : tab_get (to_standard tables0 Volume) n = Ok (over (T := R) q) -> 0 < Q2R q -> exists y, to_val tables0 Volume n (1 : R) (eflt (qc 3)) = Ok y.
Proof.
  intros h hq. unfold to_val. rewrite h. cbn [bind]. cbv [over]. unfold ndiv, nq. cbn [Rnum]. cbn [bind].
  unfold npow. cbn [Rnum]. eexists. apply Rpowq_pos. apply Rdiv_lt_0_compat; lra.
Qed.
Lemma one_stuck x c u e : stands true x = None -> stuck x = Some e -> get_unit_class (bname x) = Ok c -> mk_unit c (1 : R) (bname x) (bexp x) = Ok u ->
  convert_and_get_factor tables0 u = Raise e.
Proof.
  destruct x as [n ex]. cbn [bname bexp]. intros hs hk hc hm. apply get_class in hc.
  unfold stuck in hk. cbn [bname bexp] in hk.
  destruct (member n gaps) eqn:h1.
  { injection hk as <-. apply member_In in h1. cbn in h1.
    repeat (destruct h1 as [<-|h1]; [vm_compute in hc; injection hc as <-; injection hm as <-;
      unfold convert_and_get_factor; cbn [un uc uv ue standard]; destruct (e_is ex 1); vm_compute; reflexivity|]). destruct h1. }
  destruct (Qc_eq_dec (ev ex) (qc 1)) as [he|he]; cbn [andb] in hk.
  - destruct (member n litres) eqn:h2.
    { injection hk as <-. apply member_In in h2. cbn in h2.
      destruct h2 as [<-|[<-|[<-|[<-|[<-|[]]]]]]; vm_compute in hc; injection hc as <-; injection hm as <-.
      - destruct (over_val "uL" (1 # 1000) eq_refl) as [y hy]; [q2r; lra|]. apply (litre_stuck _ _ y); auto.
      - destruct (over_val "mL" (100 # 1) eq_refl) as [y hy]; [q2r; lra|]. apply (litre_stuck _ _ y); auto.
      - destruct (over_val "cL" (4641588 # 100000) eq_refl) as [y hy]; [q2r; lra|]. apply (litre_stuck _ _ y); auto.
      - destruct (over_val "dL" (21544346 # 1000000) eq_refl) as [y hy]; [q2r; lra|]. apply (litre_stuck _ _ y); auto.
      - assert (hy : exists y, to_val tables0 Volume "kL" (1 : R) (eflt (qc 3)) = Ok y).
        { unfold to_val. change (tab_get (to_standard tables0 Volume) "kL") with (Ok (fun x : R => Ok x)). cbn [bind]. unfold npow. cbn [Rnum]. eexists. apply Rpowq_pos. lra. }
        destruct hy as [y hy]. apply (litre_stuck _ _ y); auto. }
    destruct (String.eqb n "ML") eqn:h3.
    { injection hk as <-. apply String.eqb_eq in h3. subst n. vm_compute in hc. injection hc as <-. injection hm as <-.
      unfold convert_and_get_factor. cbn [un uc uv ue standard]. rewrite e_is_one. destruct (Qc_eq_dec (ev ex) (qc 1)) as [_|ne]; [|contradiction].
      vm_compute. reflexivity. }
    destruct (member n cubes) eqn:h4; [|discriminate]. injection hk as <-. apply member_In in h4. apply member_not in h2.
    cbn [In cubes] in h4. cbn [In litres] in h2. unfold stands in hs. cbn [bname bexp] in hs.
    destruct h4 as [<-|[<-|[<-|[<-|[<-|[<-|[<-|[<-|h4]]]]]]]]; try tauto; try discriminate.
    { exfalso. change (dict_get degree_sizes "L") with (@None Q) in hs. change (dict_get bulk_sizes "L") with (Some (3%Z, 1 # 1000)) in hs.
      destruct (Qc_eq_dec (ev ex) (qc 1)); [discriminate|contradiction]. }
    { exfalso. change (dict_get degree_sizes "acre") with (@None Q) in hs. change (dict_get bulk_sizes "acre") with (Some (2%Z, 4046873 # 1000)) in hs.
      destruct (Qc_eq_dec (ev ex) (qc 1)); [discriminate|contradiction]. }
    clear hs h1 h2 h3.
    Local Ltac caret2 hc hm := vm_compute in hc; injection hc as <-;
      cbn [mk_unit] in hm; unfold split_caret in hm; match type of hm with (if ?b then _ else _) = _ => change b with true in hm end; cbn iota in hm;
      match type of hm with context [split_on "^" ?s] => let r := eval compute in (split_on "^" s) in change (split_on "^" s) with r in hm end;
      cbn iota in hm; rewrite ?py_float_2, ?py_float_3 in hm; cbn [bind] in hm; injection hm as <-; vm_compute; reflexivity.
    repeat (destruct h4 as [<-|h4]; [caret2 hc hm|]). destruct h4.
  - destruct (member n cubes) eqn:h4; [|discriminate]. injection hk as <-. apply member_In in h4. cbn [In cubes] in h4.
    destruct h4 as [<-|[<-|[<-|[<-|[<-|[<-|[<-|[<-|h4]]]]]]]];
      [vm_compute in hc; injection hc as <-; injection hm as <-; unfold convert_and_get_factor; cbn [un uc uv ue standard]; rewrite e_is_one;
       destruct (Qc_eq_dec (ev ex) (qc 1)) as [|_]; [contradiction|vm_compute; reflexivity]..|].
    repeat (destruct h4 as [<-|h4]; [caret2 hc hm|]). destruct h4.
Qed.

(** ** Looking up the classes *)
Lemma base_lookup l :
  match first (fun x => stranger (true, x)) l with
  | Some e => base_to_unit (T := R) l = Raise e
  | None => exists us, base_to_unit (T := R) l = Ok us
  end.
Proof.
  induction l as [|x l IH]; cbn [first]; [exists nil; reflexivity|].
  unfold base_to_unit in *. cbn [mapM]. destruct (stranger (true, x)) as [e|] eqn:hx; cbn [or_else].
  - unfold stranger in hx. cbn [fst snd] in hx. destruct (stands true x) eqn:hs; [discriminate|]. destruct (stuck x) eqn:hk; [discriminate|]. injection hx as <-.
    destruct (dict_get UNIT_REGISTRY (bname x)) as [c|] eqn:hr; [destruct (registered_stands x c hr hs hk)|].
    rewrite (get_class_no _ hr). reflexivity.
  - assert (hr : exists c, dict_get UNIT_REGISTRY (bname x) = Some c).
    { unfold stranger in hx. cbn [fst snd] in hx. destruct (stands true x) eqn:hs; [apply stands_registered; congruence|].
      destruct (stuck x) as [e|] eqn:hk; [exact (stuck_registered x e hk)|discriminate]. }
    destruct hr as [c hr]. rewrite (proj2 (get_class _ _) hr). cbn [bind].
    destruct (registered_mk (bname x) c (bexp x) hr) as [u hu].
    assert (hu' : mk_unit (T := R) c (nq 1) (bname x) (bexp x) = Ok u) by (change (@nq R Rnum 1) with (Q2R 1); rewrite Q2R1; exact hu).
    rewrite hu'. cbn [bind].
    destruct (first (fun x => stranger (true, x)) l) as [e|].
    + rewrite IH. reflexivity.
    + destruct IH as [us ->]. eexists. reflexivity.
Qed.

(** ** Replacing the units *)
Lemma loop_error (inv : bool) (l : half) (us : list (unit_obj R)) (f : R) : base_to_unit l = Ok us ->
  match first (fun x => (if inv then trouble_below else trouble) (true, x)) l with
  | Some e => factor_loop tables0 inv us f = Raise e
  | None => exists r, factor_loop tables0 inv us f = Ok r
  end.
Proof.
  intro hb. apply base_named in hb. revert f. induction hb as [|x u l us [c [hc hm]] hb IH]; intro f; cbn [first factor_loop]; [eexists; reflexivity|].
  destruct (stands true x) as [[r [s k]]|] eqn:hs.
  - destruct (one_yes x r s k hs) as [c' [v [v' [e1 [e2 [e3 [e4 _]]]]]]]. rewrite hc in e1. injection e1 as <-. rewrite hm in e2. injection e2 as <-.
    rewrite e3. cbn [bind]. rewrite e4.
    assert (ht : trouble (true, x) = None) by (unfold trouble; cbn [fst snd]; rewrite hs; reflexivity).
    assert (hk : known1 (true, x) = true) by (unfold known1; cbn [fst snd]; rewrite hs; reflexivity).
    assert (hn : number_of (true, x) = r) by (unfold number_of; cbn [fst snd]; rewrite hs; reflexivity).
    pose proof (nonzero_iff _ hk) as hz. rewrite hn in hz. unfold nonzero in hz. cbn [fst snd] in hz.
    destruct inv.
    + unfold trouble_below at 1. rewrite ht. cbn [fst snd].
      assert (hq : (match dict_get degree_sizes (bname x) with Some _ => if Qc_eq_dec (ev (bexp x)) (qc 0) then Some EZeroDivisionError else None | None => None end = Some EZeroDivisionError /\ r = 0) \/
                   (match dict_get degree_sizes (bname x) with Some _ => if Qc_eq_dec (ev (bexp x)) (qc 0) then Some EZeroDivisionError else None | None => None end = None /\ r <> 0)).
      { destruct (dict_get degree_sizes (bname x)); [|right; split; [reflexivity|apply hz; reflexivity]].
        destruct (Qc_eq_dec (ev (bexp x)) (qc 0)) as [e|e].
        - left. split; [reflexivity|]. destruct (Req_dec r 0) as [|hr]; [assumption|]. apply hz in hr. rewrite e in hr. discriminate.
        - right. split; [reflexivity|]. apply hz. apply negb_true_iff. destruct (Qc_eq_bool (ev (bexp x)) (qc 0)) eqn:eb; [|reflexivity]. apply Qceqb_eq in eb. contradiction. }
      destruct hq as [[-> ->]|[-> hr]]; cbn [or_else].
      * rewrite pydiv_0. reflexivity.
      * rewrite pydiv_ok by exact hr. cbn [bind]. specialize (IH (nmul f (nq 1 / r))).
        destruct (first (fun x0 => trouble_below (true, x0)) l); [rewrite IH; reflexivity|]. destruct IH as [q ->]. eexists. reflexivity.
    + rewrite ht. cbn [or_else bind]. specialize (IH (nmul f r)).
      destruct (first (fun x0 => trouble (true, x0)) l); [rewrite IH; reflexivity|]. destruct IH as [q ->]. eexists. reflexivity.
  - assert (hk : exists e, stuck x = Some e).
    { apply get_class in hc. pose proof (registered_stands x c hc hs). destruct (stuck x); [eauto|congruence]. }
    destruct hk as [e hk]. rewrite (one_stuck x c u e hs hk hc hm). cbn [bind].
    assert (ht : trouble (true, x) = Some e) by (unfold trouble; cbn [fst snd]; rewrite hs; exact hk).
    destruct inv; [unfold trouble_below at 1|]; rewrite ht; reflexivity.
Qed.

(** ** One side of a conversion *)
Lemma open_mark (g : bool * bu -> option exn) : (forall n e, In n derived_names -> g (false, BU n e) = None) ->
  (forall x, ~ In (bname x) derived_names -> g (false, x) = g (true, x)) ->
  forall l, first (at_mark (fun x => g (true, x))) l = first g l.
Proof.
  intros h1 h2 l. induction l as [|[k x] l IH]; [reflexivity|]. cbn [first]. rewrite IH. f_equal. unfold at_mark. cbn [fst snd].
  destruct k; [reflexivity|]. destruct (is_derived x) eqn:d.
  - destruct x as [n e]. symmetry. apply h1. apply is_derived_true in d. exact d.
  - symmetry. apply h2. apply is_derived_false. exact d.
Qed.

Lemma parts_stand n e : In n part_names -> stands true (BU n e) <> None /\ trouble_below (true, BU n e) = None.
Proof. intro h. cbn in h. repeat (destruct h as [<-|h]; [split; [discriminate|reflexivity]|]). destruct h. Qed.
Lemma open_stand n e : In n derived_names -> stands false (BU n e) <> None /\ trouble_below (false, BU n e) = None.
Proof. intro h. cbn in h. repeat (destruct h as [<-|h]; [split; [discriminate|reflexivity]|]). destruct h. Qed.
Lemma plain_below x : ~ In (bname x) derived_names -> trouble_below (false, x) = trouble_below (true, x).
Proof.
  intro hx. unfold trouble_below, trouble. cbn [fst snd]. rewrite plain_stands by exact hx.
  destruct (dict_get opened_sizes (bname x)) as [q|] eqn:e; [|reflexivity]. exfalso. apply hx. apply dict_get_in in e. cbn in e.
  repeat (destruct e as [e|e]; [injection e as e _; rewrite <- e; cbn; tauto|]). destruct e.
Qed.
Lemma pass_errors top bot t b : deconstruct_units true top bot = Ok (t, b) ->
  (first (fun x => stranger (true, x)) t = first stranger (marked top) /\ first (fun x => stranger (true, x)) b = first stranger (marked bot)) /\
  first (fun x => trouble (true, x)) t = first trouble (marked top) /\ first (fun x => trouble_below (true, x)) b = first trouble_below (marked bot).
Proof.
  intro h.
  assert (s0 : forall m, stands (fst m) (snd m) <> None -> stranger m = None /\ trouble m = None).
  { intros m hm. unfold stranger, trouble. destruct (stands (fst m) (snd m)); [auto|congruence]. }
  assert (s1 : forall n e, In n part_names -> stranger (true, BU n e) = None) by (intros n e hn; apply s0, parts_stand, hn).
  assert (s2 : forall n e, In n part_names -> trouble (true, BU n e) = None) by (intros n e hn; apply s0, parts_stand, hn).
  assert (s3 : forall n e, In n part_names -> trouble_below (true, BU n e) = None) by (intros n e hn; apply parts_stand, hn).
  split; [split|split].
  - rewrite (proj1 (pass_order _ s1 _ _ _ _ h)). apply open_mark.
    + intros n e hn. apply s0, open_stand, hn.
    + intros x hx. unfold stranger. cbn [fst snd]. rewrite plain_stands by exact hx. reflexivity.
  - rewrite (proj2 (pass_order _ s1 _ _ _ _ h)). apply open_mark.
    + intros n e hn. apply s0, open_stand, hn.
    + intros x hx. unfold stranger. cbn [fst snd]. rewrite plain_stands by exact hx. reflexivity.
  - rewrite (proj1 (pass_order _ s2 _ _ _ _ h)). apply open_mark.
    + intros n e hn. apply s0, open_stand, hn.
    + intros x hx. unfold trouble. cbn [fst snd]. rewrite plain_stands by exact hx. reflexivity.
  - rewrite (proj2 (pass_order _ s3 _ _ _ _ h)). apply open_mark.
    + intros n e hn. apply open_stand, hn.
    + intros x hx. apply plain_below. exact hx.
Qed.

Lemma first_empty l : first (fun x => if String.eqb (bname x) "" then Some EIndexError else None) l = None <-> forall x, In x l -> bname x <> "".
Proof.
  rewrite first_none. split; intros h x hx; specialize (h x hx).
  - intro e. rewrite e in h. discriminate.
  - destruct (String.eqb (bname x) "") eqn:e; [|reflexivity]. apply String.eqb_eq in e. contradiction.
Qed.
Lemma first_empty_some l e : first (fun x => if String.eqb (bname x) "" then Some EIndexError else None) l = Some e -> e = EIndexError /\ exists x, In x l /\ bname x = "".
Proof.
  induction l as [|x l IH]; cbn; [discriminate|]. destruct (String.eqb (bname x) "") eqn:hx; cbn.
  - intro h. injection h as <-. apply String.eqb_eq in hx. split; [reflexivity|]. exists x. auto.
  - intro h. destruct (IH h) as [-> [y [hy e']]]. split; [reflexivity|]. exists y. auto.
Qed.
Lemma prepare_error top bot :
  match unprepared top bot with
  | Some e => conv_prepare (T := R) top bot = Raise e
  | None => exists us vs f, conv_prepare (T := R) top bot = Ok (us, vs, f) /\
      match unreplaced top bot with Some e => conv_factor tables0 us vs f = Raise e | None => understood top /\ understood bot /\ seen bot <> 0 end
  end.
Proof.
  unfold unprepared, conv_prepare.
  destruct (first _ (top ++ bot)) as [e|] eqn:hn; cbn [or_else].
  { apply first_empty_some in hn. destruct hn as [-> hn]. rewrite (proj2 (prefix_actual top bot) hn). reflexivity. }
  rewrite first_empty in hn. rewrite (proj1 (prefix_actual top bot) hn). cbn [bind].
  destruct (deconstruct_ok true (rooted top) (rooted bot)) as [t [b [ed [_ _]]]]. rewrite ed. cbn [bind fst snd].
  destruct (pass_errors _ _ _ _ ed) as [[p1 p2] [p3 p4]].
  pose proof (base_lookup t) as b1. pose proof (base_lookup b) as b2. rewrite p1 in b1. rewrite p2 in b2.
  destruct (first stranger (marked (rooted top))) as [e|] eqn:q1; cbn [or_else]; [rewrite b1; reflexivity|].
  destruct b1 as [us e1]. rewrite e1. cbn [bind].
  destruct (first stranger (marked (rooted bot))) as [e|] eqn:q2; [rewrite b2; reflexivity|].
  destruct b2 as [vs e2]. rewrite e2. cbn [bind]. exists us, vs, (msize pscale top bot). split; [reflexivity|].
  unfold unreplaced, conv_factor.
  pose proof (loop_error false t us (nmul (nq 1) (msize pscale top bot)) e1) as l1. cbn [andb] in l1. cbv beta iota in l1. rewrite p3 in l1.
  destruct (first trouble (marked (rooted top))) as [e|] eqn:q3; cbn [or_else]; [rewrite l1; reflexivity|].
  destruct l1 as [[us2 f2] l1]. rewrite l1. cbn [bind fst snd].
  pose proof (loop_error true b vs f2 e2) as l2. cbv beta iota in l2. rewrite p4 in l2.
  destruct (first trouble_below (marked (rooted bot))) as [e|] eqn:q4; [rewrite l2; reflexivity|].
  clear l1 l2. rewrite first_none in q1, q2, q3, q4.
  assert (g : forall k x, stranger (k, x) = None -> trouble (k, x) = None -> stands k x <> None).
  { intros k x. unfold stranger, trouble. cbn [fst snd]. destruct (stands k x); [discriminate|]. destruct (stuck x); discriminate. }
  assert (q4' : forall m, In m (marked (rooted bot)) -> trouble m = None).
  { intros m hm. specialize (q4 m hm). unfold trouble_below in q4. destruct (trouble m); [discriminate|reflexivity]. }
  split; [|split].
  - split; [intros x hx; apply hn, in_or_app; auto|]. intros k x hx. apply g; auto.
  - split; [intros x hx; apply hn, in_or_app; auto|]. intros k x hx. apply g; auto.
  - apply seen_nonzero. intros [k x] hx. assert (hs : stands k x <> None) by (apply g; auto).
    apply nonzero_iff.
    + unfold known1. cbn [fst snd]. destruct (stands k x); [reflexivity|congruence].
    + specialize (q4 _ hx). unfold trouble_below in q4. rewrite (q4' _ hx) in q4. unfold nonzero.
      destruct (if fst (k, x) then None else dict_get opened_sizes (bname (snd (k, x)))); [reflexivity|].
      destruct (dict_get degree_sizes (bname (snd (k, x)))); [|reflexivity]. apply negb_true_iff.
      destruct (Qc_eq_bool (ev (bexp (snd (k, x)))) (qc 0)) eqn:eb; [|reflexivity]. apply Qceqb_eq in eb.
      destruct (Qc_eq_dec (ev (bexp (snd (k, x)))) (qc 0)); [discriminate|contradiction].
Qed.

(** ** The whole conversion *)
Lemma same_dims_false lt lb rt rb : same_dims (T := R) lt lb rt rb = false -> ~ forall c, class_total c lt lb = class_total c rt rb.
Proof. intros h k. apply same_dims_iff in k. congruence. Qed.
Lemma refused_raises (a : multi_obj R) s pt pb e : parse_units s = Ok (pt, pb) -> refused (mtop a) (mbot a) pt pb e -> multi_convert_to tables0 a s = Raise e.
Proof.
  intros hp h. unfold multi_convert_to. rewrite hp. cbn [bind fst snd].
  pose proof (prepare_error pt pb) as g1. pose proof (prepare_error (mtop a) (mbot a)) as g2.
  assert (hf : match first_error (mtop a) (mbot a) pt pb with Some e' => e' = e | None =>
      (~ same_seen_dims (mtop a) (mbot a) pt pb /\ e = EUnitConversionError) \/ (same_seen_dims (mtop a) (mbot a) pt pb /\ seen pt = 0 /\ e = EZeroDivisionError) end).
  { destruct h as [e h|h d|h d z]; rewrite h; auto. }
  clear h. unfold first_error in hf.
  destruct (unprepared pt pb) as [e1|]; cbn [or_else] in hf; [subst e1; rewrite g1; reflexivity|].
  destruct g1 as [rt [rb [rf [g1 g1']]]]. rewrite g1. cbn [bind].
  destruct (unprepared (mtop a) (mbot a)) as [e1|]; cbn [or_else] in hf; [subst e1; rewrite g2; reflexivity|].
  destruct g2 as [lt [lb [lf [g2 g2']]]]. rewrite g2. cbn [bind].
  destruct (unreplaced (mtop a) (mbot a)) as [e1|]; cbn [or_else] in hf; [subst e1; rewrite g2'; reflexivity|].
  destruct (proj1 (side_iff _ _) g2') as [lt' [lb' [s2 [k2 d2]]]]. unfold side_of in s2. rewrite g2 in s2. cbn [bind] in s2. rewrite s2. cbn [bind].
  destruct (unreplaced pt pb) as [e1|]; [subst e1; rewrite g1'; reflexivity|].
  destruct (proj1 (side_iff _ _) g1') as [rt' [rb' [s1 [k1 d1]]]]. unfold side_of in s1. rewrite g1 in s1. cbn [bind] in s1. rewrite s1. cbn [bind].
  assert (hk : known_units (rt' ++ rb' ++ lt' ++ lb')) by (intros u hu; rewrite app_assoc in hu; apply in_app_or in hu; destruct hu; auto).
  destruct (proj2 (classes_known_ok _) hk) as [cs ->]. cbn [bind].
  assert (hd : same_dims lt' lb' rt' rb' = true <-> same_seen_dims (mtop a) (mbot a) pt pb).
  { rewrite same_dims_iff. unfold same_seen_dims. split; intros hc c; specialize (hc c); rewrite d1, d2 in *; exact hc. }
  destruct hf as [[nd ->]|[sd [z ->]]].
  - destruct (same_dims lt' lb' rt' rb'); [|reflexivity]. exfalso. apply nd, hd. reflexivity.
  - rewrite (proj2 hd sd). rewrite z. replace (0 / seen pb) with 0 by (unfold Rdiv; ring). rewrite pydiv_0. reflexivity.
Qed.
Lemma not_refused (a : multi_obj R) s pt pb : parse_units s = Ok (pt, pb) -> (forall e, ~ refused (mtop a) (mbot a) pt pb e) -> exists r, multi_convert_to tables0 a s = Ok r.
Proof.
  intros hp h.
  assert (hf : first_error (mtop a) (mbot a) pt pb = None).
  { destruct (first_error (mtop a) (mbot a) pt pb) as [e|] eqn:e1; [|reflexivity]. destruct (h e). apply refused_unit. exact e1. }
  pose proof (prepare_error pt pb) as g1. pose proof (prepare_error (mtop a) (mbot a)) as g2.
  pose proof hf as hf'. unfold first_error in hf'.
  destruct (unprepared pt pb); [discriminate|]. destruct (unprepared (mtop a) (mbot a)); [discriminate|]. cbn [or_else] in hf'.
  destruct (unreplaced (mtop a) (mbot a)); [discriminate|]. cbn [or_else] in hf'. rewrite hf' in g1.
  destruct g1 as [_ [_ [_ [_ g1]]]]. destruct g2 as [_ [_ [_ [_ g2]]]].
  apply (convert_iff a s pt pb hp).
  assert (d : same_seen_dims (mtop a) (mbot a) pt pb).
  { intro c. destruct (Qc_eq_dec (seen_dim (mtop a) c - seen_dim (mbot a) c)%Qc (seen_dim pt c - seen_dim pb c)%Qc) as [|n]; [assumption|].
    destruct (h EUnitConversionError). apply refused_dims; [exact hf|]. intro k. apply n, k. }
  assert (z : seen pt <> 0). { intro z. apply (h EZeroDivisionError). apply refused_zero; assumption. }
  destruct g1 as [u1 [u2 z1]]. destruct g2 as [u3 [u4 z2]]. do 7 (split; [assumption|]). exact d.
Qed.
Lemma convert_error (a : multi_obj R) s pt pb e : parse_units s = Ok (pt, pb) ->
  (multi_convert_to tables0 a s = Raise e <-> refused (mtop a) (mbot a) pt pb e).
Proof.
  intro hp. split; [|apply (refused_raises a s pt pb e hp)]. intro h.
  assert (hx : exists e', refused (mtop a) (mbot a) pt pb e').
  { destruct (first_error (mtop a) (mbot a) pt pb) as [e1|] eqn:hf; [exists e1; apply refused_unit; exact hf|].
    assert (dd : same_seen_dims (mtop a) (mbot a) pt pb \/ ~ same_seen_dims (mtop a) (mbot a) pt pb).
    { unfold same_seen_dims. clear.
      assert (hc : forall l : list ucls, (forall c, In c l -> (seen_dim (mtop a) c - seen_dim (mbot a) c = seen_dim pt c - seen_dim pb c)%Qc) \/
         ~ forall c, In c l -> (seen_dim (mtop a) c - seen_dim (mbot a) c = seen_dim pt c - seen_dim pb c)%Qc).
      { induction l as [|c l IH]; [left; intros c []|]. destruct (Qc_eq_dec (seen_dim (mtop a) c - seen_dim (mbot a) c)%Qc (seen_dim pt c - seen_dim pb c)%Qc) as [y|n].
        - destruct IH as [i|i]; [left; intros d [<-|hd]; auto|right; intro k; apply i; intros d hd; apply k; right; exact hd].
        - right. intro k. apply n, k. left. reflexivity. }
      destruct (hc all_ucls) as [y|n]; [left; intro c; apply y; destruct c; cbn; tauto|right; intro k; apply n; intros c _; apply k]. }
    destruct dd as [d|d]; [|exists EUnitConversionError; apply refused_dims; assumption].
    destruct (Req_dec (seen pt) 0) as [z|z]; [exists EZeroDivisionError; apply refused_zero; assumption|].
    exfalso. destruct (not_refused a s pt pb hp) as [r hr]; [|congruence].
    intros e' k. destruct k as [e' k|k k2|k k2 k3]; [congruence|contradiction|contradiction]. }
  destruct hx as [e' hx]. pose proof (refused_raises a s pt pb e' hp hx) as h'. rewrite h in h'. injection h' as <-. exact hx.
Qed.
Lemma stuck_kinds x e : stuck x = Some e -> In e [EKeyError; EUnitConversionError; EValueError].
Proof.
  unfold stuck. set (one := if Qc_eq_dec _ _ then true else false).
  destruct (member (bname x) gaps); [intro h; injection h as <-; cbn; tauto|].
  destruct (one && member (bname x) litres); [intro h; injection h as <-; cbn; tauto|].
  destruct (one && String.eqb (bname x) "ML"); [intro h; injection h as <-; cbn; tauto|].
  destruct (member (bname x) cubes); [intro h; injection h as <-; cbn; tauto|discriminate].
Qed.
Lemma first_some {A B} (f : A -> option B) l b : first f l = Some b -> exists x, In x l /\ f x = Some b.
Proof.
  induction l as [|x l IH]; cbn; [discriminate|]. destruct (f x) eqn:e; cbn.
  - intro h. injection h as <-. eauto.
  - intro h. destruct (IH h) as [y [hy hb]]. eauto.
Qed.
Definition refusals : list exn := [EIndexError; EKeyError; EValueError; EUnitConversionError; EZeroDivisionError].
Lemma unprepared_kinds top bot e : unprepared top bot = Some e -> In e refusals.
Proof.
  unfold unprepared. destruct (first _ (top ++ bot)) as [e1|] eqn:h1; cbn [or_else].
  - intro h. injection h as <-. apply first_empty_some in h1. destruct h1 as [-> _]. cbn. tauto.
  - assert (g : forall l, first stranger l = Some e -> In e refusals).
    { intros l h. apply first_some in h. destruct h as [x [_ h]]. unfold stranger in h. destruct (stands _ _); [discriminate|].
      destruct (stuck _); [discriminate|]. injection h as <-. cbn. tauto. }
    destruct (first stranger (marked (rooted top))) as [e1|] eqn:h2; cbn [or_else]; intro h; [injection h as <-|]; eapply g; eassumption.
Qed.
Lemma unreplaced_kinds top bot e : unreplaced top bot = Some e -> In e refusals.
Proof.
  assert (g0 : forall m e, trouble m = Some e -> In e refusals).
  { intros m e' h. unfold trouble in h. destruct (stands _ _); [discriminate|]. apply stuck_kinds in h. cbn in *. tauto. }
  unfold unreplaced. destruct (first trouble (marked (rooted top))) as [e1|] eqn:h1; cbn [or_else]; intro h.
  - injection h as <-. apply first_some in h1. destruct h1 as [m [_ h1]]. exact (g0 m _ h1).
  - apply first_some in h. destruct h as [m [_ h]]. unfold trouble_below in h. destruct (trouble m) as [e1|] eqn:ht; [injection h as <-; exact (g0 m _ ht)|].
    destruct (if fst m then None else _); [discriminate|]. destruct (dict_get degree_sizes _); [|discriminate]. destruct (Qc_eq_dec _ _); [|discriminate].
    injection h as <-. cbn. tauto.
Qed.
Lemma refused_kinds top bot pt pb e : refused top bot pt pb e -> In e refusals.
Proof.
  intros [e' h|h d|h d z]; [|cbn; tauto|cbn; tauto]. unfold first_error in h.
  destruct (unprepared pt pb) eqn:h1; cbn [or_else] in h; [injection h as <-; exact (unprepared_kinds _ _ _ h1)|].
  destruct (unprepared top bot) eqn:h2; cbn [or_else] in h; [injection h as <-; exact (unprepared_kinds _ _ _ h2)|].
  destruct (unreplaced top bot) eqn:h3; cbn [or_else] in h; [injection h as <-; exact (unreplaced_kinds _ _ _ h3)|exact (unreplaced_kinds _ _ _ h)].
Qed.
Lemma convert_kinds (a : multi_obj R) s pt pb e : parse_units s = Ok (pt, pb) -> multi_convert_to tables0 a s = Raise e -> In e refusals.
Proof. intros hp h. apply (convert_error a s pt pb e hp) in h. exact (refused_kinds _ _ _ _ _ h). Qed.

(** Cases: names not registered, a litre squared before an unknown name, a degree to the power 0, an
    empty name, and a newton per square metre in pascals. *)
Definition pas : half := [BU "Pa" (eint 1)].
Lemma refuse_cases :
  first_error [BU "W" (eint 1); BU "W" (eint 1)] nil pas nil = Some EKeyError /\
  first_error [BU "mL" (eint 2)] nil pas nil = Some EValueError /\
  first_error [BU "mL" (eint 2)] nil [BU "furlong" (eint 1)] nil = Some EKeyError /\
  first_error [BU "m" (eint 1)] [BU "K" (eint 0)] [BU "L" (eint 2)] nil = Some EZeroDivisionError /\
  first_error pas nil pas [BU "" (eint 1)] = Some EIndexError /\
  first_error [BU "N" (eint 1)] [BU "m" (eint 2)] pas nil = None /\
  refused [BU "N" (eint 1)] [BU "m" (eint 2)] pas nil EUnitConversionError /\
  refused [BU "m" (eint 1); BU "K" (eint 0)] nil [BU "m" (eint 1); BU "K" (eint 0)] nil EZeroDivisionError.
Proof.
  assert (n : first_error [BU "N" (eint 1)] [BU "m" (eint 2)] pas nil = None) by (lazy; reflexivity).
  split; [lazy; reflexivity|]. split; [lazy; reflexivity|]. split; [lazy; reflexivity|]. split; [lazy; reflexivity|]. split; [lazy; reflexivity|].
  split; [exact n|]. split.
  - apply refused_dims; [exact n|]. intro h. specialize (h Force). apply (f_equal QcR) in h. revert h. unfold seen_dim.
    change (marked (rooted [BU "N" (eint 1)])) with [(false, BU "N" (eint 1))]. change (marked (rooted [BU "m" (eint 2)])) with [(false, BU "m" (eint 2))].
    change (marked (rooted pas)) with [(false, BU "Pa" (eint 1))]. change (marked (rooted [])) with (@nil (bool * bu)).
    cbn [map fold_right]. unfold dim_of. cbn [fst snd].
    change (stands false (BU "N" (eint 1))) with (Some (Rpower (Q2R 1) (QcR (ev (eint 1))), ("N", 1%Z))).
    change (stands false (BU "m" (eint 2))) with (Some (Rpower (Q2R 1) (QcR (ev (eint 2))), ("m", 1%Z))).
    change (stands false (BU "Pa" (eint 1))) with (Some (Rpower (Q2R 1) (QcR (ev (eint 1))), ("Pa", 1%Z))).
    change (vector "N" Force) with 1%Z. change (vector "m" Force) with 0%Z. change (vector "Pa" Force) with 0%Z. cbn [bexp ev eint].
    rewrite !QcR_minus, !QcR_plus, !QcR_mult, !QcR_qc. intro h. change (vector "N" Force) with 1%Z in h. change (vector "m" Force) with 0%Z in h. change (vector "Pa" Force) with 0%Z in h. lra.
  - apply refused_zero; [lazy; reflexivity|intro c; reflexivity|]. unfold seen.
    change (marked (rooted [BU "m" (eint 1); BU "K" (eint 0)])) with [(false, BU "m" (eint 1)); (false, BU "K" (eint 0))].
    cbn [map fold_right]. unfold number_of at 2. cbn [fst snd]. change (stands false (BU "K" (eint 0))) with (Some (Q2R 1 * QcR (ev (eint 0)), ("K", 1%Z))).
    cbn [ev eint]. rewrite QcR_qc. ring.
Qed.
