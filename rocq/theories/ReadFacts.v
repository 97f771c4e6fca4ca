(** * ReadFacts: the conversion of a MultiUnit, for every unit *)
From Coq Require Import String Ascii List ZArith QArith Qcanon Bool Reals Qreals Lia Lra.
From Verif Require Import Py Num UnitsData UnitsStruct Units NumFacts Spec SpecFacts StructFacts ExpandFacts OpFacts NamesFacts PrefixFacts PrefixSpec PrefixExact PassSpec PassFacts
  ConvSpec ConvFacts ConvDims ConvTotal ConvLaws ReadSpec.
Import ListNotations.
Local Open Scope string_scope.
Local Open Scope list_scope.
Local Open Scope R_scope.

(** ** The pass, counted in any commutative monoid *)
Section Pass.
  Variables (A : Type) (op : A -> A -> A) (one : A).
  Hypothesis comm : forall x y, op x y = op y x.
  Hypothesis assoc : forall x y z, op x (op y z) = op (op x y) z.
  Hypothesis unit : forall x, op one x = x.

  Definition total (m : bu -> A) (l : half) : A := fold_right (fun x a => op (m x) a) one l.
  (** An opened unit: its parts, those below the stroke in the other half. *)
  Definition opened (m m' : bu -> A) (x : bu) : A :=
    match defn (bname x) with
    | Some p => op (total m (scaled (bexp x) (fst p))) (total m' (scaled (bexp x) (snd p)))
    | None => m x
    end.
  Definition mark (m m' : bu -> A) (k : bool * bu) : A := if fst k then m (snd k) else opened m m' (snd k).
  Definition marks (m m' : bu -> A) (l : half) : A := fold_right (fun k a => op (mark m m' k) a) one (marked l).

  Lemma unit_r x : op x one = x. Proof. rewrite comm. apply unit. Qed.
  Lemma total_app m l1 l2 : total m (l1 ++ l2) = op (total m l1) (total m l2).
  Proof. induction l1 as [|x l IH]; cbn; [symmetry; apply unit|]. fold (total m (l ++ l2)). rewrite IH. apply assoc. Qed.
  Lemma total_cons m x l : total m (x :: l) = op (m x) (total m l). Proof. reflexivity. Qed.
  Lemma marks_plain m m' x l : is_derived x = false -> marks m m' (x :: l) = op (opened m m' x) (marks m m' l).
  Proof. intro h. unfold marks. cbn [marked]. rewrite h. reflexivity. Qed.
  Lemma marks_two m m' x y l : is_derived x = true -> marks m m' (x :: y :: l) = op (opened m m' x) (op (m y) (marks m m' l)).
  Proof. intro h. unfold marks. cbn [marked]. rewrite h. reflexivity. Qed.
  Lemma marks_one m m' x : is_derived x = true -> marks m m' [x] = opened m m' x.
  Proof. intro h. unfold marks. cbn [marked]. rewrite h. cbn. apply unit_r. Qed.

  Definition inert (m m' : bu -> A) (x : bu) : Prop := opened m m' x = m x.
  Lemma marks_inert m m' l : (forall x, In x l -> inert m m' x) -> marks m m' l = total m l.
  Proof.
    induction l as [|x|x y l IH IH'] using list_two; intro h; [reflexivity| |].
    - destruct (is_derived x) eqn:d.
      + rewrite marks_one by exact d. cbn. rewrite unit_r. apply h. left. reflexivity.
      + rewrite marks_plain by exact d. cbn. rewrite (h x (or_introl eq_refl)). reflexivity.
    - destruct (is_derived x) eqn:d.
      + rewrite marks_two by exact d. rewrite IH by (intros z hz; apply h; right; right; exact hz). rewrite (h x (or_introl eq_refl)). reflexivity.
      + rewrite marks_plain by exact d. rewrite IH' by (intros z hz; apply h; right; exact hz). rewrite (h x (or_introl eq_refl)). reflexivity.
  Qed.
  Lemma marks_app m m' l a : (forall x, In x a -> inert m m' x) -> marks m m' (l ++ a) = op (marks m m' l) (total m a).
  Proof.
    intro h. induction l as [|x|x y l IH IH'] using list_two.
    - cbn [app]. rewrite marks_inert by exact h. symmetry. apply unit.
    - destruct (is_derived x) eqn:d.
      + rewrite marks_one by exact d. destruct a as [|y a]; cbn [app].
        * rewrite marks_one by exact d. symmetry. apply unit_r.
        * rewrite marks_two by exact d. rewrite marks_inert by (intros z hz; apply h; right; exact hz). reflexivity.
      + cbn [app]. rewrite !marks_plain by exact d. rewrite marks_inert by exact h. unfold marks at 1. cbn. rewrite unit_r. reflexivity.
    - destruct (is_derived x) eqn:d.
      + cbn [app]. rewrite !marks_two by exact d. rewrite IH, !assoc. reflexivity.
      + change ((x :: y :: l) ++ a) with (x :: (y :: l) ++ a). rewrite !marks_plain by exact d. rewrite IH'. apply assoc.
  Qed.

  Variables mp mm : bu -> A.
  Hypothesis J_top : forall e, inert mp mm (BU "J" e).
  Hypothesis J_bot : forall e, inert mm mp (BU "J" e).
  Definition pair_ok (m m' : bu -> A) : Prop := m = mp /\ m' = mm \/ m = mm /\ m' = mp.
  Lemma parts_inert m m' n p e x : pair_ok m m' -> defn n = Some p -> In x (scaled e (fst p) ++ scaled e (snd p)) -> inert m m' x /\ inert m' m x.
  Proof.
    intros hm h hx. unfold scaled in hx. rewrite <- map_app in hx. apply in_map_iff in hx. destruct hx as [y [<- hy]].
    pose proof (defn_in n p y h hy) as hn. cbn in hn.
    assert (hJ : forall e, inert m m' (BU "J" e) /\ inert m' m (BU "J" e)) by (intro; destruct hm as [[-> ->]|[-> ->]]; auto).
    destruct hn as [<-|[<-|[<-|[<-|[<-|[<-|[<-|[<-|[]]]]]]]]]; first [apply hJ | split; reflexivity].
  Qed.
  Lemma loop_total m m' fuel pre rest other hit t o h : pair_ok m m' -> expand_loop fuel pre rest other hit = Ok (t, o, h) ->
    exists a, o = other ++ a /\ (forall x, In x a -> inert m' m x) /\ op (total m t) (total m' a) = op (total m pre) (marks m m' rest).
  Proof.
    intro hm. revert pre rest other hit. induction fuel as [|fuel IH]; intros pre rest other hit e;
      destruct rest as [|x rest']; cbn [expand_loop] in e; try discriminate.
    - injection e as <- <- _. exists nil. split; [symmetry; apply app_nil_r|]. split; [intros x []|reflexivity].
    - injection e as <- <- _. exists nil. split; [symmetry; apply app_nil_r|]. split; [intros x []|reflexivity].
    - destruct (derived_cases (bname x)) as [[hd [d [p [h1 [h2 h3]]]]]|[hd [h1 h3]]]; rewrite h1 in e.
      + rewrite (expand_eq d p (bexp x) h2) in e. cbn [bind fst snd] in e. apply is_derived_true in hd.
        set (a1 := scaled (bexp x) (fst p)) in *. set (a2 := scaled (bexp x) (snd p)) in *.
        assert (i1 : forall z, In z a1 -> inert m m' z) by (intros z hz; refine (proj1 (parts_inert m m' _ p (bexp x) z hm h3 _)); apply in_or_app; left; exact hz).
        assert (i2 : forall z, In z a2 -> inert m' m z) by (intros z hz; refine (proj2 (parts_inert m m' _ p (bexp x) z hm h3 _)); apply in_or_app; right; exact hz).
        assert (ho : opened m m' x = op (total m a1) (total m' a2)) by (unfold opened; rewrite h3; reflexivity).
        assert (hr : marks m m' (x :: rest') = op (total m' a2) match rest' ++ a1 with nil => one | y :: ys => op (m y) (marks m m' ys) end).
        { destruct rest' as [|y r]; cbn [app].
          - rewrite marks_one, ho by exact hd. rewrite comm. f_equal. destruct a1 as [|y ys]; [reflexivity|].
            rewrite marks_inert by (intros z hz; apply i1; right; exact hz). reflexivity.
          - rewrite marks_two, ho by exact hd. rewrite marks_app by exact i1. rewrite !assoc. rewrite (comm (op _ _) (total m a1)). rewrite !assoc.
            f_equal. }
        rewrite hr. destruct (rest' ++ a1) as [|y ys].
        * injection e as <- <- _. exists a2. rewrite unit_r. auto.
        * apply IH in e. destruct e as [a [-> [ia e]]]. exists (a2 ++ a). split; [symmetry; apply app_assoc|].
          split; [intros z hz; apply in_app_or in hz; destruct hz; auto|].
          rewrite total_app. rewrite (comm (total m' a2)), assoc, e, total_app. cbn [total fold_right]. rewrite unit_r.
          rewrite <- !assoc. f_equal. rewrite !assoc. rewrite (comm (op _ _) (total m' a2)). rewrite !assoc. reflexivity.
      + apply IH in e. destruct e as [a [-> [ia e]]]. exists a. split; [reflexivity|]. split; [exact ia|]. rewrite e.
        apply is_derived_false in hd. rewrite marks_plain by exact hd. rewrite total_app. cbn [total fold_right]. rewrite unit_r. unfold opened. rewrite h3. symmetry. apply assoc.
  Qed.
  Lemma pass_total top bot t b : deconstruct_units true top bot = Ok (t, b) ->
    op (total mp t) (total mm b) = op (marks mp mm top) (marks mm mp bot).
  Proof.
    unfold deconstruct_units. cbn [deconstruct_loop]. unfold deconstruct_round. intro h.
    destruct (expand_loop (weights top) nil top bot false) as [[[t1 b1] h1]|] eqn:e1; cbn [bind] in h; [|discriminate].
    destruct (expand_loop (weights b1) nil b1 t1 false) as [[[b2 t2] h2]|] eqn:e2; cbn [bind negb] in h; [|discriminate].
    rewrite andb_false_r in h. injection h as <- <-.
    apply (loop_total mp mm) in e1; [|left; auto]. destruct e1 as [a [-> [ia e1]]].
    apply (loop_total mm mp) in e2; [|right; auto]. destruct e2 as [a' [-> [ia' e2]]].
    cbn [total fold_right] in e1, e2. rewrite unit in e1, e2. rewrite marks_app in e2 by exact ia.
    rewrite total_app, <- assoc, (comm (total mp a')), e2. rewrite (comm (marks mm mp bot)), assoc, e1. reflexivity.
  Qed.
End Pass.

(** ** One unit *)
Lemma table_read (c : ucls) n s (q : R) e :
  0 < q -> mem_str n ["K"; "C"] = false -> mem_str n ["R"; "F"] = false -> mem_str n UNIT_COMPOSITES = false ->
  standard c = Some s -> has_char "^" s = false -> String.eqb n s = false ->
  (exists f, tab_get (to_standard0 (T := R) c) n = Ok f /\ f 1 = Ok q) ->
  (forall (v : R) ex, mk_unit c v s ex = Ok (UO c v s ex)) ->
  exists u', convert_and_get_factor tables0 (UO c 1 n e) = Ok u' /\ uv u' = Rpower q (QcR (ev e)) /\ un u' = s /\ ev (ue u') = ev e.
Proof.
  intros hq h1 h2 h3 hs hc hn hf hm. destruct (table_ok c n s q e hq h1 h2 h3 hs hc hn hf hm) as [u' [h _]].
  exists u'. split; [exact h|]. destruct (table_step c n s q e u' hq h1 h2 h3 hs hc hn hf hm h) as [e' [-> he]].
  cbn. repeat split. apply QcR_inj. exact he.
Qed.
Lemma same_read (c : ucls) s e :
  mem_str s ["K"; "C"] = false -> mem_str s ["R"; "F"] = false -> mem_str s UNIT_COMPOSITES = false ->
  standard c = Some s -> has_char "^" s = false ->
  convert_and_get_factor tables0 (UO c (1 : R) s e) = Ok (UO c 1 s e).
Proof.
  intros h1 h2 h3 hs hc. destruct (same_ok c s e h1 h2 h3 hs hc) as [u' [h _]]. rewrite h. f_equal. exact (same_step c s e u' h1 h2 h3 hs hc h).
Qed.
Lemma Q2R1' : Q2R 1 = 1. Proof. exact Q2R1. Qed.
Lemma Rpower1l e : Rpower 1 e = 1. Proof. unfold Rpower. rewrite ln_1, Rmult_0_r. apply exp_0. Qed.
Lemma Qc_times_1 (q : Qc) : (q * qc 1)%Qc = q. Proof. apply Qcmult_1_r. Qed.

Definition reads (x : bu) (r : R) (s : string) (k : Z) : Prop :=
  exists c u u', get_unit_class (bname x) = Ok c /\ mk_unit c (1 : R) (bname x) (bexp x) = Ok u /\ convert_and_get_factor tables0 u = Ok u' /\
    uv u' = r /\ un u' = s /\ ev (ue u') = (ev (bexp x) * qc k)%Qc.
Lemma one_degree n e q : dict_get degree_sizes n = Some q -> reads (BU n e) (Q2R q * QcR (ev e)) n 1.
Proof.
  intro h. apply dict_get_in in h. unfold reads. cbn [bname bexp]. cbn in h.
  repeat (destruct h as [h|h]; [injection h as <- <-; exists Temperature; eexists; eexists; split; [reflexivity|split; [reflexivity|split; [reflexivity|]]];
    cbn [uv un ue nmul nq Rnum]; split; [|split; [reflexivity|symmetry; apply Qc_times_1]]; unfold QcR; q2r; lra|]). destruct h.
Qed.
Lemma one_bulk n e k q : dict_get bulk_sizes n = Some (k, q) -> ev e = qc 1 -> reads (BU n e) (Q2R q) "m" k.
Proof.
  intros h he. apply dict_get_in in h. unfold reads. cbn [bname bexp].
  assert (e1 : e_is e 1 = true) by (unfold e_is; rewrite he; reflexivity).
  assert (h1 : (qc 1 * qc 3 = qc 3)%Qc) by (apply Qc_is_canon; reflexivity). assert (h2 : (qc 1 * qc 2 = qc 2)%Qc) by (apply Qc_is_canon; reflexivity).
  cbn in h. destruct h as [h|[h|[]]]; injection h as <- <- <-.
  - exists Volume, (UO Volume 1 "L" e). destruct (convert_and_get_factor tables0 (UO Volume (1 : R) "L" e)) as [u'|x] eqn:ec.
    + exists u'. split; [reflexivity|]. split; [reflexivity|]. split; [reflexivity|]. apply step_L in ec. destruct ec as [_ ->]. cbn [uv un ue ev eflt]. rewrite he, h1. split; [q2r; lra|auto].
    + exfalso. destruct (step_ok "L" e) as [c [u [u' [k1 [k2 [k3 _]]]]]]; [cbn; tauto|split; cbn [bname bexp]; [intro; exact he|intros; congruence || (subst; cbn in *; intuition congruence)]|].
      injection k1 as <-. injection k2 as <-. congruence.
  - exists Area, (UO Area 1 "acre" e). destruct (convert_and_get_factor tables0 (UO Area (1 : R) "acre" e)) as [u'|x] eqn:ec.
    + exists u'. split; [reflexivity|]. split; [reflexivity|]. split; [reflexivity|]. apply step_acre in ec. destruct ec as [_ ->]. cbn [uv un ue ev eflt]. rewrite he, h2. split; [reflexivity|auto].
    + exfalso. destruct (step_ok "acre" e) as [c [u [u' [k1 [k2 [k3 _]]]]]]; [cbn; tauto|split; cbn [bname bexp]; [intro; exact he|intros; congruence || (subst; cbn in *; intuition congruence)]|].
      injection k1 as <-. injection k2 as <-. congruence.
Qed.
Lemma one_table n e s q : dict_get read_sizes n = Some (s, q) -> reads (BU n e) (Rpower (Q2R q) (QcR (ev e))) s 1.
Proof.
  intro h. apply dict_get_in in h. unfold reads. cbn [bname bexp].
  Local Ltac rtab :=
    match goal with |- exists _ _ _, get_unit_class ?n = _ /\ mk_unit _ _ _ ?e = _ /\ _ /\ _ = Rpower (Q2R ?q) _ /\ _ = ?s /\ _ =>
      let c := eval vm_compute in (match get_unit_class n with Ok c => c | Raise _ => UUnit end) in
      exists c, (UO c 1 n e);
      first [ is_same n s; exists (UO c 1 n e); split; [reflexivity|]; split; [reflexivity|]; split; [apply same_read; reflexivity|]; cbn [uv un ue];
              rewrite Q2R1', Rpower1l; split; [reflexivity|]; split; [reflexivity|]; symmetry; apply Qc_times_1
            | destruct (table_read c n s (Q2R q) e) as [u' [a1 [a2 [a3 a4]]]];
              [q2r; lra|reflexivity|reflexivity|reflexivity|reflexivity|reflexivity|reflexivity
              |eexists; split; [reflexivity|]; cbv [times over nmul ndiv nq Rnum]; f_equal; q2r; field
              |intros; reflexivity|];
              exists u'; split; [reflexivity|]; split; [reflexivity|]; split; [exact a1|]; split; [exact a2|]; split; [exact a3|]; rewrite a4; symmetry; apply Qc_times_1 ]
    end
  with is_same n s := constr_eq n s.
  cbn [In read_sizes] in h.
  repeat (destruct h as [h|h]; [injection h as <- <- <-; rtab|]). destruct h.
Qed.
Lemma one_yes x r s k : stands true x = Some (r, (s, k)) -> reads x r s k.
Proof.
  destruct x as [n e]. unfold stands. cbn [bname bexp].
  destruct (dict_get degree_sizes n) as [q|] eqn:h1; [intro h; injection h as <- <- <-; apply one_degree; exact h1|].
  destruct (dict_get bulk_sizes n) as [[k' q]|] eqn:h2; [destruct (Qc_eq_dec (ev e) (qc 1)) as [he|]; [|discriminate]; intro h; injection h as <- <- <-; apply one_bulk; assumption|].
  destruct (dict_get read_sizes n) as [[s' q]|] eqn:h3; [|discriminate]. intro h. injection h as <- <- <-. apply one_table. exact h3.
Qed.
Definition unread : list string := ["Mm"; "cg"; "cPa"; "cN"; "uL"; "mL"; "cL"; "dL"; "kL"; "ML";
  "um^3"; "mm^3"; "cm^3"; "dm^3"; "km^3"; "Mm^3"; "m^3"; "ft^3"; "in^3"; "um^2"; "mm^2"; "cm^2"; "dm^2"; "km^2"; "Mm^2"; "m^2"; "ft^2"; "in^2"].
Lemma registry_split : forallb (fun nc => mem_str (fst nc) unread || match dict_get degree_sizes (fst nc) with Some _ => true | None => false end ||
  match dict_get bulk_sizes (fst nc) with Some _ => true | None => false end || match dict_get read_sizes (fst nc) with Some _ => true | None => false end) UNIT_REGISTRY = true.
Proof. vm_compute. reflexivity. Qed.
Lemma one_no x c u u' : stands true x = None -> get_unit_class (bname x) = Ok c -> mk_unit c (1 : R) (bname x) (bexp x) = Ok u -> convert_and_get_factor tables0 u = Ok u' -> False.
Proof.
  destruct x as [n e]. cbn [bname bexp]. intros hs hc hm h. unfold get_unit_class in hc.
  destruct (dict_get UNIT_REGISTRY n) as [c'|] eqn:hr; [|discriminate]. injection hc as ->.
  pose proof registry_split as A. rewrite forallb_forall in A. specialize (A _ (dict_get_in _ _ _ hr)). cbn [fst] in A.
  unfold stands in hs. cbn [bname bexp] in hs.
  destruct (dict_get degree_sizes n) as [q|]; [discriminate|].
  destruct (dict_get bulk_sizes n) as [[k q]|] eqn:hb.
  - destruct (Qc_eq_dec (ev e) (qc 1)) as [|he]; [discriminate|]. apply he, QcR_inj. rewrite QcR_qc. apply dict_get_in in hb. cbn in hb.
    destruct hb as [hb|[hb|[]]]; injection hb as <- <- <-; vm_compute in hr; injection hr as <-; injection hm as <-.
    + apply step_L in h. apply h. + apply step_acre in h. apply h.
  - destruct (dict_get read_sizes n) as [[s q]|]; [discriminate|]. rewrite !orb_false_r in A. apply mem_str_In in A. clear hs hb.
    cbn [In unread] in A.
    Local Ltac missing hm h := injection hm as <-; unfold convert_and_get_factor in h; cbn [un uc uv ue standard] in h;
      match type of h with context [e_is ?e 1] => destruct (e_is e 1) end; vm_compute in h; discriminate.
    Local Ltac litres hm h := injection hm as <-; unfold convert_and_get_factor in h; cbn [un uc uv ue standard] in h;
      match type of h with context [e_is ?e 1] => destruct (e_is e 1); [|vm_compute in h; discriminate] end;
      match type of h with context [mem_str ?n ["K"; "C"]] => change (mem_str n ["K"; "C"]) with false in h; change (mem_str n ["R"; "F"]) with false in h;
        cbn iota in h; unfold unit_convert_to in h; cbn [un] in h; change (mem_str n UNIT_COMPOSITES) with false in h end;
      change (has_char "^" "m^3") with true in h; cbn iota in h;
      change (split_on "^" "m^3") with ["m"; "3"] in h; cbn [bind] in h; rewrite py_float_3 in h; cbn [bind] in h;
      unfold unit_convert_core in h; cbn [un uc uv ue standard] in h;
      repeat match type of h with context [String.eqb ?a ?b] => let r := eval vm_compute in (String.eqb a b) in change (String.eqb a b) with r in h end;
      cbn iota in h;
      match type of h with context [to_val ?a ?b ?c ?d ?e] => destruct (to_val a b c d e) as [x|x]; [cbn [bind] in h; discriminate|destruct x; discriminate] end.
    Local Ltac caret hm h :=
      cbn [mk_unit] in hm; unfold split_caret in hm; match type of hm with (if ?b then _ else _) = _ => change b with true in hm end; cbn iota in hm;
      match type of hm with context [split_on "^" ?s] => let r := eval compute in (split_on "^" s) in change (split_on "^" s) with r in hm end;
      cbn iota in hm; rewrite ?py_float_2, ?py_float_3 in hm; cbn [bind] in hm; injection hm as <-; vm_compute in h; discriminate.
    repeat (destruct A as [<-|A]; [vm_compute in hr; injection hr as <-; first [missing hm h | litres hm h | caret hm h]|]). destruct A.
Qed.

(** ** Opened units *)
Lemma part_stands n e : In n ["kg"; "m"; "s"; "J"; "lbf"; "in"; "g"; "A"] -> exists s q, dict_get read_sizes n = Some (s, q) /\
  stands true (BU n e) = Some (Rpower (Q2R q) (QcR (ev e)), (s, 1%Z)).
Proof. cbn. intro h. repeat (destruct h as [<-|h]; [eexists; eexists; split; reflexivity|]). destruct h. Qed.
Lemma st_kg e : stands true (BU "kg" e) = Some (Rpower (Q2R 1) (QcR (ev e)), ("kg", 1%Z)). Proof. reflexivity. Qed.
Lemma st_m e : stands true (BU "m" e) = Some (Rpower (Q2R 1) (QcR (ev e)), ("m", 1%Z)). Proof. reflexivity. Qed.
Lemma st_s e : stands true (BU "s" e) = Some (Rpower (Q2R 1) (QcR (ev e)), ("s", 1%Z)). Proof. reflexivity. Qed.
Lemma st_J e : stands true (BU "J" e) = Some (Rpower (Q2R 1) (QcR (ev e)), ("J", 1%Z)). Proof. reflexivity. Qed.
Lemma st_A e : stands true (BU "A" e) = Some (Rpower (Q2R 1) (QcR (ev e)), ("A", 1%Z)). Proof. reflexivity. Qed.
Lemma st_lbf e : stands true (BU "lbf" e) = Some (Rpower (Q2R (444822 # 100000)) (QcR (ev e)), ("N", 1%Z)). Proof. reflexivity. Qed.
Lemma st_in e : stands true (BU "in" e) = Some (Rpower (Q2R (254 # 10000)) (QcR (ev e)), ("m", 1%Z)). Proof. reflexivity. Qed.
Lemma st_g e : stands true (BU "g" e) = Some (Rpower (Q2R (1 # 1000)) (QcR (ev e)), ("kg", 1%Z)). Proof. reflexivity. Qed.
Ltac st := rewrite ?st_kg, ?st_m, ?st_s, ?st_J, ?st_A, ?st_lbf, ?st_in, ?st_g.
Lemma st_open n e q : dict_get opened_sizes n = Some q -> stands false (BU n e) = Some (Rpower (Q2R q) (QcR (ev e)), (n, 1%Z)).
Proof. intro h. unfold stands. cbn [bname bexp]. rewrite h. reflexivity. Qed.
Lemma plain_stands x : ~ In (bname x) derived_names -> stands false x = stands true x.
Proof.
  intro h. unfold stands. assert (e : dict_get opened_sizes (bname x) = None); [|rewrite e; reflexivity].
  destruct (dict_get opened_sizes (bname x)) as [q|] eqn:e; [|reflexivity]. apply dict_get_in in e. exfalso. apply h. cbn in e.
  repeat (destruct e as [e|e]; [injection e as e _; rewrite <- e; cbn; tauto|]). destruct e.
Qed.
(** Every unit the pass looks at: either derived, or read as it is. *)
Lemma mark_cases {A} op one (m m' : bu -> A) (g : bool * bu -> A) : (forall x, g (true, x) = m x) -> (forall x, ~ In (bname x) derived_names -> g (false, x) = m x) ->
  (forall n p e, In n derived_names -> defn n = Some p -> op (total A op one m (scaled e (fst p))) (total A op one m' (scaled e (snd p))) = g (false, BU n e)) ->
  forall k, mark A op one m m' k = g k.
Proof.
  intros h1 h2 h3 [[|] x]; unfold mark; cbn [fst snd]; [symmetry; apply h1|]. unfold opened.
  destruct (derived_cases (bname x)) as [[hd [d [p [_ [_ e]]]]]|[hd [_ e]]]; rewrite e.
  - destruct x as [n ex]. cbn [bname bexp] in *. apply h3; assumption.
  - symmetry. apply h2. exact hd.
Qed.
Lemma marks_map {A} op one (m m' : bu -> A) g l : (forall k, mark A op one m m' k = g k) -> marks A op one m m' l = fold_right op one (map g (marked l)).
Proof. intro h. unfold marks. induction (marked l) as [|k r IH]; [reflexivity|]. cbn. rewrite IH, h. reflexivity. Qed.
Ltac derived h hp := cbn in h; repeat (destruct h as [<-|h]; [vm_compute in hp; injection hp as <-|]); try destruct h.

(** *** Numbers *)
Definition num1 (x : bu) : R := number_of (true, x).
Definition inum (x : bu) : R := / number_of (true, x).
Lemma num_open n p e : In n derived_names -> defn n = Some p ->
  total R Rmult 1 num1 (scaled e (fst p)) * total R Rmult 1 inum (scaled e (snd p)) = number_of (false, BU n e).
Proof.
  intros h hp. cbn in h.
  assert (k1 : forall x, Rpower (Q2R 1) x = 1) by (intro; rewrite Q2R1; apply Rpower1l).
  repeat (destruct h as [<-|h]; [injection hp as <-; unfold total, scaled, num1, inum, number_of; cbn [map fold_right fst snd bname bexp]; st;
    erewrite st_open by reflexivity; rewrite ?k1, ?Rinv_1; try (cbn; ring)|]); [| |destruct h].
  - cbn [emul ev f1 f2]. rewrite !QcR_mult. change (QcR (ev f1)) with (QcR (qc 1)). change (QcR (ev f2)) with (QcR (qc 2)). rewrite !QcR_qc.
    set (x := QcR (ev e)). assert (a1 : 0 < Q2R (444822 # 100000)) by (q2r; lra). assert (a2 : 0 < Q2R (254 # 10000)) by (q2r; lra).
    rewrite Rmult_1_l, !Rmult_1_r. replace (Rpower (Q2R (254 # 10000)) (2 * x)) with (Rpower (Q2R (254 # 10000) * Q2R (254 # 10000)) x).
    2:{ rewrite <- Rpower_mult_distr by assumption. replace (2 * x) with (x + x) by ring. apply eq_sym, Rpower_plus. }
    rewrite <- Rpower_Rinv by (apply Rmult_lt_0_compat; assumption). rewrite Rpower_mult_distr by (try assumption; apply Rinv_0_lt_compat, Rmult_lt_0_compat; assumption).
    f_equal. rewrite Q2R_div by discriminate. rewrite Q2R_mult. reflexivity.
  - cbn [emul ev f1]. rewrite !QcR_mult. change (QcR (ev f1)) with (QcR (qc 1)). rewrite !QcR_qc, !Rmult_1_l, !Rmult_1_r. reflexivity.
Qed.
Lemma num_J m m' e : m = num1 /\ m' = inum \/ m = inum /\ m' = num1 -> inert R Rmult 1 m m' (BU "J" e).
Proof.
  assert (k1 : forall x, Rpower (Q2R 1) x = 1) by (intro; rewrite Q2R1; apply Rpower1l).
  intros [[-> ->]|[-> ->]]; unfold inert, opened; change (defn (bname (BU "J" e))) with (Some ([BU "kg" f1; BU "m" f2], [BU "s" f2]));
    unfold total, scaled, num1, inum, number_of; cbn [map fold_right fst snd bname bexp]; st; rewrite !k1, ?Rinv_1; ring.
Qed.
Lemma num_pass top bot t b : deconstruct_units true top bot = Ok (t, b) ->
  total R Rmult 1 num1 t * total R Rmult 1 inum b =
  fold_right Rmult 1 (map number_of (marked top)) * fold_right Rmult 1 (map (fun k => / number_of k) (marked bot)).
Proof.
  intro h.
  rewrite (pass_total R Rmult 1 Rmult_comm (fun x y z => eq_sym (Rmult_assoc x y z)) Rmult_1_l num1 inum (fun e => num_J _ _ e (or_introl (conj eq_refl eq_refl))) (fun e => num_J _ _ e (or_intror (conj eq_refl eq_refl))) top bot t b h).
  rewrite (marks_map Rmult 1 num1 inum number_of), (marks_map Rmult 1 inum num1 (fun k => / number_of k)); [reflexivity| |].
  - apply mark_cases; [reflexivity|intros x hx; unfold inum, number_of; cbn [fst snd]; rewrite plain_stands by exact hx; reflexivity|].
    intros n p e hn hp. rewrite <- (num_open n p e hn hp). rewrite Rinv_mult. f_equal.
    + unfold total, inum, num1. induction (scaled e (fst p)) as [|x l IH]; cbn; [symmetry; apply Rinv_1|]. rewrite Rinv_mult, IH. reflexivity.
    + unfold total, inum, num1. induction (scaled e (snd p)) as [|x l IH]; cbn; [symmetry; apply Rinv_1|]. rewrite Rinv_mult, <- IH, Rinv_inv. reflexivity.
  - apply mark_cases; [reflexivity|intros x hx; unfold num1, number_of; cbn [fst snd]; rewrite plain_stands by exact hx; reflexivity|].
    exact num_open.
Qed.

(** *** What is read at all *)
Definition known1 (k : bool * bu) : bool := match stands (fst k) (snd k) with Some _ => true | None => false end.
Definition nonzero (k : bool * bu) : bool :=
  match (if fst k then None else dict_get opened_sizes (bname (snd k))) with
  | Some _ => true
  | None => match dict_get degree_sizes (bname (snd k)) with Some _ => negb (Qc_eq_bool (ev (bexp (snd k))) (qc 0)) | None => true end
  end.
Definition kn (x : bu) : bool := known1 (true, x).
Definition kz (x : bu) : bool := known1 (true, x) && nonzero (true, x).
Lemma nonzero_iff k : known1 k = true -> nonzero k = true <-> number_of k <> 0.
Proof.
  destruct k as [k x]. unfold known1, nonzero, number_of, stands. cbn [fst snd].
  pose proof (fun q e => Rgt_not_eq _ _ (Rpower_pos q e)) as hp.
  destruct (if k then None else dict_get opened_sizes (bname x)) as [q|]; [intros _; split; [intros _; apply hp|reflexivity]|].
  destruct (dict_get degree_sizes (bname x)) as [q|] eqn:hd.
  - intros _. assert (hq : Q2R q <> 0). { apply dict_get_in in hd. cbn in hd. repeat (destruct hd as [hd|hd]; [injection hd as _ <-; q2r; lra|]). destruct hd. }
    rewrite negb_true_iff. split.
    + intros h e. apply Rmult_integral in e. destruct e as [e|e]; [contradiction|].
      assert (ev (bexp x) = qc 0) by (apply QcR_inj; rewrite QcR_qc; exact e). rewrite H in h. discriminate.
    + intro h. destruct (Qc_eq_bool (ev (bexp x)) (qc 0)) eqn:e; [|reflexivity]. apply Qceqb_eq in e. exfalso. apply h. rewrite e, QcR_qc. ring.
  - destruct (dict_get bulk_sizes (bname x)) as [[k' q]|] eqn:hb.
    + destruct (Qc_eq_dec (ev (bexp x)) (qc 1)); [|discriminate]. intros _. split; [intros _|reflexivity].
      apply dict_get_in in hb. cbn in hb. repeat (destruct hb as [hb|hb]; [injection hb as _ <- <-; q2r; lra|]). destruct hb.
    + destruct (dict_get read_sizes (bname x)) as [[s q]|]; [|discriminate]. intros _. split; [intros _; apply hp|reflexivity].
Qed.
Lemma known_pass top bot t b : deconstruct_units true top bot = Ok (t, b) ->
  total bool andb true kn t && total bool andb true kz b =
  forallb known1 (marked top) && forallb (fun k => known1 k && nonzero k) (marked bot).
Proof.
  intro h.
  assert (hk : forall x, kn x = true -> True) by auto.
  assert (part : forall n e, In n ["kg"; "m"; "s"; "J"; "lbf"; "in"; "g"; "A"] -> kn (BU n e) = true /\ kz (BU n e) = true).
  { intros n e hn. cbn in hn. repeat (destruct hn as [<-|hn]; [split; reflexivity|]). destruct hn. }
  assert (parts : forall n p e, defn n = Some p -> total bool andb true kn (scaled e (fst p)) = true /\ total bool andb true kn (scaled e (snd p)) = true /\
      total bool andb true kz (scaled e (fst p)) = true /\ total bool andb true kz (scaled e (snd p)) = true).
  { intros n p e hp. pose proof (fun y => defn_in n p y hp) as hd.
    assert (g : forall l, (forall y, In y l -> In (bname y) ["kg"; "m"; "s"; "J"; "lbf"; "in"; "g"; "A"]) ->
       total bool andb true kn (scaled e l) = true /\ total bool andb true kz (scaled e l) = true).
    { clear -part. induction l as [|y l IH]; intro hl; [split; reflexivity|]. unfold total, scaled in *. cbn [map fold_right].
      destruct (part (bname y) (emul (bexp y) e) (hl y (or_introl eq_refl))) as [-> ->]. destruct IH as [-> ->]; [intros z hz; apply hl; right; exact hz|]. split; reflexivity. }
    destruct (g (fst p)) as [-> ->]; [intros y hy; apply hd, in_or_app; auto|]. destruct (g (snd p)) as [-> ->]; [intros y hy; apply hd, in_or_app; auto|]. auto. }
  assert (J : forall e m m', m = kn /\ m' = kz \/ m = kz /\ m' = kn -> inert bool andb true m m' (BU "J" e)).
  { intros e m m' [[-> ->]|[-> ->]]; reflexivity. }
  rewrite (pass_total bool andb true andb_comm andb_assoc andb_true_l kn kz (fun e => J e _ _ (or_introl (conj eq_refl eq_refl))) (fun e => J e _ _ (or_intror (conj eq_refl eq_refl))) top bot t b h).
  assert (op : forall n e, In n derived_names -> known1 (false, BU n e) = true /\ nonzero (false, BU n e) = true).
  { intros n e hn. cbn in hn. repeat (destruct hn as [<-|hn]; [split; reflexivity|]). destruct hn. }
  assert (fb : forall (f : bool * bu -> bool) l, fold_right andb true (map f l) = forallb f l) by (induction l as [|a l IH]; cbn; [reflexivity|rewrite IH; reflexivity]).
  rewrite (marks_map andb true kn kz known1), (marks_map andb true kz kn (fun k => known1 k && nonzero k)); [rewrite !fb; reflexivity| |].
  - apply mark_cases; [reflexivity| |].
    + intros x hx. unfold kz, known1, nonzero. cbn [fst snd]. rewrite plain_stands by exact hx. f_equal.
      destruct (dict_get opened_sizes (bname x)) as [q|] eqn:e; [|reflexivity]. exfalso. apply hx. apply dict_get_in in e. cbn in e.
      repeat (destruct e as [e|e]; [injection e as e _; rewrite <- e; cbn; tauto|]). destruct e.
    + intros n p e hn hp. destruct (parts n p e hp) as [a1 [a2 [a3 a4]]]. rewrite a2, a3. destruct (op n e hn) as [-> ->]. reflexivity.
  - apply mark_cases; [reflexivity| |].
    + intros x hx. unfold kn, known1. cbn [fst snd]. rewrite plain_stands by exact hx. reflexivity.
    + intros n p e hn hp. destruct (parts n p e hp) as [a1 [a2 [a3 a4]]]. rewrite a1, a4. destruct (op n e hn) as [-> _]. reflexivity.
Qed.

(** *** Dimensions *)
Definition dm (c : ucls) (x : bu) : R := QcR (dim_of c (true, x)).
Definition dmi (c : ucls) (x : bu) : R := - QcR (dim_of c (true, x)).
Lemma dim_1 (e : expo) z : QcR (ev e * (qc 1 * qc z)) = QcR (ev e) * IZR z.
Proof. rewrite !QcR_mult, !QcR_qc. ring. Qed.
Lemma dim_open c n p e : In n derived_names -> defn n = Some p ->
  total R Rplus 0 (dm c) (scaled e (fst p)) + total R Rplus 0 (dmi c) (scaled e (snd p)) = QcR (dim_of c (false, BU n e)).
Proof.
  intros h hp. cbn in h.
  repeat (destruct h as [<-|h]; [injection hp as <-; unfold total, scaled, dm, dmi, dim_of; cbn [map fold_right fst snd bname bexp]; st;
    erewrite st_open by reflexivity; rewrite ?dim_1; cbn [emul ev f1 f2 f3 eflt]; rewrite ?QcR_mult, ?QcR_qc; destruct c; cbn; ring|]). destruct h.
Qed.
Lemma dim_J c m m' e : m = dm c /\ m' = dmi c \/ m = dmi c /\ m' = dm c -> inert R Rplus 0 m m' (BU "J" e).
Proof.
  intros [[-> ->]|[-> ->]]; unfold inert, opened; change (defn (bname (BU "J" e))) with (Some ([BU "kg" f1; BU "m" f2], [BU "s" f2]));
    unfold total, scaled, dm, dmi, dim_of; cbn [map fold_right fst snd bname bexp]; st; rewrite ?dim_1; cbn [emul ev f1 f2 eflt]; rewrite ?QcR_mult, ?QcR_qc; destruct c; cbn; ring.
Qed.
Lemma dim_pass c top bot t b : deconstruct_units true top bot = Ok (t, b) ->
  total R Rplus 0 (dm c) t + total R Rplus 0 (dmi c) b =
  fold_right Rplus 0 (map (fun k => QcR (dim_of c k)) (marked top)) + fold_right Rplus 0 (map (fun k => - QcR (dim_of c k)) (marked bot)).
Proof.
  intro h.
  rewrite (pass_total R Rplus 0 Rplus_comm (fun x y z => eq_sym (Rplus_assoc x y z)) Rplus_0_l (dm c) (dmi c) (fun e => dim_J c _ _ e (or_introl (conj eq_refl eq_refl))) (fun e => dim_J c _ _ e (or_intror (conj eq_refl eq_refl))) top bot t b h).
  rewrite (marks_map Rplus 0 (dm c) (dmi c) (fun k => QcR (dim_of c k))), (marks_map Rplus 0 (dmi c) (dm c) (fun k => - QcR (dim_of c k))); [reflexivity| |].
  - apply mark_cases; [reflexivity|intros x hx; unfold dmi, dim_of; cbn [fst snd]; rewrite plain_stands by exact hx; reflexivity|].
    intros n p e hn hp. rewrite <- (dim_open c n p e hn hp). rewrite Ropp_plus_distr. f_equal.
    + unfold total, dm, dmi. induction (scaled e (fst p)) as [|x l IH]; cbn; [ring|]. rewrite IH. ring.
    + unfold total, dm, dmi. induction (scaled e (snd p)) as [|x l IH]; cbn; [ring|]. rewrite IH. ring.
  - apply mark_cases; [reflexivity|intros x hx; unfold dm, dim_of; cbn [fst snd]; rewrite plain_stands by exact hx; reflexivity|].
    exact (dim_open c).
Qed.

(** ** The loops over the units left by the pass *)
Lemma loop_yes inv l (f : R) : (forall x, In x l -> kn x = true) -> (inv = true -> forall x, In x l -> kz x = true) ->
  exists us us', base_to_unit l = Ok us /\ factor_loop tables0 inv us f = Ok (us', f * total R Rmult 1 (if inv then inum else num1) l) /\
    (forall phi, lin phi (as_bu us') = total R Rplus 0 (fun x => match stands true x with Some (_, (s, k)) => QcR (ev (bexp x) * qc k) * phi s | None => 0 end) l) /\
    (forall x, In x (as_bu us') -> In (bname x) ("C" :: stage_names)).
Proof.
  intros hk hz. revert f. induction l as [|x l IH]; intro f.
  - exists nil, nil. cbn. rewrite Rmult_1_r. repeat split; auto. intros x [].
  - pose proof (hk x (or_introl eq_refl)) as hx. unfold kn, known1 in hx. cbn [fst snd] in hx.
    destruct (stands true x) as [[r [s k]]|] eqn:hs; [|discriminate].
    destruct (one_yes x r s k hs) as [c [u [u' [e1 [e2 [e3 [e4 [e5 e6]]]]]]]].
    assert (hn : num1 x = r) by (unfold num1, number_of; cbn [fst snd]; rewrite hs; reflexivity).
    assert (hi : inv = true -> r <> 0).
    { intro hv. pose proof (hz hv x (or_introl eq_refl)) as hzx. unfold kz in hzx. apply andb_true_iff in hzx. destruct hzx as [k1 k2].
      apply (nonzero_iff _ k1) in k2. unfold num1 in hn. congruence. }
    assert (hg : (if inv then pydiv (nq 1) (uv u') else Ok (uv u')) = Ok ((if inv then inum else num1) x)).
    { rewrite e4. destruct inv; [|rewrite hn; reflexivity]. rewrite pydiv_ok by (apply hi; reflexivity). unfold inum. unfold num1 in hn. rewrite hn. f_equal. cbn [nq Rnum]. rewrite Q2R1. field. apply hi. reflexivity. }
    destruct (IH (fun y hy => hk y (or_intror hy)) (fun hv y hy => hz hv y (or_intror hy)) (f * (if inv then inum else num1) x)) as [us [us' [b1 [b2 [b3 b4]]]]].
    exists (u :: us), (u' :: us'). split; [|split; [|split]].
    + unfold base_to_unit in *. cbn [mapM]. rewrite e1. cbn [bind]. change (nq 1) with (Q2R 1) at 1. rewrite Q2R1, e2. cbn [bind]. rewrite b1. reflexivity.
    + cbn [factor_loop]. rewrite e3. cbn [bind]. rewrite hg. cbn [bind]. change (nmul f ?g) with (f * g). rewrite b2. cbn [bind fst snd]. f_equal. f_equal. cbn [total fold_right]. fold (total R Rmult 1 (if inv then inum else num1) l). ring.
    + intro phi. cbn [as_bu map lin bname bexp total fold_right]. fold (as_bu us'). rewrite b3, hs, e5, e6. reflexivity.
    + cbn [as_bu map]. intros y [<-|hy]; [|apply b4; exact hy]. cbn [bname]. rewrite e5.
      clear -hs. unfold stands in hs. destruct (dict_get degree_sizes (bname x)) as [q|] eqn:hd.
      { injection hs as _ <- _. apply dict_get_in in hd. cbn in hd. repeat (destruct hd as [hd|hd]; [injection hd as <- _; cbn; tauto|]). destruct hd. }
      destruct (dict_get bulk_sizes (bname x)) as [[k' q]|]; [destruct (Qc_eq_dec _ _); [|discriminate]; injection hs as _ <- _; cbn; tauto|].
      destruct (dict_get read_sizes (bname x)) as [[s' q]|] eqn:hr; [|discriminate]. injection hs as _ <- _.
      apply dict_get_in in hr. cbn [In read_sizes] in hr. repeat (destruct hr as [hr|hr]; [injection hr as _ <- _; cbn; tauto|]). destruct hr.
Qed.
Lemma loop_no inv l us (f : R) us' f' : base_to_unit l = Ok us -> factor_loop tables0 inv us f = Ok (us', f') ->
  (forall x, In x l -> kn x = true) /\ (inv = true -> forall x, In x l -> kz x = true).
Proof.
  intro hb. apply base_named in hb. revert f us' f'. induction hb as [|x u l us [c [hc hm]] hb IH]; intros f us' f' h; cbn [factor_loop] in h.
  - split; [intros x []|intros _ x []].
  - destruct (convert_and_get_factor tables0 u) as [u'|] eqn:hu; cbn [bind] in h; [|discriminate].
    destruct (if inv then pydiv (nq 1) (uv u') else Ok (uv u')) as [g|] eqn:hg; cbn [bind] in h; [|discriminate].
    destruct (factor_loop tables0 inv us (nmul f g)) as [[us1 f1']|] eqn:hl; cbn [bind] in h; [|discriminate].
    destruct (IH _ _ _ hl) as [i1 i2].
    assert (hk : kn x = true).
    { unfold kn, known1. cbn [fst snd]. destruct (stands true x) eqn:hs; [reflexivity|]. destruct (one_no x c u u' hs hc hm hu). }
    split; [intros y [<-|hy]; auto|]. intros -> y [<-|hy]; [|auto]. unfold kz. apply andb_true_iff. split; [exact hk|].
    apply nonzero_iff; [exact hk|]. unfold kn, known1 in hk. cbn [fst snd] in hk. destruct (stands true x) as [[r [s k]]|] eqn:hs; [|discriminate].
    destruct (one_yes x r s k hs) as [c' [v [v' [e1 [e2 [e3 [e4 _]]]]]]]. rewrite hc in e1. injection e1 as <-. rewrite hm in e2. injection e2 as <-. rewrite hu in e3. injection e3 as <-.
    unfold number_of. cbn [fst snd]. rewrite hs. intro hr. rewrite e4, hr in hg. rewrite pydiv_0 in hg. discriminate.
Qed.
Lemma total_and m l : total bool andb true m l = true <-> forall x, In x l -> m x = true.
Proof.
  unfold total. induction l as [|x l IH]; cbn; [split; [intros _ x []|reflexivity]|]. rewrite andb_true_iff, IH. split.
  - intros [h1 h2] y [<-|hy]; auto.
  - intro h. split; [apply h; auto|intros y hy; apply h; auto].
Qed.

(** ** Class totals *)
Definition cphi (c : ucls) (n : string) : R :=
  IZR (if String.eqb n "lbf" then vector "N" c else if String.eqb n "in" then vector "m" c else if String.eqb n "g" then vector "kg" c else vector n c).
Lemma cphi_compat c : compat (cphi c).
Proof.
  intros n p h. destruct (derived_cases n) as [[hd _]|[_ [_ h3]]]; [|congruence]. cbn in hd.
  repeat (destruct hd as [<-|hd]; [injection h as <-; cbn [lin fst snd bname bexp f1 f2 f3 ev eflt]; rewrite ?QcR_qc; unfold cphi; destruct c; cbn; ring|]). destruct hd.
Qed.
Lemma cphi_total c l : (forall x, In x l -> In (bname x) fin_names) -> lin (cphi c) l = QcR (ctot c l).
Proof.
  induction l as [|x l IH]; intro h; [cbn; rewrite QcR_qc; reflexivity|]. cbn [lin ctot fold_right]. fold (ctot c l).
  rewrite IH by (intros y hy; apply h; right; exact hy).
  assert (e : cphi c (bname x) = if ucls_eqb c (cls_of (bname x)) then 1 else 0).
  { pose proof (h x (or_introl eq_refl)) as hx. cbn in hx. repeat (destruct hx as [<-|hx]; [destruct c; reflexivity|]). destruct hx. }
  rewrite e. destruct (ucls_eqb c (cls_of (bname x))); [rewrite QcR_plus; ring|ring].
Qed.
Lemma fin_base_all l : (forall x, In x l -> In (bname x) fin_names) -> exists us : list (unit_obj R), base_to_unit l = Ok us /\ known_units us.
Proof.
  induction l as [|x l IH]; intro h; [exists nil; split; [reflexivity|intros u []]|].
  destruct IH as [us [e k]]; [intros y hy; apply h; right; exact hy|].
  pose proof (h x (or_introl eq_refl)) as hx. destruct x as [n ex]. cbn [bname] in hx.
  assert (hs : exists c, get_unit_class n = Ok c /\ mk_unit c (nq 1) n ex = Ok (UO c (nq 1 : R) n ex)).
  { cbn in hx. repeat (destruct hx as [<-|hx]; [eexists; split; reflexivity|]). destruct hx. }
  destruct hs as [c [e1 e2]]. exists (UO c (nq 1) n ex :: us). split.
  - unfold base_to_unit in *. cbn [mapM bname bexp]. rewrite e1. cbn [bind]. rewrite e2. cbn [bind]. rewrite e. reflexivity.
  - intros u [<-|hu]; [exists c; exact e1|apply k; exact hu].
Qed.

(** ** One side *)
Lemma cphi_std c x r s k : stands true x = Some (r, (s, k)) -> cphi c s = IZR (vector s c).
Proof.
  intro hs. assert (h : In s ["m"; "kg"; "s"; "A"; "mol"; "N"; "K"; "R"; "F"; "C"; "J"; "Pa"]).
  { unfold stands in hs. destruct (dict_get degree_sizes (bname x)) as [q|] eqn:hd.
    { injection hs as _ <- _. apply dict_get_in in hd. cbn in hd. repeat (destruct hd as [hd|hd]; [injection hd as <- _; cbn; tauto|]). destruct hd. }
    destruct (dict_get bulk_sizes (bname x)) as [[k' q]|]; [destruct (Qc_eq_dec _ _); [|discriminate]; injection hs as _ <- _; cbn; tauto|].
    destruct (dict_get read_sizes (bname x)) as [[s' q]|] eqn:hr; [|discriminate]. injection hs as _ <- _.
    apply dict_get_in in hr. cbn [In read_sizes] in hr. repeat (destruct hr as [hr|hr]; [injection hr as _ <- _; cbn; tauto|]). destruct hr. }
  cbn in h. repeat (destruct h as [<-|h]; [reflexivity|]). destruct h.
Qed.
Lemma prod_inv {A} (g : A -> R) l : fold_right Rmult 1 (map (fun k => / g k) l) = / fold_right Rmult 1 (map g l).
Proof. induction l as [|x l IH]; cbn; [symmetry; apply Rinv_1|]. rewrite IH, Rinv_mult. reflexivity. Qed.
Lemma prod_nonzero {A} (g : A -> R) l : fold_right Rmult 1 (map g l) <> 0 <-> forall x, In x l -> g x <> 0.
Proof.
  induction l as [|x l IH]; cbn; [split; [intros _ x []|intros _; lra]|]. split.
  - intros h y [<-|hy] e; [apply h; rewrite e; ring|]. revert e. apply IH; [|exact hy]. intro e. apply h. rewrite e. ring.
  - intros h e. apply Rmult_integral in e. destruct e as [e|e]; [exact (h x (or_introl eq_refl) e)|]. revert e. apply IH. intros y hy. apply h. right. exact hy.
Qed.
Lemma sum_Qc {A} (g : A -> Qc) l : fold_right Rplus 0 (map (fun k => QcR (g k)) l) = QcR (fold_right Qcplus (qc 0) (map g l)).
Proof. induction l as [|x l IH]; cbn; [rewrite QcR_qc; reflexivity|]. rewrite IH, QcR_plus. reflexivity. Qed.
Lemma sum_opp {A} (g : A -> R) l : fold_right Rplus 0 (map (fun k => - g k) l) = - fold_right Rplus 0 (map g l).
Proof. induction l as [|x l IH]; cbn; [ring|]. rewrite IH. ring. Qed.
Lemma understood_b l : understood l <-> (forall x, In x l -> bname x <> "") /\ forallb known1 (marked (rooted l)) = true.
Proof.
  unfold understood. rewrite forallb_forall. unfold known1. split; intros [h1 h2]; split; auto.
  - intros [k x] hx. cbn [fst snd]. specialize (h2 k x hx). destruct (stands k x); [reflexivity|congruence].
  - intros k x hx. specialize (h2 (k, x) hx). cbn [fst snd] in h2. destruct (stands k x); [discriminate|congruence].
Qed.
Lemma seen_nonzero l : seen l <> 0 <-> forall k, In k (marked (rooted l)) -> number_of k <> 0.
Proof.
  rewrite <- prod_nonzero. unfold seen. pose proof (usize_pos pscale l) as h. split; intros h1 h2; apply h1.
  - rewrite h2. ring.
  - apply Rmult_integral in h2. destruct h2; [lra|assumption].
Qed.
Lemma side_iff top bot :
  (understood top /\ understood bot /\ seen bot <> 0 ->
     exists us vs, side_of tables0 top bot = Ok (us, vs, seen top / seen bot) /\ known_units (us ++ vs) /\
       forall c, class_total c us vs = (seen_dim top c - seen_dim bot c)%Qc) /\
  (forall r, side_of (T := R) tables0 top bot = Ok r -> understood top /\ understood bot /\ seen bot <> 0).
Proof.
  split.
  - rewrite (understood_b top), (understood_b bot), seen_nonzero. intros [[n1 k1] [[n2 k2] z2]].
    assert (z2' : forallb (fun k => known1 k && nonzero k) (marked (rooted bot)) = true).
    { apply forallb_forall. intros k hk. rewrite forallb_forall in k2. rewrite (k2 k hk). apply (nonzero_iff k (k2 k hk)), z2, hk. }
    assert (ep : deconstruct_unit_prefixes top bot = Ok (rooted top, rooted bot, msize pscale top bot)).
    { apply prefix_actual. intros x hx. apply in_app_or in hx. destruct hx; auto. }
    destruct (deconstruct_ok true (rooted top) (rooted bot)) as [t [b [ed [_ _]]]].
    pose proof (known_pass _ _ _ _ ed) as hk. rewrite k1, z2' in hk. apply andb_true_iff in hk. destruct hk as [ht hb].
    rewrite total_and in ht, hb.
    destruct (loop_yes false t (nmul (nq 1) (msize pscale top bot)) ht) as [us1 [us2 [e1 [e3 [l1 s1]]]]]; [discriminate|].
    assert (hb' : forall x, In x b -> kn x = true) by (intros x hx; apply hb in hx; unfold kz in hx; apply andb_true_iff in hx; apply hx).
    match type of e3 with _ = Ok (_, ?f) => destruct (loop_yes true b f hb' (fun _ => hb)) as [vs1 [vs2 [e2 [e4 [l2 s2]]]]] end.
    destruct (deconstruct_ok false (as_bu us2) (as_bu vs2)) as [t3 [b3 [ed2 [hl2 hd2]]]].
    destruct (decon_closed (fun x => In (bname x) ("C" :: stage_names)) (fun x p y hx hp hy => stage_closedC x p y hx hp hy) _ _ _ _ _ ed2 s1 s2) as [c1 c2].
    assert (hf : forall x, In x (t3 ++ b3) -> In (bname x) fin_names).
    { intros x hx. apply stage_finC; [|apply (hd2 eq_refl); exact hx]. apply in_app_or in hx. destruct hx; auto. }
    assert (hf1 : forall x, In x t3 -> In (bname x) fin_names) by (intros x hx; apply hf, in_or_app; auto).
    assert (hf2 : forall x, In x b3 -> In (bname x) fin_names) by (intros x hx; apply hf, in_or_app; auto).
    destruct (fin_base_all t3 hf1) as [us3 [e5 q1]]. destruct (fin_base_all b3 hf2) as [vs3 [e6 q2]].
    exists us3, vs3. split; [|split].
    + unfold side_of, conv_prepare. rewrite ep. cbn [bind]. rewrite ed. cbn [bind fst snd]. rewrite e1. cbn [bind]. rewrite e2. cbn [bind].
      unfold conv_factor. rewrite e3. cbn [bind fst snd]. rewrite e4. cbn [bind fst snd]. rewrite ed2. cbn [bind fst snd].
      rewrite e5. cbn [bind]. rewrite e6. cbn [bind]. f_equal. f_equal.
      rewrite Rmult_assoc, (num_pass _ _ _ _ ed), prod_inv. cbn [nmul nq Rnum]. rewrite Q2R1. unfold seen, msize, Rdiv. rewrite Rinv_mult. ring.
    + intros u hu. apply in_app_or in hu. destruct hu; auto.
    + intro c. rewrite (class_total_ctot c t3 b3 us3 vs3 hf (base_named _ _ e5) (base_named _ _ e6)). apply QcR_inj. rewrite !QcR_minus.
      rewrite <- (cphi_total c t3 hf1), <- (cphi_total c b3 hf2), (hl2 _ (cphi_compat c)), l1, l2.
      pose proof (dim_pass c _ _ _ _ ed) as hp. rewrite sum_opp, !sum_Qc in hp. fold (seen_dim top c) (seen_dim bot c) in hp.
      assert (g : forall l, (forall x, In x l -> kn x = true) ->
        total R Rplus 0 (fun x => match stands true x with Some (_, (s, k)) => QcR (ev (bexp x) * qc k) * cphi c s | None => 0 end) l = total R Rplus 0 (dm c) l /\
        total R Rplus 0 (dmi c) l = - total R Rplus 0 (dm c) l).
      { unfold total. induction l as [|x l IH]; intro h; cbn [map fold_right]; [split; [reflexivity|ring]|].
        destruct IH as [i1 i2]; [intros y hy; apply h; right; exact hy|]. rewrite i1, i2. split; [|unfold dm, dmi; ring].
        f_equal. unfold dm, dim_of. cbn [fst snd]. destruct (stands true x) as [[r [s k]]|] eqn:hs; [|rewrite QcR_qc; reflexivity].
        rewrite (cphi_std c x r s k hs). rewrite !QcR_mult, !QcR_qc. ring. }
      destruct (g t ht) as [-> _]. destruct (g b hb') as [-> g2]. rewrite g2 in hp. lra.
  - intros r h. unfold side_of, conv_prepare in h.
    assert (hn : forall x, In x (top ++ bot) -> bname x <> EmptyString).
    { intros x hx e. rewrite (proj2 (prefix_actual top bot)) in h by eauto. discriminate. }
    rewrite (proj1 (prefix_actual top bot) hn) in h. cbn [bind] in h.
    destruct (deconstruct_units true (rooted top) (rooted bot)) as [[t b]|] eqn:ed; cbn [bind fst snd] in h; [|discriminate].
    destruct (base_to_unit t) as [us1|] eqn:e1; cbn [bind] in h; [|discriminate].
    destruct (base_to_unit b) as [vs1|] eqn:e2; cbn [bind] in h; [|discriminate].
    unfold conv_factor in h.
    destruct (factor_loop tables0 false us1 _) as [[us2 f2]|] eqn:e3; cbn [bind fst snd] in h; [|discriminate].
    destruct (factor_loop tables0 true vs1 f2) as [[vs2 f3]|] eqn:e4; cbn [bind fst snd] in h; [|discriminate].
    destruct (loop_no _ _ _ _ _ _ e1 e3) as [k1 _]. destruct (loop_no _ _ _ _ _ _ e2 e4) as [_ k2]. specialize (k2 eq_refl).
    rewrite <- total_and in k1, k2. pose proof (known_pass _ _ _ _ ed) as hk. rewrite k1, k2 in hk. symmetry in hk. apply andb_true_iff in hk.
    destruct hk as [h1 h2]. rewrite forallb_forall in h2.
    assert (h3 : forallb known1 (marked (rooted bot)) = true). { apply forallb_forall. intros k hk. apply h2 in hk. apply andb_true_iff in hk. apply hk. }
    rewrite (understood_b top), (understood_b bot), seen_nonzero. repeat split; auto.
    + intros x hx. apply hn, in_or_app. auto.
    + intros x hx. apply hn, in_or_app. auto.
    + intros k hk. specialize (h2 k hk). apply andb_true_iff in h2. apply (nonzero_iff k); apply h2.
Qed.

(** ** The whole conversion *)
Lemma convert_exact (a : multi_obj R) s pt pb r : parse_units s = Ok (pt, pb) ->
  (multi_convert_to tables0 a s = Ok r <->
   understood (mtop a) /\ understood (mbot a) /\ understood pt /\ understood pb /\
   seen (mbot a) <> 0 /\ seen pt <> 0 /\ seen pb <> 0 /\
   (forall c, seen_dim (mtop a) c - seen_dim (mbot a) c = seen_dim pt c - seen_dim pb c)%Qc /\
   r = MO (mc a) (mv a * (seen_size (mtop a) (mbot a) / seen_size pt pb)) pt pb).
Proof.
  intro hp. rewrite convert_eq. split.
  - intros (pt' & pb' & rt & rb & rf & lt & lb & lf & ep & e1 & e2 & hk & hd & hz & ->). rewrite hp in ep. injection ep as <- <-.
    pose proof (proj2 (side_iff _ _) _ e1) as g1. pose proof (proj2 (side_iff _ _) _ e2) as g2.
    destruct (proj1 (side_iff _ _) g1) as [rt' [rb' [e1' [_ d1]]]]. destruct (proj1 (side_iff _ _) g2) as [lt' [lb' [e2' [_ d2]]]].
    rewrite e1 in e1'. rewrite e2 in e2'. injection e1' as <- <- ->. injection e2' as <- <- ->.
    assert (z : seen pt <> 0). { intro e. apply hz. rewrite e. unfold Rdiv. ring. }
    destruct g1 as [a1 [a2 a3]]. destruct g2 as [a4 [a5 a6]]. do 7 (split; [assumption|]). split; [|reflexivity].
    intro c. rewrite <- d1, <- d2. apply same_dims_iff. exact hd.
  - intros (u1 & u2 & u3 & u4 & z1 & z2 & z3 & hd & ->).
    destruct (proj1 (side_iff pt pb)) as [rt [rb [e1 [k1 d1]]]]; [auto|]. destruct (proj1 (side_iff (mtop a) (mbot a))) as [lt [lb [e2 [k2 d2]]]]; [auto|].
    exists pt, pb, rt, rb, (seen pt / seen pb), lt, lb, (seen (mtop a) / seen (mbot a)). do 3 (split; [assumption|]). split; [|split; [|split; [|reflexivity]]].
    + intros u hu. rewrite app_assoc in hu. apply in_app_or in hu. destruct hu; auto.
    + apply same_dims_iff. intro c. rewrite d1, d2. apply hd.
    + apply Rmult_integral_contrapositive. split; [assumption|apply Rinv_neq_0_compat; assumption].
Qed.
Lemma convert_unparsed (a : multi_obj R) s e : parse_units s = Raise e -> multi_convert_to tables0 a s = Raise e.
Proof. intro h. unfold multi_convert_to. rewrite h. reflexivity. Qed.
Lemma convert_iff (a : multi_obj R) s pt pb : parse_units s = Ok (pt, pb) ->
  ((exists r, multi_convert_to tables0 a s = Ok r) <->
   understood (mtop a) /\ understood (mbot a) /\ understood pt /\ understood pb /\
   seen (mbot a) <> 0 /\ seen pt <> 0 /\ seen pb <> 0 /\
   forall c, (seen_dim (mtop a) c - seen_dim (mbot a) c = seen_dim pt c - seen_dim pb c)%Qc).
Proof.
  intro hp. split.
  - intros [r h]. apply (convert_exact a s pt pb r hp) in h. tauto.
  - intro h. eexists. apply (convert_exact a s pt pb _ hp). repeat split; try apply h.
Qed.
Lemma convert_right (a : multi_obj R) s pt pb r w : parse_units s = Ok (pt, pb) -> multi_convert_to tables0 a s = Ok r ->
  (qty w (VMulti r) = qty w (VMulti a) <->
   mv a = 0 \/ seen_size (mtop a) (mbot a) / msize w (mtop a) (mbot a) = seen_size pt pb / msize w pt pb).
Proof.
  intros hp h. apply (convert_exact a s pt pb r hp) in h. destruct h as (_ & _ & _ & _ & _ & z2 & z3 & _ & ->).
  pose proof (msize_pos w (mtop a) (mbot a)) as p1. pose proof (msize_pos w pt pb) as p2.
  assert (z : seen_size pt pb <> 0) by (apply Rmult_integral_contrapositive; split; [assumption|apply Rinv_neq_0_compat; assumption]).
  cbn [qty mv mtop mbot]. set (sa := seen_size (mtop a) (mbot a)). set (sp := seen_size pt pb) in *. set (ma := msize w (mtop a) (mbot a)) in *. set (mp := msize w pt pb) in *.
  split.
  - intro e. injection e as e. destruct (Req_dec (mv a) 0) as [v|v]; [left; exact v|right].
    assert (e' : mv a * (sa * mp) = mv a * (ma * sp)).
    { replace (mv a * (sa * mp)) with (mv a * (sa / sp) * mp * sp) by (field; exact z). rewrite e. ring. }
    apply Rmult_eq_reg_l in e'; [|exact v]. apply (Rmult_eq_reg_r (ma * mp)); [|apply Rmult_integral_contrapositive; split; lra].
    field_simplify; [lra|lra|lra].
  - intros [e|e]; f_equal; [rewrite e; ring|].
    replace sa with (sp / mp * ma) by (rewrite <- e; field; lra). field. split; [lra|exact z].
Qed.

(** Cases: the exponent of a degree is read as a factor, a watt behind a watt is not read at all, a newton is a dimension of its own. *)
Lemma known_understood l : forallb (fun x => negb (String.eqb (bname x) "")) l = true -> forallb known1 (marked (rooted l)) = true -> understood l.
Proof.
  intros h1 h2. apply understood_b. split; [|exact h2]. intros x hx e. rewrite forallb_forall in h1. specialize (h1 x hx). rewrite e in h1. discriminate.
Qed.
Lemma one_pow (e : R) : Rpower (Q2R 1) e = 1.
Proof. rewrite Q2R1. apply Rpower1l. Qed.
Lemma seen_degrees : understood [BU "A" (eint 1); BU "K" (eint (-1))] /\ seen [BU "A" (eint 1); BU "K" (eint (-1))] = -1 /\
  seen_dim [BU "A" (eint 1); BU "K" (eint (-1))] Temperature = qc (-1) /\
  seen [BU "J" (eint 1); BU "C" (eint 2)] = 2 /\ seen_dim [BU "J" (eint 1); BU "C" (eint 2)] Current = qc 2 /\
  ~ understood [BU "W" (eint 1); BU "W" (eint 1)] /\
  understood [BU "N" (eint 1)] /\ seen_dim [BU "N" (eint 1)] Force = qc 1 /\ seen_dim [BU "Pa" (eint 1)] Force = qc 0.
Proof.
  split; [apply known_understood; reflexivity|].
  assert (ps : forall x l, In (bname x) ["A"; "K"; "J"; "C"] -> usize pscale (x :: l) = usize pscale l).
  { intros x l h. cbn [usize]. assert (e : pscale (bname x) = 1) by (cbn in h; repeat (destruct h as [<-|h]; [reflexivity|]); destruct h). rewrite e, Rpower1l. ring. }
  split; [|split; [|split; [|split; [|split; [|split; [|split]]]]]].
  - unfold seen. rewrite !ps by (cbn; tauto). cbn [usize].
    change (marked (rooted _)) with [(false, BU "A" (eint 1)); (false, BU "K" (eint (-1)))]. cbn [map fold_right]. unfold number_of. cbn [fst snd].
    unfold stands. cbn. rewrite one_pow, Q2R1. unfold eint. cbn [ev]. rewrite QcR_qc. ring.
  - apply Qc_is_canon. reflexivity.
  - unfold seen. rewrite !ps by (cbn; tauto). cbn [usize].
    change (marked (rooted _)) with [(false, BU "J" (eint 1)); (true, BU "C" (eint 2))]. cbn [map fold_right]. unfold number_of. cbn [fst snd].
    unfold stands. cbn. rewrite one_pow, Q2R1. unfold eint. cbn [ev]. rewrite QcR_qc. ring.
  - apply Qc_is_canon. reflexivity.
  - intros [_ h]. apply (h true (BU "W" (eint 1))); [right; left; reflexivity|reflexivity].
  - apply known_understood; reflexivity.
  - apply Qc_is_canon. reflexivity.
  - apply Qc_is_canon. reflexivity.
Qed.
