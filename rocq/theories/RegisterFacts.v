(** * RegisterFacts: registering units, and the registry against the tables *)
From Coq Require Import String Ascii List ZArith QArith Qcanon Bool Reals Qreals Lia Lra.
From Verif Require Import Py Num UnitsData UnitsStruct Units NumFacts Spec SpecFacts StructFacts ExpandFacts PrefixFacts FactorFacts
  LawFacts WitnessFacts TextFacts UnitConvSpec UnitConvFacts UnitConvMore.
Import ListNotations.
Local Open Scope string_scope.
Local Open Scope list_scope.
Local Open Scope R_scope.

(** ** Dictionaries *)
Lemma dict_snoc {V} (d : list (string * V)) k v k' :
  dict_get (d ++ [(k, v)]) k' = if String.eqb k k' then Some v else dict_get d k'.
Proof.
  induction d as [|[k0 v0] d IH]; cbn.
  - destruct (String.eqb k k'); reflexivity.
  - rewrite IH. destruct (String.eqb k k'); reflexivity.
Qed.
Lemma tab_set (f : ucls -> option (table R)) c k g d n : 
  tab_get (set_table f c k g d) n =
    if ucls_eqb d c && String.eqb k n then match f d with None => Raise EAttributeError | Some _ => Ok g end else tab_get (f d) n.
Proof.
  unfold set_table, tab_get. destruct (ucls_eqb d c); [|reflexivity]. destruct (f d) as [t|]; [|destruct (String.eqb k n); reflexivity].
  rewrite dict_snoc. destruct (String.eqb k n); reflexivity.
Qed.
Lemma ucls_eqb_refl c : ucls_eqb c c = true. Proof. destruct c; reflexivity. Qed.

(** ** What one registration does to the tables *)
Lemma register_ok (tb tb' : tables R) new ex f g : register_unit tb new ex f g = Ok tb' ->
  exists c, dict_get UNIT_REGISTRY ex = Some c /\
    (forall d n, n <> new -> tab_get (to_standard tb' d) n = tab_get (to_standard tb d) n /\
                             tab_get (from_standard tb' d) n = tab_get (from_standard tb d) n) /\
    ((standard c = Some ex /\ tab_get (to_standard tb' c) new = Ok f /\ tab_get (from_standard tb' c) new = Ok g) \/
     (standard c <> Some ex /\ exists et ef, tab_get (to_standard tb c) ex = Ok et /\ tab_get (from_standard tb c) ex = Ok ef /\
        tab_get (to_standard tb' c) new = Ok (compose et f) /\ tab_get (from_standard tb' c) new = Ok (compose ef g))).
Proof.
  unfold register_unit, get_unit_class. intro h. destruct (dict_get UNIT_REGISTRY ex) as [c|] eqn:hc; cbn [bind] in h; [|discriminate].
  exists c. split; [reflexivity|].
  match type of h with bind ?x _ = _ => destruct x as [fs|] eqn:hf; cbn [bind] in h; [|discriminate] end.
  destruct (to_standard tb c) as [tt1|] eqn:e1; [|discriminate]. destruct (from_standard tb c) as [ft1|] eqn:e2; [|discriminate].
  injection h as <-. cbn [to_standard from_standard]. split.
  - intros d n hn. rewrite !tab_set. rewrite (proj2 (String.eqb_neq new n) (fun e => hn (eq_sym e))), andb_false_r. auto.
  - rewrite !tab_set, ucls_eqb_refl, String.eqb_refl, e1, e2. cbn [andb].
    destruct (match standard c with Some s => negb (String.eqb ex s) | None => true end) eqn:es.
    + right. split.
      { intro hs. rewrite hs, String.eqb_refl in es. discriminate. }
      unfold tab_get in hf |- *. destruct (dict_get tt1 ex) as [et|]; cbn [bind] in hf; [|discriminate].
      destruct (dict_get ft1 ex) as [ef|]; cbn [bind] in hf; [|discriminate]. injection hf as <-.
      exists et, ef. cbn [fst snd]. auto.
    + left. destruct (standard c) as [s|]; [|discriminate]. apply negb_false_iff, String.eqb_eq in es. subst s.
      injection hf as <-. auto.
Qed.

(** ** Sequences of registrations *)
Record registration := Reg { r_new : string; r_existing : string; r_to : conv R; r_from : conv R }.
Fixpoint registers (tb : tables R) (l : list registration) : res (tables R) :=
  match l with
  | nil => Ok tb
  | r :: l' => let* tb' := register_unit tb (r_new r) (r_existing r) (r_to r) (r_from r) in registers tb' l'
  end.
Definition same_entries (tb tb' : tables R) (n : string) : Prop :=
  forall d, tab_get (to_standard tb' d) n = tab_get (to_standard tb d) n /\ tab_get (from_standard tb' d) n = tab_get (from_standard tb d) n.
Lemma registers_other tb l tb' n : registers tb l = Ok tb' -> ~ In n (map r_new l) -> same_entries tb tb' n.
Proof.
  revert tb. induction l as [|r l IH]; intros tb h hn; cbn in h.
  - injection h as <-. split; reflexivity.
  - destruct (register_unit tb _ _ _ _) as [tb1|] eqn:e; cbn [bind] in h; [|discriminate].
    destruct (register_ok _ _ _ _ _ _ e) as [c [_ [ho _]]].
    assert (hd : n <> r_new r) by (intros ->; apply hn; left; reflexivity).
    assert (hr : ~ In n (map r_new l)) by (intro hi; apply hn; right; exact hi).
    intro d. destruct (IH tb1 h hr d) as [a1 a2]. destruct (ho d n hd) as [b1 b2]. rewrite a1, a2. auto.
Qed.

Lemma core_other tb tb' u target ret ex : same_entries tb tb' (un u) -> same_entries tb tb' target ->
  unit_convert_core tb' u target ret ex = unit_convert_core tb u target ret ex.
Proof.
  intros h1 h2. unfold unit_convert_core. destruct (String.eqb (un u) target); [reflexivity|].
  destruct (standard (uc u)) as [std|]; [|reflexivity]. unfold to_val, from_val.
  rewrite (proj1 (h1 (uc u))), (proj2 (h2 (uc u))). reflexivity.
Qed.
Lemma convert_other tb l tb' (u : unit_obj R) target : registers tb l = Ok tb' ->
  (forall n, In n (un u :: target :: split_on "^" target) -> ~ In n (map r_new l)) ->
  unit_convert_to tb' u target = unit_convert_to tb u target.
Proof.
  intros h hn.
  assert (hu : same_entries tb tb' (un u)) by (apply (registers_other _ l); [exact h|apply hn; left; reflexivity]).
  assert (ht : same_entries tb tb' target) by (apply (registers_other _ l); [exact h|apply hn; right; left; reflexivity]).
  unfold unit_convert_to. destruct (mem_str (un u) UNIT_COMPOSITES).
  - destruct (split_on "^" target) as [|r [|e [|x y]]] eqn:es; try reflexivity. destruct (py_float e) as [q|]; [|reflexivity].
    cbn [bind]. apply core_other; assumption.
  - destruct (has_char "^" target).
    + destruct (split_on "^" target) as [|r [|e [|x y]]] eqn:es; try reflexivity. destruct (py_float e) as [q|]; [|reflexivity].
      cbn [bind]. apply core_other; [assumption|]. apply (registers_other _ l); [exact h|]. apply hn. right. right. left. reflexivity.
    + apply core_other; assumption.
Qed.

(** ** The new unit

    Classes whose constructor accepts every unit name. *)
Definition open_class (c : ucls) : Prop := In c [Temperature; Length; Time; Energy; Mass].
Definition pure (F : R -> R) : conv R := fun x => Ok (F x).

Lemma registers_app tb l1 l2 tb' : registers tb (l1 ++ l2) = Ok tb' -> exists t, registers tb l1 = Ok t /\ registers t l2 = Ok tb'.
Proof.
  revert tb. induction l1 as [|r l1 IH]; intros tb h; cbn in h |- *; [eexists; split; [reflexivity|exact h]|].
  destruct (register_unit tb _ _ _ _) as [t1|]; cbn [bind] in h |- *; [|discriminate]. apply IH. exact h.
Qed.

(** Converting with the entry of the unit or the target. *)
Lemma to_std tb c n s (v w : R) e f : standard c = Some s -> has_char "^" s = false -> open_class c -> n <> s ->
  mem_str n UNIT_COMPOSITES = false -> tab_get (to_standard tb c) n = Ok f -> f v = Ok w ->
  exists r, unit_convert_to tb (UO c v n e) s = Ok r /\ simple r c w s.
Proof.
  intros hs hc ho hn hm hf hv. unfold unit_convert_to. cbn [un]. rewrite hm, hc. unfold unit_convert_core. cbn [un uc uv].
  rewrite (proj2 (String.eqb_neq n s) hn), hs, String.eqb_refl. unfold to_val. rewrite hf. cbn [bind]. rewrite hv. cbn [bind npow Rnum].
  rewrite ev_e1, Rpowq_1. cbn [bind]. exists (UO c w s (eint 1)). split; [|repeat split].
  cbn in ho. destruct ho as [<-|[<-|[<-|[<-|[<-|[]]]]]]; reflexivity.
Qed.
Lemma from_std tb c n s (v w : R) e f : standard c = Some s -> mem_str s UNIT_COMPOSITES = false -> open_class c -> n <> s ->
  has_char "^" n = false -> tab_get (from_standard tb c) n = Ok f -> f v = Ok w ->
  exists r, unit_convert_to tb (UO c v s e) n = Ok r /\ simple r c w n.
Proof.
  intros hs hc ho hn hm hf hv. unfold unit_convert_to. cbn [un]. rewrite hm, hc. unfold unit_convert_core. cbn [un uc uv].
  rewrite (proj2 (String.eqb_neq s n) (fun e => hn (eq_sym e))), hs.
  rewrite (proj2 (String.eqb_neq n s) hn), String.eqb_refl. unfold from_val. rewrite hf. cbn [bind]. rewrite hv. cbn [bind npow Rnum].
  rewrite ev_e1, Rpowq_1. cbn [bind]. exists (UO c w n (eint 1)). split; [|repeat split].
  cbn in ho. destruct ho as [<-|[<-|[<-|[<-|[<-|[]]]]]]; reflexivity.
Qed.
Lemma via_std tb c n m s (v w x : R) e f g : standard c = Some s -> open_class c -> n <> s -> m <> s -> n <> m ->
  mem_str n UNIT_COMPOSITES = false -> has_char "^" m = false ->
  tab_get (to_standard tb c) n = Ok f -> f v = Ok w -> tab_get (from_standard tb c) m = Ok g -> g w = Ok x ->
  exists r, unit_convert_to tb (UO c v n e) m = Ok r /\ simple r c x m.
Proof.
  intros hs ho hn hm hnm hc hp hf hv hg hw. unfold unit_convert_to. cbn [un]. rewrite hc, hp. unfold unit_convert_core. cbn [un uc uv].
  rewrite (proj2 (String.eqb_neq n m) hnm), hs, (proj2 (String.eqb_neq m s) hm), (proj2 (String.eqb_neq n s) hn).
  unfold to_val, from_val. rewrite hf. cbn [bind]. rewrite hv. cbn [bind npow Rnum]. rewrite ev_e1, Rpowq_1, hg. cbn [bind]. rewrite hw. cbn [bind].
  rewrite Rpowq_1. cbn [bind]. exists (UO c x m (eint 1)). split; [|repeat split].
  cbn in ho. destruct ho as [<-|[<-|[<-|[<-|[<-|[]]]]]]; reflexivity.
Qed.
Lemma open_std c s : open_class c -> standard c = Some s -> has_char "^" s = false /\ mem_str s UNIT_COMPOSITES = false.
Proof. cbn. intros [<-|[<-|[<-|[<-|[<-|[]]]]]] h; injection h as <-; split; reflexivity. Qed.

(** The unit registered from the standard unit of its class. *)
Lemma new_from_standard l1 l2 tb c new s F G (v : R) u :
  registers tables0 (l1 ++ Reg new s (pure F) (pure G) :: l2) = Ok tb -> ~ In new (map r_new l2) ->
  open_class c -> standard c = Some s -> new <> s -> has_char "^" new = false -> mem_str new UNIT_COMPOSITES = false ->
  (forall x, G (F x) = x) -> simple u c v new ->
  exists r r', unit_convert_to tb u s = Ok r /\ simple r c (F v) s /\ unit_convert_to tb r new = Ok r' /\ simple r' c v new.
Proof.
  intros h hn ho hs hne hc hm hi hu. destruct (registers_app _ _ _ _ h) as [t1 [h1 h2]]. cbn [registers r_new r_existing r_to r_from] in h2.
  destruct (register_unit t1 new s (pure F) (pure G)) as [t2|] eqn:e; cbn [bind] in h2; [|discriminate].
  destruct (register_ok _ _ _ _ _ _ e) as [c' [hr [_ hk]]].
  assert (c' = c) by (cbn in ho; destruct ho as [<-|[<-|[<-|[<-|[<-|[]]]]]]; cbn in hs; injection hs as <-; vm_compute in hr; congruence). subst c'.
  destruct hk as [[_ [k1 k2]]|[k0 _]]; [|congruence].
  destruct (registers_other _ _ _ new h2 hn c) as [k3 k4]. rewrite k1 in k3. rewrite k2 in k4.
  destruct (open_std c s ho hs) as [o1 o2]. destruct (simple_obj _ _ _ _ hu) as [ex [-> he]].
  destruct (to_std tb c new s v (F v) ex (pure F) hs o1 ho hne hm k3 eq_refl) as [r [g1 g2]].
  destruct (simple_obj _ _ _ _ g2) as [e1 [-> he1]].
  destruct (from_std tb c new s (F v) v e1 (pure G) hs o2 ho hne hc k4) as [r' [g3 g4]]; [unfold pure; rewrite hi; reflexivity|].
  eexists _, r'. split; [exact g1|]. split; [exact g2|]. split; [exact g3|exact g4].
Qed.
(** From another unit of a linear class, when the given functions are linear. *)
Lemma new_from_existing l1 l2 tb c new ex s (k v : R) u :
  registers tables0 (l1 ++ Reg new ex (pure (fun x => x * k)) (pure (fun x => x / k)) :: l2) = Ok tb ->
  ~ In new (map r_new l2) -> ~ In ex (map r_new (l1 ++ l2)) ->
  open_class c -> In ex (round_names c) -> standard c = Some s -> ex <> s -> new <> s -> new <> ex ->
  has_char "^" new = false -> mem_str new UNIT_COMPOSITES = false -> k <> 0 -> simple u c v new ->
  (exists r r', unit_convert_to tb u s = Ok r /\ unit_convert_to tb r new = Ok r' /\ simple r' c v new) /\
  (exists r, unit_convert_to tb u ex = Ok r /\ simple r c (v * k) ex).
Proof.
  intros h hn hx ho hin hs hes hne hnx hc hm hk hu. destruct (registers_app _ _ _ _ h) as [t1 [h1 h2]]. cbn [registers r_new r_existing r_to r_from] in h2.
  match type of h2 with bind ?x _ = _ => destruct x as [t2|] eqn:e; cbn [bind] in h2; [|discriminate] end.
  destruct (register_ok _ _ _ _ _ _ e) as [c' [hr [hoth hkk]]].
  destruct (all_pairs_ok (fun c n t => Qeq_bool (K c n t * K c t n) 1 && match dict_get UNIT_REGISTRY n with Some d => ucls_eqb d c | None => false end)
     round_names c ex ex) as [l3 [_ l4]]; [vm_compute; reflexivity|names_classes|exact hin|exact hin|].
  apply andb_true_iff in l4. destruct l4 as [_ l4]. rewrite hr in l4.
  assert (c' = c) by (destruct c', c; (reflexivity || discriminate)). subst c'.
  destruct (in_lin_some _ _ l3) as [[a b] k1]. destruct (lin_entry c ex a b k1) as [o3 [_ [_ o4]]]. rewrite hs in o4.
  rewrite (proj2 (String.eqb_neq ex s) hes) in o4. destruct o4 as [[et [p1 p2]] [ef [p3 p4]]].
  assert (hab : Q2R a * Q2R b = 1).
  { assert (hin' : In s (round_names c)) by (clear -ho hs hin; cbn in ho; destruct ho as [<-|[<-|[<-|[<-|[<-|[]]]]]]; cbn in hs; injection hs as <-; cbn; try tauto; exact (False_ind _ hin)).
    destruct (all_pairs_ok (fun c n t => Qeq_bool (K c n t * K c t n) 1) round_names c ex s) as [_ [m1 m2]]; [vm_compute; reflexivity|names_classes|exact hin|exact hin'|].
    destruct (in_lin_some _ _ m1) as [[a' b'] k2]. destruct (lin_entry c s a' b' k2) as [_ [_ [_ z]]]. rewrite hs, String.eqb_refl in z. destruct z as [-> ->].
    unfold K in m2. rewrite k1, k2, (proj2 (String.eqb_neq ex s) hes), (proj2 (String.eqb_neq s ex) (fun q => hes (eq_sym q))) in m2.
    apply Qeq_bool_iff, Qeq_eqR in m2. rewrite !Q2R_mult in m2. replace (Q2R 1) with 1 in m2 by (q2r; lra). lra. }
  destruct hkk as [[k0 _]|[_ [et' [ef' [q1 [q2 [q3 q4]]]]]]]; [congruence|].
  assert (hx1 : ~ In ex (map r_new l1)) by (intro hi; apply hx; rewrite map_app; apply in_or_app; auto).
  assert (hx2 : ~ In ex (map r_new l2)) by (intro hi; apply hx; rewrite map_app; apply in_or_app; auto).
  destruct (registers_other _ _ _ ex h1 hx1 c) as [w1 w2]. cbn [to_standard from_standard tables0] in w1, w2.
  rewrite q1, p1 in w1. rewrite q2, p3 in w2. injection w1 as ->. injection w2 as ->.
  destruct (registers_other _ _ _ new h2 hn c) as [k3 k4]. rewrite q3 in k3. rewrite q4 in k4.
  destruct (registers_other _ _ _ ex h2 hx2 c) as [_ k5]. rewrite (proj2 (hoth c ex (fun q => hnx (eq_sym q)))), q2 in k5.
  destruct (open_std c s ho hs) as [o1 o2]. destruct (simple_obj _ _ _ _ hu) as [e0 [-> he]].
  assert (y1 : compose et (pure (fun x => x * k)) v = Ok (v * k * Q2R a)) by (unfold compose, pure; cbn [bind]; apply p2).
  split.
  - destruct (to_std tb c new s v _ e0 _ hs o1 ho hne hm k3 y1) as [r [g1 g2]].
    destruct (simple_obj _ _ _ _ g2) as [e1 [-> he1]].
    destruct (from_std tb c new s (v * k * Q2R a) v e1 _ hs o2 ho hne hc k4) as [r' [g3 g4]].
    { unfold compose, pure. cbn [bind]. rewrite p4. f_equal. field_simplify; [|exact hk]. rewrite Rmult_assoc, hab. ring. }
    eexists _, r'. split; [exact g1|]. split; [exact g3|exact g4].
  - destruct (via_std tb c new ex s v _ (v * k) e0 _ ef hs ho hne hes hnx hm o3 k3 y1 k5) as [r [g1 g2]].
    { rewrite p4. f_equal. rewrite (Rmult_assoc (v * k)), hab. ring. }
    exists r. split; [exact g1|exact g2].
Qed.

(** ** What registration gets wrong *)
(** An affine scale registered from a unit that is not the standard one: the
    two from-functions are applied in the wrong order. *)
Definition offset : list registration := [Reg "kJx" "kJ" (pure (fun x => x + 1)) (pure (fun x => x - 1))].
Lemma offset_refuted : exists (tb : tables R) (r r' : unit_obj R), registers tables0 offset = Ok tb /\
  unit_convert_to tb (UO Energy 1 "kJx" (eint 1)) "J" = Ok r /\ unit_convert_to tb r "kJx" = Ok r' /\ uv r' <> 1.
Proof.
  destruct (registers tables0 offset) as [tb|] eqn:e; [|cbv in e; discriminate].
  pose proof e as e0. cbn [registers offset r_new r_existing r_to r_from] in e0.
  match type of e0 with bind ?x _ = _ => destruct x as [t2|] eqn:e1; cbn [bind] in e0; [|discriminate] end. injection e0 as ->.
  destruct (register_ok _ _ _ _ _ _ e1) as [c [hr [_ hk]]].
  assert (c = Energy) by (vm_compute in hr; congruence). subst c.
  destruct hk as [[k0 _]|[_ [et [ef [k1 [k2 [k3 k4]]]]]]]; [discriminate|].
  change (tab_get (to_standard tables0 Energy) "kJ") with (Ok (times (T := R) (1000 # 1))) in k1.
  change (tab_get (from_standard tables0 Energy) "kJ") with (Ok (over (T := R) (1000 # 1))) in k2.
  injection k1 as <-. injection k2 as <-.
  destruct (to_std tb Energy "kJx" "J" 1 2000 (eint 1) _ eq_refl eq_refl ltac:(cbn; tauto) ltac:(discriminate) eq_refl k3) as [r [g1 g2]].
  { unfold compose, pure. cbn [bind]. cbv [times nmul nq Rnum]. f_equal. q2r. field. }
  destruct (simple_obj _ _ _ _ g2) as [e2 [-> he2]].
  destruct (from_std tb Energy "kJx" "J" 2000 (1999 / 1000) e2 _ eq_refl eq_refl ltac:(cbn; tauto) ltac:(discriminate) eq_refl k4) as [r' [g3 [_ [g4 _]]]].
  { unfold compose, pure. cbn [bind]. cbv [over ndiv nq Rnum]. f_equal. q2r. field. }
  exists tb, (UO Energy 2000 "J" e2), r'. split; [reflexivity|]. split; [exact g1|]. split; [exact g3|]. rewrite g4. lra.
Qed.
(** A registered pressure can not be constructed, nor converted to. *)
Lemma pressure_refuted : exists (tb : tables R), registers tables0 [Reg "torr" "mmHg" (pure (fun x => x)) (pure (fun x => x))] = Ok tb /\
  forall (v : R) e, mk_unit Pressure v "torr" e = Raise ETypeError /\ unit_convert_to tb (UO Pressure v "Pa" e) "torr" = Raise ETypeError.
Proof.
  destruct (registers tables0 [Reg "torr" "mmHg" (pure (fun x => x)) (pure (fun x => x))]) as [tb|] eqn:e; [|cbv in e; discriminate].
  exists tb. split; [reflexivity|]. intros v ex. split; [reflexivity|]. cbn [registers r_new r_existing r_to r_from] in e.
  match type of e with bind ?x _ = _ => destruct x as [t2|] eqn:e1; cbn [bind] in e; [|discriminate] end. injection e as ->.
  destruct (register_ok _ _ _ _ _ _ e1) as [c [hr [_ hk]]].
  assert (c = Pressure) by (vm_compute in hr; congruence). subst c.
  destruct hk as [[k0 _]|[_ [et [ef [_ [k2 [_ k4]]]]]]]; [discriminate|].
  change (tab_get (from_standard tables0 Pressure) "mmHg") with (Ok (over (T := R) (133322 # 1000))) in k2. injection k2 as <-.
  unfold unit_convert_to. cbn [un]. change (mem_str "Pa" UNIT_COMPOSITES) with false. change (has_char "^" "torr") with false. cbn iota.
  unfold unit_convert_core. cbn [un uc uv standard]. change (String.eqb "Pa" "torr") with false. change (String.eqb "torr" "Pa") with false.
  change (String.eqb "Pa" "Pa") with true. cbn iota. unfold from_val. rewrite k4. unfold compose, pure, over. cbn [bind npow Rnum].
  rewrite ev_e1, Rpowq_1. reflexivity.
Qed.
(** A unit can not be registered from a registered one: the registry of names
    is not extended. *)
Lemma chain_refuted f g : registers tables0 [Reg "kJx" "kJ" f g; Reg "kJy" "kJx" f g] = Raise EKeyError.
Proof. reflexivity. Qed.

(** ** C52: the registry against the conversion tables *)
Definition converts (n : string) (c : ucls) (v : R) : Prop :=
  exists s u r, standard c = Some s /\ mk_unit c v n (eint 1) = Ok u /\ unit_convert_to tables0 u s = Ok r.

Lemma lin_converts c n s (v : R) : standard c = Some s -> in_lin c n = true -> in_lin c s = true -> converts n c v.
Proof.
  intros hs h1 h2. destruct (in_lin_some _ _ h1) as [[a b] k1]. destruct (in_lin_some _ _ h2) as [q k2].
  destruct (lin_entry c n a b k1) as [_ [_ [hm _]]]. destruct (convert_lin c n s v (eint 1) _ _ k1 k2 eq_refl) as [r [h _]].
  exists s, (UO c v n (eint 1)), r. split; [exact hs|]. split; [apply hm|exact h].
Qed.
Lemma temp_converts t (v : R) : converts (tname t) Temperature v.
Proof.
  destruct (temp_convert t TK v (UO Temperature v (tname t) (eint 1))) as [r [h _]]; [repeat split|].
  exists "K", (UO Temperature v (tname t) (eint 1)), r. split; [reflexivity|]. split; [destruct t; reflexivity|exact h].
Qed.
Lemma litre_converts (v : R) : converts "L" Volume v.
Proof.
  exists "m^3", (UO Volume v "L" (eint 1)). eexists. split; [reflexivity|]. split; [reflexivity|].
  unfold unit_convert_to. cbn [un]. change (mem_str "L" UNIT_COMPOSITES) with true. cbn iota.
  change (split_on "^" "m^3") with ["m"; "3"]. cbn iota. rewrite py_float_3. cbn [bind].
  unfold unit_convert_core. cbn [un uc uv standard]. change (String.eqb "L" "m^3") with false. change (String.eqb "m^3" "m^3") with true. cbn iota.
  unfold to_val. change (tab_get (to_standard tables0 Volume) "L") with (Ok (over (T := R) (10 # 1))). cbn [bind].
  cbv [over ndiv nq Rnum npow]. cbn [bind ev eflt]. rewrite Rpowq_int by (right; lia). cbn [bind]. reflexivity.
Qed.
Lemma acre_converts (v : R) : converts "acre" Area v.
Proof.
  exists "m^2", (UO Area v "acre" (eint 1)). eexists. split; [reflexivity|]. split; [reflexivity|].
  unfold unit_convert_to. cbn [un]. change (mem_str "acre" UNIT_COMPOSITES) with true. cbn iota.
  change (split_on "^" "m^2") with ["m"; "2"]. cbn iota. rewrite py_float_2. cbn [bind].
  unfold unit_convert_core. cbn [un uc uv standard]. change (String.eqb "acre" "m^2") with false. change (String.eqb "m^2" "m^2") with true. cbn iota.
  unfold to_val.
  change (tab_get (to_standard tables0 Area) "acre") with
    (Ok (fun x : R => let* r := Rpowq (Q2R (4046873 # 1000)) (Q2Qc (1 # 2)) in Ok (x * r))).
  cbn [bind]. rewrite Rpowq_pos by (q2r; lra). cbn [bind npow Rnum]. cbv [npow Rnum]. cbn [ev eflt]. rewrite Rpowq_int by (right; lia). cbn [bind]. reflexivity.
Qed.
Lemma same_converts c s (v : R) : In (c, s) [(Current, "A"); (Amount, "mol"); (Volume, "m^3"); (Area, "m^2")] -> converts s c v.
Proof.
  cbn. intros [h|[h|[h|[h|[]]]]]; injection h as <- <-; eexists _, _, _; (split; [reflexivity|]); (split; [cbn; try rewrite ?py_float_2, ?py_float_3; reflexivity|]).
  - reflexivity.
  - reflexivity.
  - unfold unit_convert_to. cbn [un]. change (split_on "^" "m^3") with ["m"; "3"]. change (has_char "^" "m^3") with true. cbn.
    rewrite ?py_float_3. reflexivity.
  - unfold unit_convert_to. cbn [un]. change (split_on "^" "m^2") with ["m"; "2"]. change (has_char "^" "m^2") with true. cbn.
    rewrite ?py_float_2. reflexivity.
Qed.
Definition litres : list string := ["uL"; "mL"; "cL"; "dL"; "kL"].
Lemma litres_fail n (v : R) : In n litres -> ~ converts n Volume v.
Proof.
  intros h [s [u [r [hs [hu hr]]]]]. injection hs as <-.
  cbn in h. repeat (destruct h as [<-|h]; [injection hu as <-; unfold unit_convert_to in hr; cbn [un] in hr;
    match type of hr with context [mem_str ?a UNIT_COMPOSITES] => change (mem_str a UNIT_COMPOSITES) with false in hr end;
    change (has_char "^" "m^3") with true in hr; change (split_on "^" "m^3") with ["m"; "3"] in hr; cbn iota in hr; rewrite py_float_3 in hr; cbn [bind] in hr;
    unfold unit_convert_core in hr; cbn [un uc uv standard] in hr;
    repeat match type of hr with context [String.eqb ?p ?q] => let y := eval compute in (String.eqb p q) in change (String.eqb p q) with y in hr end; cbn iota in hr;
    unfold from_val in hr; change (tab_get (from_standard tables0 Volume) "m") with (Raise (A := conv R) EKeyError) in hr; cbn [bind] in hr;
    match type of hr with bind ?x _ = _ => destruct x; cbn [bind] in hr; discriminate end|]).
  destruct h.
Qed.
Definition ok_b (n : string) (c : ucls) : bool :=
  match standard c with
  | None => false
  | Some s => (in_lin c n && in_lin c s) || existsb (fun t => ucls_eqb c Temperature && String.eqb n (tname t)) [TK; TC; TF; TR]
      || existsb (fun p => ucls_eqb c (fst p) && String.eqb n (snd p)) [(Current, "A"); (Amount, "mol"); (Volume, "m^3"); (Area, "m^2"); (Volume, "L"); (Area, "acre")]
  end.
Lemma ucls_eqb_eq c d : ucls_eqb c d = true -> c = d. Proof. destruct c, d; (reflexivity || discriminate). Qed.
Lemma ok_converts n c v : ok_b n c = true -> converts n c v.
Proof.
  unfold ok_b. destruct (standard c) as [s|] eqn:hs; [|discriminate]. rewrite !orb_true_iff, andb_true_iff.
  intros [[[h1 h2]|h]|h].
  - apply (lin_converts c n s); assumption.
  - apply existsb_exists in h. destruct h as [t [_ h]]. apply andb_true_iff in h. destruct h as [h1 h2].
    apply ucls_eqb_eq in h1. apply String.eqb_eq in h2. subst. apply temp_converts.
  - apply existsb_exists in h. destruct h as [[d m] [h h']]. apply andb_true_iff in h'. destruct h' as [h1 h2]. cbn [fst snd] in h1, h2.
    apply ucls_eqb_eq in h1. apply String.eqb_eq in h2. subst. cbn in h.
    repeat (destruct h as [h|h]; [injection h as <- <-; first [apply litre_converts|apply acre_converts|apply same_converts; cbn; tauto]|]). destruct h.
Qed.
(** The others fail whatever the value is. *)
Definition fails (n : string) (c : ucls) : Prop := forall v, ~ converts n c v.
Lemma table_fails n c : In (n, c) [("Mm", Length); ("cg", Mass); ("cPa", Pressure); ("cN", Force); ("ML", Volume);
   ("um^3", Volume); ("mm^3", Volume); ("cm^3", Volume); ("dm^3", Volume); ("km^3", Volume); ("Mm^3", Volume); ("ft^3", Volume); ("in^3", Volume);
   ("um^2", Area); ("mm^2", Area); ("cm^2", Area); ("dm^2", Area); ("km^2", Area); ("Mm^2", Area); ("ft^2", Area); ("in^2", Area)] -> fails n c.
Proof.
  intros h v [s [u [r [hs [hu hr]]]]]. cbn in h.
  repeat (destruct h as [h|h]; [injection h as <- <-; injection hs as <-;
    cbn in hu; try rewrite ?py_float_2, ?py_float_3 in hu; cbn [bind] in hu; injection hu as <-;
    unfold unit_convert_to in hr; cbn [un] in hr;
    match type of hr with context [mem_str ?a UNIT_COMPOSITES] => let y := eval compute in (mem_str a UNIT_COMPOSITES) in change (mem_str a UNIT_COMPOSITES) with y in hr end;
    match type of hr with context [has_char ?a ?b] => let y := eval compute in (has_char a b) in change (has_char a b) with y in hr end;
    match type of hr with context [split_on ?a ?b] => let y := eval compute in (split_on a b) in change (split_on a b) with y in hr end;
    cbn iota in hr; try rewrite ?py_float_2, ?py_float_3 in hr; cbn [bind] in hr;
    unfold unit_convert_core in hr; cbn [un uc uv standard] in hr;
    repeat match type of hr with context [String.eqb ?p ?q] => let y := eval compute in (String.eqb p q) in change (String.eqb p q) with y in hr end; cbn iota in hr;
    unfold to_val in hr;
    match type of hr with context [tab_get (to_standard tables0 ?c) ?n] => change (tab_get (to_standard tables0 c) n) with (Raise (A := conv R) EKeyError) in hr end;
    cbn [bind] in hr; discriminate|]).
  destruct h.
Qed.
Lemma registry_split : forallb (fun p => Bool.eqb (ok_b (fst p) (snd p)) (negb (mem_str (fst p) missing_names))) UNIT_REGISTRY = true.
Proof. vm_compute. reflexivity. Qed.
Lemma registry_exact n c v : dict_get UNIT_REGISTRY n = Some c -> (converts n c v <-> ~ In n missing_names).
Proof.
  intro h. split.
  - intros hc hm. assert (hd : dict_get UNIT_REGISTRY n = Some c) by exact h.
    assert (fails n c \/ In n litres /\ c = Volume) as [hf|[hl ->]].
    { clear hc. cbn in hm.
      repeat (destruct hm as [<-|hm]; [vm_compute in hd; injection hd as <-; first [right; split; [cbn; tauto|reflexivity]|left; apply table_fails; cbn; tauto]|]).
      destruct hm. }
    + exact (hf v hc).
    + exact (litres_fail n v hl hc).
  - intro hm. apply ok_converts. pose proof registry_split as hs. rewrite forallb_forall in hs.
    specialize (hs (n, c) (dict_get_in _ _ _ h)). cbn [fst snd] in hs. apply Bool.eqb_prop in hs. rewrite hs.
    destruct (mem_str n missing_names) eqn:e; [|reflexivity]. apply mem_str_In in e. contradiction.
Qed.
