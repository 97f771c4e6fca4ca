(** * LawFacts: lemmas behind the properties of lists, sums, equality *)
From Coq Require Import String Ascii List ZArith QArith Qcanon Bool Reals Qreals Lia Lra Permutation.
From Verif Require Import Py Num UnitsData UnitsStruct Units NumFacts Spec SpecFacts StructFacts CombineFacts CancelFacts
  ExpandFacts PrefixFacts SimplifyFacts OpFacts NamesFacts ClosureFacts FactorFacts.
Import ListNotations.
Local Open Scope string_scope.
Local Open Scope list_scope.
Local Open Scope R_scope.

(** ** Combining and cancelling *)
Lemma usize_combine w l : usize w (combine_units l) = usize w l.
Proof. rewrite !usize_lin, combine_lin. reflexivity. Qed.
Lemma net_combine n l : net n (combine_units l) = net n l.
Proof. apply QcR_inj. rewrite !net_lin. apply combine_lin. Qed.
Lemma once_combine l : once (combine_units l).
Proof.
  intros i j u v hij hi hj hn. destruct (Nat.lt_ge_cases i j) as [h|h].
  - left. exact (combine_unique l i j u v hi hj h hn).
  - right. apply (combine_unique l j i v u hj hi); [lia|auto].
Qed.

Lemma once_uniq l : once l -> uniq l.
Proof.
  unfold uniq. induction l as [|x l IH]; intro h; cbn [filter]; [constructor|].
  assert (hl : once l).
  { intros i j u v hij hi hj hn. apply (h (S i) (S j) u v); auto. }
  destruct (nz x) eqn:e; [|exact (IH hl)]. cbn [map]. constructor; [|exact (IH hl)].
  intro hin. apply in_map_iff in hin. destruct hin as [y [hy hin]]. apply filter_In in hin. destruct hin as [hin hz].
  apply In_nth_error in hin. destruct hin as [k hk].
  apply nz_true in e. apply nz_true in hz.
  destruct (h O (S k) x y ltac:(lia) eq_refl hk (eq_sym hy)) as [h0|h0]; rewrite h0, QcR_qc in *; lra.
Qed.

Lemma cancel_all top bot t b : cancel_units top bot = (t, b) ->
  (forall n, (net n t - net n b = net n top - net n bot)%Qc) /\
  (forall w, msize w t b = msize w top bot) /\
  (forall u, In u t -> 0 < QcR (ev (bexp u))) /\
  (forall u, In u b -> QcR (ev (bexp u)) <> 0) /\
  (forall u, In u (t ++ b) -> exists v, In v (top ++ bot) /\ bname v = bname u) /\
  (once top -> once bot -> NoDup (map bname (t ++ b))).
Proof.
  intro h. split; [|split; [|split; [|split; [|split]]]].
  - intro n. apply QcR_inj. rewrite !QcR_minus, !net_lin. apply cancel_lin. exact h.
  - intro w. rewrite !msize_lin. f_equal. apply cancel_lin. exact h.
  - exact (cancel_top_pos top bot t b h).
  - exact (cancel_bot_nz top bot t b h).
  - destruct (cancel_names _ _ _ _ h) as [h1 h2]. intros u hu. apply in_app_or in hu. destruct hu as [hu|hu].
    + destruct (h1 u hu) as [v [hv e]]. exists v. split; [apply in_or_app; auto|exact e].
    + exact (h2 u hu).
  - intros h1 h2. apply (cancel_nodup _ _ _ _ h); apply once_uniq; assumption.
Qed.

(** ** Expansion *)
Lemma decon_all top bot : exists t b, deconstruct_units false top bot = Ok (t, b) /\
  (forall w, coherent w -> msize w t b = msize w top bot) /\
  (forall u, In u (t ++ b) -> ~ In (bname u) derived_names).
Proof.
  destruct (deconstruct_ok false top bot) as [t [b [e [l d]]]]. exists t, b. split; [exact e|]. split; [|exact (d eq_refl)].
  intros w hw. apply lin_msize; auto.
Qed.
Lemma decon_once_all top bot : exists t b, deconstruct_units true top bot = Ok (t, b) /\
  (forall w, coherent w -> msize w t b = msize w top bot).
Proof.
  destruct (deconstruct_ok true top bot) as [t [b [e [l d]]]]. exists t, b. split; [exact e|].
  intros w hw. apply lin_msize; auto.
Qed.

(** One pass, in general: [A] is a set of names closed under expansion, [D] a set
    of derived names that no expansion of a name of [A] produces; no name of [D]
    may directly follow a derived unit. *)
Section OnePass.
Variables (A D : string -> Prop).
Definition okname (n : string) : Prop := A n /\ ~ D n.
Hypothesis D_derived : forall n, D n -> In n derived_names.
Hypothesis A_closed : forall n p, A n -> defn n = Some p -> forall x, In x (fst p ++ snd p) -> okname (bname x).

Fixpoint sparse (l : half) : Prop :=
  match l with
  | x :: l' => (In (bname x) derived_names -> match l' with y :: _ => ~ D (bname y) | nil => True end) /\ sparse l'
  | nil => True
  end.
Definition inA (l : half) : Prop := forall x, In x l -> A (bname x).
Definition noD (l : half) : Prop := forall x, In x l -> ~ D (bname x).

Lemma sparse_app l1 l2 : sparse l1 -> noD l2 -> sparse (l1 ++ l2).
Proof.
  intros h1 h2. assert (s2 : sparse l2).
  { clear h1. induction l2 as [|x l2 IH]; [exact I|]. split.
    - intros _. destruct l2 as [|y l2]; [exact I|]. apply h2. right. left. reflexivity.
    - apply IH. intros y hy. apply h2. right. exact hy. }
  induction l1 as [|x l1 IH]; [exact s2|]. destruct h1 as [h1 h1']. split; [|exact (IH h1')].
  intro hd. destruct l1 as [|y l1]; [|exact (h1 hd)]. destruct l2 as [|y l2]; [exact I|]. apply h2. left. reflexivity.
Qed.
Lemma noD_app l1 l2 : noD (l1 ++ l2) <-> noD l1 /\ noD l2.
Proof.
  split.
  - intro h. split; intros x hx; apply h, in_or_app; auto.
  - intros [h1 h2] x hx. apply in_app_or in hx. destruct hx; auto.
Qed.
Lemma inA_app l1 l2 : inA (l1 ++ l2) <-> inA l1 /\ inA l2.
Proof.
  split.
  - intro h. split; intros x hx; apply h, in_or_app; auto.
  - intros [h1 h2] x hx. apply in_app_or in hx. destruct hx; auto.
Qed.
Lemma scaled_ok n p e : A n -> defn n = Some p ->
  inA (scaled e (fst p)) /\ inA (scaled e (snd p)) /\ noD (scaled e (fst p)) /\ noD (scaled e (snd p)).
Proof.
  intros ha hd. pose proof (A_closed n p ha hd) as h.
  assert (k : forall l, (forall x, In x l -> In x (fst p ++ snd p)) -> inA (scaled e l) /\ noD (scaled e l)).
  { intros l hl. split; intros x hx; apply in_map_iff in hx; destruct hx as [y [<- hy]]; cbn; apply h, hl, hy. }
  destruct (k (fst p)) as [k1 k2]; [intros; apply in_or_app; auto|].
  destruct (k (snd p)) as [k3 k4]; [intros; apply in_or_app; auto|]. auto.
Qed.

Lemma expand_loop_sparse fuel pre rest other hit t o h' :
  expand_loop fuel pre rest other hit = Ok (t, o, h') ->
  inA rest -> inA other -> noD pre -> sparse rest -> sparse other ->
  noD t /\ sparse o /\ inA o /\ (noD other -> noD o) .
Proof.
  revert pre rest other hit. induction fuel as [|fuel IH]; intros pre rest other hit h ar ao np sr so;
    destruct rest as [|x rest']; cbn [expand_loop] in h; try discriminate.
  - injection h as <- <- <-. auto.
  - injection h as <- <- <-. auto.
  - destruct (derived_cases (bname x)) as [[hd [d [p [h1 [h2 h3]]]]]|[hd [h1 h3]]]; rewrite h1 in h.
    + rewrite (expand_eq d p (bexp x) h2) in h. cbn [bind fst snd] in h.
      destruct (scaled_ok (bname x) p (bexp x) (ar x (or_introl eq_refl)) h3) as [a1 [a2 [n1 n2]]].
      assert (ar' : inA rest') by (intros y hy; apply ar; right; exact hy).
      assert (ao' : inA (other ++ scaled (bexp x) (snd p))) by (apply inA_app; auto).
      assert (so' : sparse (other ++ scaled (bexp x) (snd p))) by (apply sparse_app; auto).
      assert (sr' : sparse (rest' ++ scaled (bexp x) (fst p))) by (apply sparse_app; [apply sr|exact n1]).
      assert (ar2 : inA (rest' ++ scaled (bexp x) (fst p))) by (apply inA_app; auto).
      destruct (rest' ++ scaled (bexp x) (fst p)) as [|y ys] eqn:hr.
      * injection h as <- <- <-. repeat split; auto. intro hn. apply noD_app. auto.
      * assert (ny : ~ D (bname y)).
        { destruct rest' as [|z rest'].
          - cbn in hr. apply n1. rewrite hr. left. reflexivity.
          - cbn in hr. injection hr as -> _. destruct sr as [sr _]. exact (sr hd). }
        apply IH in h; auto.
        -- destruct h as [g1 [g2 [g3 g4]]]. repeat split; auto. intro hn. apply g4, noD_app. auto.
        -- intros z hz. apply ar2. right. exact hz.
        -- apply noD_app. split; [exact np|]. intros z [<-|[]]. exact ny.
        -- apply sr'.
    + apply IH in h; auto.
      * intros z hz. apply ar. right. exact hz.
      * apply noD_app. split; [exact np|]. intros z [<-|[]] hD. apply hd, D_derived, hD.
      * apply sr.
Qed.
Lemma one_pass_clears top bot t b : deconstruct_units true top bot = Ok (t, b) ->
  inA top -> inA bot -> sparse top -> sparse bot -> noD t /\ noD b.
Proof.
  intros h a1 a2 s1 s2. unfold deconstruct_units in h. cbn [deconstruct_loop] in h. unfold deconstruct_round in h.
  destruct (expand_loop_ok (weights top) nil top bot false (le_n _)) as [t1 [b1 [h1 e1]]]. rewrite e1 in h. cbn [bind] in h.
  destruct (expand_loop_ok (weights b1) nil b1 t1 false (le_n _)) as [b2 [t2 [h2 e2]]]. rewrite e2 in h. cbn [bind negb] in h.
  rewrite andb_false_r in h. injection h as <- <-.
  apply expand_loop_sparse in e1; auto; [|intros x []]. destruct e1 as [n1 [sb [ab _]]].
  assert (nil_noD : noD nil) by (intros x []).
  assert (st : sparse t1) by (change t1 with (nil ++ t1); apply sparse_app; [exact I|exact n1]).
  (* names of t1 are in A as well; only noD matters for the other list *)
  revert e2. generalize (weights b1) as fuel. intros fuel e2.
  assert (g : forall fuel pre rest other hit t o h', expand_loop fuel pre rest other hit = Ok (t, o, h') ->
    inA rest -> noD pre -> sparse rest -> noD other -> noD t /\ noD o).
  { clear -D_derived A_closed. induction fuel as [|fuel IH]; intros pre rest other hit t o h' h ar np sr no;
      destruct rest as [|x rest']; cbn [expand_loop] in h; try discriminate.
    - injection h as <- <- <-. auto.
    - injection h as <- <- <-. auto.
    - destruct (derived_cases (bname x)) as [[hd [d [p [h1 [h2 h3]]]]]|[hd [h1 h3]]]; rewrite h1 in h.
      + rewrite (expand_eq d p (bexp x) h2) in h. cbn [bind fst snd] in h.
        destruct (scaled_ok (bname x) p (bexp x) (ar x (or_introl eq_refl)) h3) as [a1 [a2 [n1 n2]]].
        assert (ar' : inA rest') by (intros y hy; apply ar; right; exact hy).
        assert (no' : noD (other ++ scaled (bexp x) (snd p))) by (apply noD_app; auto).
        assert (sr' : sparse (rest' ++ scaled (bexp x) (fst p))) by (apply sparse_app; [apply sr|exact n1]).
        assert (ar2 : inA (rest' ++ scaled (bexp x) (fst p))) by (apply inA_app; auto).
        destruct (rest' ++ scaled (bexp x) (fst p)) as [|y ys] eqn:hr.
        * injection h as <- <- <-. auto.
        * assert (ny : ~ D (bname y)).
          { destruct rest' as [|z rest'].
            - cbn in hr. apply n1. rewrite hr. left. reflexivity.
            - cbn in hr. injection hr as -> _. destruct sr as [sr _]. exact (sr hd). }
          apply IH in h; auto.
          -- intros z hz. apply ar2. right. exact hz.
          -- apply noD_app. split; [exact np|]. intros z [<-|[]]. exact ny.
          -- apply sr'.
      + apply IH in h; auto.
        * intros z hz. apply ar. right. exact hz.
        * apply noD_app. split; [exact np|]. intros z [<-|[]] hD. apply hd, D_derived, hD.
        * apply sr. }
  destruct (g _ _ _ _ _ _ _ _ e2) as [g1 g2]; auto.
Qed.
End OnePass.

Lemma defn_names n p : defn n = Some p -> forall x, In x (fst p ++ snd p) ->
  In (bname x) ["kg"; "m"; "s"; "lbf"; "in"; "g"; "A"] \/ (n = "W" /\ bname x = "J").
Proof.
  unfold defn.
  repeat match goal with
  | |- context [String.eqb n ?s] =>
      let E := fresh "E" in destruct (String.eqb n s) eqn:E;
      [apply String.eqb_eq in E; intro h; injection h as <-; cbn [fst snd app]; intros x hx; cbn in hx;
       repeat (destruct hx as [<-|hx]; [cbn; tauto|]); destruct hx|]
  | _ => discriminate
  end.
Qed.

(** In a half no unit of [D] directly follows a derived unit. *)
Lemma one_pass_J top bot t b : deconstruct_units true top bot = Ok (t, b) ->
  (forall l i x y, In l [top; bot] -> nth_error l i = Some x -> nth_error l (S i) = Some y ->
     In (bname x) derived_names -> In (bname y) derived_names -> bname y = "J") ->
  forall u, In u (t ++ b) -> In (bname u) derived_names -> bname u = "J".
Proof.
  intros h hs.
  set (D := fun n => In n derived_names /\ n <> "J").
  assert (sp : forall l, In l [top; bot] -> sparse D l).
  { intros l hl. specialize (fun i x y => hs l i x y hl). clear -hs. induction l as [|x l IH]; [exact I|]. split.
    - intro hd. destruct l as [|y l]; [exact I|]. intros [h1 h2]. apply h2. exact (hs O x y eq_refl eq_refl hd h1).
    - apply IH. intros i y z. exact (hs (S i) y z). }
  destruct (one_pass_clears (fun _ => True) D) with (top := top) (bot := bot) (t := t) (b := b) as [n1 n2]; auto.
  - intros n [hn _]. exact hn.
  - intros n p _ hd x hx. split; [exact I|]. intros [h1 h2].
    destruct (defn_names n p hd x hx) as [h3|[_ h3]]; [|congruence].
    cbn in h1, h3. intuition congruence.
  - intros x _. exact I.
  - intros x _. exact I.
  - apply sp. left. reflexivity.
  - apply sp. right. left. reflexivity.
  - intros u hu hd. destruct (string_dec (bname u) "J") as [e|e]; [exact e|]. exfalso.
    apply in_app_or in hu. destruct hu as [hu|hu]; [apply (n1 u hu)|apply (n2 u hu)]; split; assumption.
Qed.
Lemma one_pass_noW top bot t b : deconstruct_units true top bot = Ok (t, b) ->
  (forall u, In u (top ++ bot) -> bname u <> "W") ->
  (forall l i x y, In l [top; bot] -> nth_error l i = Some x -> nth_error l (S i) = Some y ->
     In (bname x) derived_names -> ~ In (bname y) derived_names) ->
  forall u, In u (t ++ b) -> ~ In (bname u) derived_names.
Proof.
  intros h hW hs.
  set (D := fun n => In n derived_names).
  assert (sp : forall l, In l [top; bot] -> sparse D l).
  { intros l hl. specialize (fun i x y => hs l i x y hl). clear -hs. induction l as [|x l IH]; [exact I|]. split.
    - intro hd. destruct l as [|y l]; [exact I|]. exact (hs O x y eq_refl eq_refl hd).
    - apply IH. intros i y z. exact (hs (S i) y z). }
  destruct (one_pass_clears (fun n => n <> "W") D) with (top := top) (bot := bot) (t := t) (b := b) as [n1 n2]; auto.
  - intros n p hn hd x hx.
    destruct (defn_names n p hd x hx) as [h3|[h3 _]]; [|congruence]. split.
    + cbn in h3. intuition congruence.
    + unfold D. intro h1. cbn in h1, h3. intuition congruence.
  - intros x hx. apply hW, in_or_app; auto.
  - intros x hx. apply hW, in_or_app; auto.
  - apply sp. left. reflexivity.
  - apply sp. right. left. reflexivity.
  - intros u hu. apply in_app_or in hu. destruct hu as [hu|hu]; [apply (n1 u hu)|apply (n2 u hu)].
Qed.

(** ** Sums *)
Lemma half_eqb_same a b : half_eqb a b = true <-> map (fun x => (bname x, ev (bexp x))) a = map (fun x => (bname x, ev (bexp x))) b.
Proof.
  revert b. induction a as [|x a IH]; intros [|y b]; cbn; try (split; (discriminate || reflexivity)).
  rewrite andb_true_iff, IH. unfold bu_eqb, eeqb. rewrite andb_true_iff, String.eqb_eq, Qceqb_eq. split.
  - intros [[-> ->] ->]. reflexivity.
  - intro h. injection h as h1 h2 h3. auto.
Qed.
Lemma half_eqb_usize w a b : half_eqb a b = true -> usize w a = usize w b.
Proof. intro h. rewrite !usize_lin. f_equal. apply half_eqb_lin. exact h. Qed.

Lemma addsub_u op (a b : unit_obj R) : built a ->
  (uc b = uc a \/ uc a = UUnit) /\ un a = un b /\ ev (ue a) = ev (ue b) /\
    unit_addsub op a (VUnit b) = Ok (VUnit (UO (uc a) (op (uv a) (uv b)) (un a) (ue a)))
  \/ ~ ((uc b = uc a \/ uc a = UUnit) /\ un a = un b /\ ev (ue a) = ev (ue b)) /\
    unit_addsub op a (VUnit b) = Raise ETypeError.
Proof.
  intro hb. cbn [unit_addsub].
  assert (ce : forall c d, ucls_eqb c d = true <-> c = d) by (intros [] []; cbn; split; congruence).
  assert (hs : ucls_sub (uc b) (uc a) = true <-> (uc b = uc a \/ uc a = UUnit)).
  { unfold ucls_sub. rewrite orb_true_iff, !ce. tauto. }
  destruct (ucls_sub (uc b) (uc a)).
  - destruct (String.eqb (un a) (un b) && eeqb (ue a) (ue b)) eqn:e.
    + left. apply andb_true_iff in e. destruct e as [e1 e2]. apply String.eqb_eq in e1. apply Qceqb_eq in e2.
      rewrite rebuild by exact hb. split; [apply hs; reflexivity|]. auto.
    + right. split; [|reflexivity]. intros [_ [h1 h2]]. apply andb_false_iff in e. destruct e as [e|e].
      * apply String.eqb_neq in e. auto.
      * apply Qceqb_neq in e. auto.
  - right. split; [|reflexivity]. intros [h _]. apply hs in h. discriminate.
Qed.

Lemma shape_qty w (a b : multi_obj R) : shape (VMulti a) = shape (VMulti b) -> msize w (mtop a) (mbot a) = msize w (mtop b) (mbot b).
Proof.
  cbn. intro h. injection h as h1 h2. apply half_eqb_same in h1. apply half_eqb_same in h2. unfold msize.
  rewrite (half_eqb_usize w _ _ h1), (half_eqb_usize w _ _ h2). reflexivity.
Qed.

Lemma addsub_sound a b : is_quantity a -> is_quantity b ->
  (py_add a b = Raise ETypeError \/
   exists r, py_add a b = Ok r /\ shape a = shape b /\ shape r = shape a /\
     forall w x y, qty w a = Some x -> qty w b = Some y -> qty w r = Some (x + y)) /\
  (py_sub a b = Raise ETypeError \/
   exists r, py_sub a b = Ok r /\ shape a = shape b /\ shape r = shape a /\
     forall w x y, qty w a = Some x -> qty w b = Some y -> qty w r = Some (x - y)).
Proof.
  intros ha hb. destruct a as [x| | |u|m]; try contradiction; destruct b as [y| | |u'|m']; try contradiction; cbn [py_add py_sub].
  - split.
    + destruct (addsub_u nadd u u' ha) as [[_ [h1 [h2 e]]]|[_ e]]; rewrite e; [right|left; reflexivity].
      eexists. split; [reflexivity|]. cbn [shape un ue]. rewrite h1, h2. split; [reflexivity|]. split; [reflexivity|].
      intros w x y hx hy. cbn [qty uv un ue] in *. injection hx as <-. injection hy as <-. rewrite h1, h2. f_equal. cbn. ring.
    + destruct (addsub_u nsub u u' ha) as [[_ [h1 [h2 e]]]|[_ e]]; rewrite e; [right|left; reflexivity].
      eexists. split; [reflexivity|]. cbn [shape un ue]. rewrite h1, h2. split; [reflexivity|]. split; [reflexivity|].
      intros w x y hx hy. cbn [qty uv un ue] in *. injection hx as <-. injection hy as <-. rewrite h1, h2. f_equal. cbn. ring.
  - split; left; reflexivity.
  - split; left; reflexivity.
  - cbn [multi_add multi_sub]. destruct (half_eqb (mtop m) (mtop m') && half_eqb (mbot m) (mbot m')) eqn:e.
    + apply andb_true_iff in e. destruct e as [e1 e2].
      assert (hs : shape (VMulti m) = shape (VMulti m')).
      { cbn. apply half_eqb_same in e1. apply half_eqb_same in e2. rewrite e1, e2. reflexivity. }
      split.
      * destruct (mcls_eqb (mc m) (mc m')); [right|left; reflexivity]. eexists. split; [reflexivity|]. split; [exact hs|].
        split; [reflexivity|]. intros w x y hx hy. cbn [qty mv mtop mbot] in *. injection hx as <-. injection hy as <-.
        rewrite (shape_qty w m m' hs). f_equal. cbn. ring.
      * right. eexists. split; [reflexivity|]. split; [exact hs|].
        split; [reflexivity|]. intros w x y hx hy. cbn [qty mv mtop mbot] in *. injection hx as <-. injection hy as <-.
        rewrite (shape_qty w m m' hs). f_equal. cbn. ring.
    + split; [|left; reflexivity]. destruct (mcls_eqb _ _); left; reflexivity.
Qed.

(** ** Equality *)
Lemma ucls_eqb_eq c d : ucls_eqb c d = true <-> c = d.
Proof. destruct c, d; cbn; split; congruence. Qed.
Lemma mcls_eqb_eq c d : mcls_eqb c d = true <-> c = d.
Proof.
  destruct c as [|x], d as [|y]; cbn; split; try congruence.
  - intro h. apply String.eqb_eq in h. congruence.
  - intro h. injection h as ->. apply String.eqb_refl.
Qed.
Lemma bu_seteq_refl x : bu_seteq x x = true.
Proof.
  unfold bu_seteq, bu_eqb. rewrite String.eqb_refl. unfold eeqb. rewrite (proj2 (Qceqb_eq _ _) eq_refl).
  rewrite Bool.eqb_reflx, orb_true_r. reflexivity.
Qed.
Lemma set_eqb_refl l : set_eqb l l = true.
Proof.
  unfold set_eqb. rewrite andb_diag. unfold set_sub. apply forallb_forall. intros x hx.
  apply existsb_exists. exists x. split; [exact hx|apply bu_seteq_refl].
Qed.
Lemma set_eqb_sym a b : set_eqb a b = set_eqb b a.
Proof. apply andb_comm. Qed.
Lemma Reqb_sym x y : Reqb x y = Reqb y x.
Proof. unfold Reqb. destruct (Req_EM_T x y), (Req_EM_T y x); congruence. Qed.
Lemma Qceqb_sym x y : Qc_eq_bool x y = Qc_eq_bool y x.
Proof.
  destruct (Qc_eq_bool x y) eqn:e.
  - apply Qceqb_eq in e. subst. symmetry. apply Qceqb_eq. reflexivity.
  - symmetry. apply Qceqb_neq. apply Qceqb_neq in e. congruence.
Qed.

Lemma eq_refl_py (a : pyval R) : py_eq a a = true.
Proof.
  destruct a as [x| | |u|m]; cbn [py_eq]; auto.
  - apply Reqb_true. reflexivity.
  - assert (h : unit_eq u u = true).
    { unfold unit_eq. rewrite (proj2 (ucls_eqb_eq _ _) eq_refl). cbn [orb andb neqb Rnum].
      rewrite (proj2 (Reqb_true _ _) eq_refl), String.eqb_refl. cbn. apply Qceqb_eq. reflexivity. }
    destruct (_ && _); exact h.
  - unfold multi_eq. rewrite (proj2 (mcls_eqb_eq _ _) eq_refl), !set_eqb_refl. cbn [andb neqb Rnum].
    rewrite (proj2 (Reqb_true _ _) eq_refl). reflexivity.
Qed.
Lemma ucls_eqb_sym c d : ucls_eqb c d = ucls_eqb d c.
Proof. destruct c, d; reflexivity. Qed.
Lemma mcls_eqb_sym c d : mcls_eqb c d = mcls_eqb d c.
Proof. destruct c, d; try reflexivity. apply String.eqb_sym. Qed.

(** Units are equal when value, name and exponent agree and the classes agree or
    one of them is Unit. *)
Lemma unit_eq_char (u w : unit_obj R) : py_eq (VUnit u) (VUnit w) = true <->
  (uc u = uc w \/ uc u = UUnit \/ uc w = UUnit) /\ uv u = uv w /\ un u = un w /\ ev (ue u) = ev (ue w).
Proof.
  cbn [py_eq]. destruct (ucls_eqb (uc u) UUnit && negb (ucls_eqb (uc w) UUnit)) eqn:e.
  - apply andb_true_iff in e. destruct e as [e1 e2]. apply ucls_eqb_eq in e1.
    unfold unit_eq. cbn [neqb Rnum]. rewrite !andb_true_iff, orb_true_iff, !ucls_eqb_eq, Reqb_true, String.eqb_eq. unfold eeqb. rewrite Qceqb_eq.
    split.
    + intros [[[h1 h2] h3] h4]. repeat split; auto.
    + intros [h1 [h2 [h3 h4]]]. repeat split; auto.
  - unfold unit_eq. cbn [neqb Rnum]. rewrite !andb_true_iff, orb_true_iff, !ucls_eqb_eq, Reqb_true, String.eqb_eq. unfold eeqb. rewrite Qceqb_eq.
    split.
    + intros [[[h1 h2] h3] h4]. repeat split; auto. destruct h1; auto.
    + intros [h1 [h2 [h3 h4]]]. repeat split; auto. destruct h1 as [h1|[h1|h1]]; auto.
      apply andb_false_iff in e. destruct e as [e|e].
      * apply ucls_eqb_eq in h1. congruence.
      * apply negb_false_iff, ucls_eqb_eq in e. auto.
Qed.
Lemma multi_eq_char (u w : multi_obj R) : py_eq (VMulti u) (VMulti w) = true <->
  mc u = mc w /\ mv u = mv w /\ set_eqb (mtop u) (mtop w) = true /\ set_eqb (mbot u) (mbot w) = true.
Proof.
  cbn [py_eq]. unfold multi_eq. cbn [neqb Rnum]. rewrite !andb_true_iff, mcls_eqb_eq, Reqb_true. tauto.
Qed.

Lemma eq_sym_py (a b : pyval R) : py_eq a b = py_eq b a.
Proof.
  destruct a as [x| | |u|m], b as [y| | |u'|m']; try reflexivity.
  - cbn. apply Reqb_sym.
  - apply eq_true_iff_eq. rewrite !unit_eq_char. intuition congruence.
  - apply eq_true_iff_eq. rewrite !multi_eq_char. rewrite (set_eqb_sym (mtop m)), (set_eqb_sym (mbot m)). intuition congruence.
Qed.

Lemma set_sub_in a b : set_sub a b = true -> forall x, In x a -> exists y, In y b /\ bname x = bname y /\ ev (bexp x) = ev (bexp y).
Proof.
  unfold set_sub. rewrite forallb_forall. intros h x hx. specialize (h x hx). apply existsb_exists in h.
  destruct h as [y [hy h]]. exists y. split; [exact hy|]. unfold bu_seteq, bu_eqb in h. rewrite !andb_true_iff, String.eqb_eq in h.
  destruct h as [[h1 h2] _]. apply Qceqb_eq in h2. auto.
Qed.
Lemma set_lin phi a b : NoDup (map bname a) -> NoDup (map bname b) ->
  (forall x, In x a -> exists y, In y b /\ bname x = bname y /\ ev (bexp x) = ev (bexp y)) ->
  (forall x, In x b -> exists y, In y a /\ bname x = bname y /\ ev (bexp x) = ev (bexp y)) ->
  lin phi a = lin phi b.
Proof.
  revert b. induction a as [|x a IH]; intros b na nb h1 h2.
  - destruct b as [|y b]; [reflexivity|]. destruct (h2 y (or_introl eq_refl)) as [z [[] _]].
  - destruct (h1 x (or_introl eq_refl)) as [y [hy [hn he]]].
    apply in_split in hy. destruct hy as [b1 [b2 ->]].
    rewrite lin_app. cbn [lin]. rewrite <- hn, <- he.
    assert (p : NoDup (map bname (b1 ++ b2)) /\ ~ In (bname y) (map bname (b1 ++ b2))).
    { rewrite map_app in *. cbn [map] in nb. apply NoDup_remove in nb. exact nb. }
    destruct p as [nb' ny]. inversion na as [|? ? nx na']. subst.
    rewrite (IH (b1 ++ b2)); auto.
    + rewrite lin_app. ring.
    + intros z hz. destruct (h1 z (or_intror hz)) as [v [hv [e1 e2]]]. exists v. split; auto.
      apply in_app_or in hv. apply in_or_app. destruct hv as [hv|[hv|hv]]; auto. exfalso. subst v.
      apply nx. rewrite hn, <- e1. apply in_map. exact hz.
    + intros z hz. assert (hz' : In z (b1 ++ y :: b2)).
      { apply in_app_or in hz. apply in_or_app. destruct hz; [left|right; right]; assumption. }
      destruct (h2 z hz') as [v [[hv|hv] [e1 e2]]]; [|exists v; auto]. exfalso. subst v.
      apply ny. rewrite <- hn, <- e1. apply in_map. exact hz.
Qed.
Lemma multi_eq_sound (a b : multi_obj R) :
  NoDup (map bname (mtop a)) -> NoDup (map bname (mbot a)) -> NoDup (map bname (mtop b)) -> NoDup (map bname (mbot b)) ->
  py_eq (VMulti a) (VMulti b) = true -> forall w, qty w (VMulti a) = qty w (VMulti b).
Proof.
  intros n1 n2 n3 n4 h w. apply multi_eq_char in h. destruct h as [_ [hv [ht hb]]].
  unfold set_eqb in ht, hb. apply andb_true_iff in ht. apply andb_true_iff in hb.
  cbn [qty]. rewrite hv. f_equal. f_equal. rewrite !msize_lin.
  rewrite (set_lin _ (mtop a) (mtop b)), (set_lin _ (mbot a) (mbot b)); auto; apply set_sub_in; tauto.
Qed.
Lemma unit_eq_sound (a b : unit_obj R) : py_eq (VUnit a) (VUnit b) = true -> forall w, qty w (VUnit a) = qty w (VUnit b).
Proof. intros h w. apply unit_eq_char in h. destruct h as [_ [h1 [h2 h3]]]. cbn [qty]. rewrite h1, h2, h3. reflexivity. Qed.
Lemma mixed_eq (a : unit_obj R) (b : multi_obj R) : py_eq (VUnit a) (VMulti b) = false.
Proof. reflexivity. Qed.
