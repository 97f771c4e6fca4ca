(** * RoundFacts: two runs of the model in related arithmetics, and a count *)
From Coq Require Import String Ascii List ZArith QArith Qcanon Bool Reals Qreals Lia Lra.
From Verif Require Import Py Num NumFacts UnitsData UnitsStruct Units Expr Rounding RoundSpec.
Import ListNotations.
Local Open Scope string_scope.
Local Open Scope list_scope.

(** Outcomes of three runs: the first two raise alike, or all three answer.  If
    [lax], nothing is said when the third raises. *)
Inductive rr (lax : bool) {X Y Z} (P : X -> Y -> Z -> Prop) : res X -> res Y -> res Z -> Prop :=
| rr_ok x y z : P x y z -> rr lax P (Ok x) (Ok y) (Ok z)
| rr_raise e c : rr lax P (Raise e) (Raise e) c
| rr_lax a b e : lax = true -> rr lax P a b (Raise e).
Lemma rr_bind {lax X Y Z X' Y' Z'} (P : X -> Y -> Z -> Prop) (P' : X' -> Y' -> Z' -> Prop) a b c k l m :
  rr lax P a b c -> (forall x y z, P x y z -> rr lax P' (k x) (l y) (m z)) ->
  rr lax P' (let* x := a in k x) (let* y := b in l y) (let* z := c in m z).
Proof. intros h hk. destruct h as [x y z p|e c|a b e hl]; cbn [bind]; [apply hk, p|apply rr_raise|apply rr_lax, hl]. Qed.
Lemma rr_rmap {lax X Y Z X' Y' Z'} (P : X -> Y -> Z -> Prop) (P' : X' -> Y' -> Z' -> Prop) a b c k l m :
  rr lax P a b c -> (forall x y z, P x y z -> P' (k x) (l y) (m z)) -> rr lax P' (rmap k a) (rmap l b) (rmap m c).
Proof. intros h hk. destruct h as [x y z p|e c|a b e hl]; cbn [rmap bind]; [apply rr_ok, hk, p|apply rr_raise|apply rr_lax, hl]. Qed.
Lemma rr_same {lax X Y Z W} (P : X -> Y -> Z -> Prop) (r : res W) k l m :
  (forall w, rr lax P (k w) (l w) (m w)) -> rr lax P (let* w := r in k w) (let* w := r in l w) (let* w := r in m w).
Proof. intro h. destruct r as [w|e]; cbn [bind]; [apply h|apply rr_raise]. Qed.
Lemma rr_tight {X Y Z} (P : X -> Y -> Z -> Prop) a b c : rr false P a b c ->
  match a, b with
  | Ok x, Ok y => exists z, c = Ok z /\ P x y z
  | Raise e, Raise e' => e = e'
  | _, _ => False
  end.
Proof. intros [x y z p|e c'|a' b' e hl]; [eauto|reflexivity|discriminate]. Qed.

Section Tri.
Context {A B C : Type} {NA : Num A} {NB : Num B} {NC : Num C}.
Variable lax : bool.
Variable rel : A -> B -> C -> Prop.
Variable okq : Q -> Prop.
Hypothesis okq_1 : okq 1.
Hypothesis okq_prefix : forall p q, dict_get prefix_factors p = Some q -> okq q.
Hypothesis h_q : forall q, okq q -> rel (nq q) (nq q) (nq q).
Hypothesis h_mul : forall x y z x' y' z', rel x y z -> rel x' y' z' -> rel (nmul x x') (nmul y y') (nmul z z').
Hypothesis h_div : forall x y z x' y' z', rel x y z -> rel x' y' z' -> rr lax rel (pydiv x x') (pydiv y y') (pydiv z z').
Hypothesis h_pow : forall q x y z, rel x y z -> rr lax rel (npow x q) (npow y q) (npow z q).

Definition relu (a : unit_obj A) (b : unit_obj B) (c : unit_obj C) : Prop :=
  uc b = uc a /\ uc c = uc a /\ un b = un a /\ un c = un a /\ ue b = ue a /\ ue c = ue a /\ rel (uv a) (uv b) (uv c).
Definition relm (a : multi_obj A) (b : multi_obj B) (c : multi_obj C) : Prop :=
  mc b = mc a /\ mc c = mc a /\ mtop b = mtop a /\ mtop c = mtop a /\ mbot b = mbot a /\ mbot c = mbot a /\ rel (mv a) (mv b) (mv c).
Definition relv (a : pyval A) (b : pyval B) (c : pyval C) : Prop :=
  match a, b, c with
  | VNum x, VNum y, VNum z => rel x y z
  | VNone, VNone, VNone => True
  | VObj, VObj, VObj => True
  | VUnit x, VUnit y, VUnit z => relu x y z
  | VMulti x, VMulti y, VMulti z => relm x y z
  | _, _, _ => False
  end.
Lemma relu_mk c x y z n e : rel x y z -> relu (UO c x n e) (UO c y n e) (UO c z n e).
Proof. unfold relu. cbn. tauto. Qed.
Lemma relm_mk c x y z t b : rel x y z -> relm (MO c x t b) (MO c y t b) (MO c z t b).
Proof. unfold relm. cbn. tauto. Qed.
Lemma rr_mk c x y z n e : rel x y z -> rr lax relu (mk_unit c x n e) (mk_unit c y n e) (mk_unit c z n e).
Proof.
  intro h. assert (ok : forall e, rr lax relu (Ok (UO c x n e)) (Ok (UO c y n e)) (Ok (UO c z n e))) by (intro; apply rr_ok, relu_mk, h).
  destruct c; cbn [mk_unit]; try apply ok;
    try (match goal with |- context [mem_str ?a ?b] => destruct (mem_str a b); [apply ok|apply rr_raise] end);
    unfold split_caret; (destruct (has_char "^" n); [|apply ok]);
    (destruct (split_on "^" n) as [|a [|b [|? ?]]]; try apply rr_raise); apply rr_same; intro; apply rr_ok, relu_mk, h.
Qed.
Lemma rr_vunit a b c : rr lax relu a b c -> rr lax relv (vunit a) (vunit b) (vunit c).
Proof. intro h. eapply rr_rmap; [exact h|]. intros x y z p. exact p. Qed.
Lemma rr_mkv c x y z n e : rel x y z -> rr lax relv (vunit (mk_unit c x n e)) (vunit (mk_unit c y n e)) (vunit (mk_unit c z n e)).
Proof. intro h. apply rr_vunit, rr_mk, h. Qed.

Lemma rr_prefix inv l : forall x y z, rel x y z -> rr lax rel (prefix_loop inv l x) (prefix_loop inv l y) (prefix_loop inv l z).
Proof.
  induction l as [|[p u] l IH]; intros x y z h; cbn [prefix_loop]; [apply rr_ok, h|].
  destruct (String.eqb p EmptyString); [apply IH, h|]. destruct (dict_get prefix_factors p) as [q|] eqn:e; [|apply rr_raise].
  assert (hq : rel (nq q) (nq q) (nq q)) by (apply h_q, (okq_prefix p), e).
  assert (hb : rr lax rel (let* b := (if inv then pydiv (nq 1) (nq q) else Ok (nq q)) in npow b (ev (bexp u)))
                      (let* b := (if inv then pydiv (nq 1) (nq q) else Ok (nq q)) in npow b (ev (bexp u)))
                      (let* b := (if inv then pydiv (nq 1) (nq q) else Ok (nq q)) in npow b (ev (bexp u)))).
  { apply (rr_bind rel); [|intros; apply h_pow; assumption]. destruct inv; [apply h_div; [apply h_q, okq_1|exact hq]|apply rr_ok, hq]. }
  revert hb.
  generalize (let* b := (if inv then pydiv (nq 1) (nq q) else Ok (nq q : A)) in npow b (ev (bexp u))).
  generalize (let* b := (if inv then pydiv (nq 1) (nq q) else Ok (nq q : B)) in npow b (ev (bexp u))).
  generalize (let* b := (if inv then pydiv (nq 1) (nq q) else Ok (nq q : C)) in npow b (ev (bexp u))).
  intros t s r hb. destruct hb as [f g k hk|e1 c|a b e1 hl].
  - apply IH, h_mul; assumption.
  - destruct e1; apply rr_raise.
  - destruct e1; apply rr_lax, hl.
Qed.
Definition rel3 (a : half * half * A) (b : half * half * B) (c : half * half * C) : Prop :=
  fst b = fst a /\ fst c = fst a /\ rel (snd a) (snd b) (snd c).
Lemma rr_prefixes t b : rr lax rel3 (deconstruct_unit_prefixes t b) (deconstruct_unit_prefixes t b) (deconstruct_unit_prefixes t b).
Proof.
  unfold deconstruct_unit_prefixes. apply rr_same. intro tp. apply rr_same. intro bp.
  apply (rr_bind rel); [apply rr_prefix, h_q, okq_1|]. intros x y z h.
  apply (rr_bind rel); [apply rr_prefix, h|]. intros x' y' z' h'. apply rr_ok. unfold rel3. cbn. tauto.
Qed.
Lemma rr_reduce ct cb t b : rr lax rel3 (reduce ct cb t b) (reduce ct cb t b) (reduce ct cb t b).
Proof.
  unfold reduce. apply (rr_bind rel3); [apply rr_prefixes|]. intros [[t1 b1] f1] [[t2 b2] f2] [[t3 b3] f3] (e1 & e2 & h).
  cbn in e1, e2, h. injection e1 as -> ->. injection e2 as -> ->. apply rr_same. intro r. apply rr_ok. unfold rel3. cbn. tauto.
Qed.
Lemma rel_shape_div x y z t b : rel x y z -> relv (shape_div x t b) (shape_div y t b) (shape_div z t b).
Proof.
  intro h. destruct t as [|p [|q t]], b as [|p' [|q' b]]; cbn [shape_div relv plain];
    try exact h; try (apply relu_mk, h); apply relm_mk, h.
Qed.
Lemma rel_shape_mul x y z t b : rel x y z -> relv (shape_mul x t b) (shape_mul y t b) (shape_mul z t b).
Proof.
  intro h. destruct t as [|p [|q t]], b as [|p' b]; cbn [shape_mul relv plain];
    try exact h; try (apply relu_mk, h); apply relm_mk, h.
Qed.
Ltac open_u u1 u2 u3 h :=
  destruct u1 as [?c1 ?v1 ?n1 ?e1]; destruct u2 as [?c2 ?v2 ?n2 ?e2]; destruct u3 as [?c3 ?v3 ?n3 ?e3];
  unfold relu, relm in h; cbn [relv uc uv un ue mc mv mtop mbot] in h;
  destruct h as (?d1 & ?d2 & ?d3 & ?d4 & ?d5 & ?d6 & h); subst.
Ltac reduced := apply (rr_bind rel3); [apply rr_reduce|]; intros [[?t1 ?b1] ?f1] [[?t2 ?b2] ?f2] [[?t3 ?b3] ?f3] (?e1 & ?e2 & ?hf);
  match goal with e1 : fst (_, _, _) = _, e2 : fst (_, _, _) = _, hf : rel _ _ _ |- _ => cbn in e1, e2, hf; injection e1 as -> ->; injection e2 as -> -> end.

Lemma rr_mul a b c a' b' c' : relv a b c -> relv a' b' c' -> rr lax relv (py_mul a a') (py_mul b b') (py_mul c c').
Proof.
  intros h h'.
  destruct a as [x| | |u1|m1], b as [y| | |u2|m2], c as [z| | |u3|m3]; cbn [relv] in h; try contradiction;
  destruct a' as [x'| | |u1'|m1'], b' as [y'| | |u2'|m2'], c' as [z'| | |u3'|m3']; cbn [relv] in h'; try contradiction;
    cbn [py_mul unit_mul unit_rmul multi_mul multi_rmul]; try apply rr_raise; try (apply rr_ok; exact I).
  - apply rr_ok. apply h_mul; assumption.
  - open_u u1' u2' u3' h'. cbn [uc uv un ue]. apply rr_mkv, h_mul; assumption.
  - open_u m1' m2' m3' h'. cbn [mc mv mtop mbot]. apply rr_ok, relm_mk, h_mul; assumption.
  - open_u u1 u2 u3 h. cbn [uc uv un ue]. apply rr_mkv, h_mul; assumption.
  - open_u u1 u2 u3 h. open_u u1' u2' u3' h'. cbn [uc uv un ue]. destruct (_ && _); [apply rr_mkv, h_mul; assumption|apply rr_ok, relm_mk, h_mul; assumption].
  - open_u u1 u2 u3 h. open_u m1' m2' m3' h'. cbn [uc uv un ue mc mv mtop mbot]. reduced. apply rr_ok, rel_shape_mul, h_mul; assumption.
  - open_u m1 m2 m3 h. cbn [mc mv mtop mbot]. apply rr_ok, relm_mk, h_mul; assumption.
  - open_u m1 m2 m3 h. open_u u1' u2' u3' h'. cbn [uc uv un ue mc mv mtop mbot]. reduced. apply rr_ok, rel_shape_mul, h_mul; assumption.
  - open_u m1 m2 m3 h. open_u m1' m2' m3' h'. cbn [mc mv mtop mbot]. reduced. apply rr_ok, relm_mk, h_mul; [apply h_mul|]; assumption.
Qed.
Ltac divided := apply (rr_bind rel); [apply h_div; assumption|]; intros ?x ?y ?z ?hq.
Lemma rr_divide a b c a' b' c' : relv a b c -> relv a' b' c' -> rr lax relv (py_div a a') (py_div b b') (py_div c c').
Proof.
  intros h h'.
  destruct a as [x| | |u1|m1], b as [y| | |u2|m2], c as [z| | |u3|m3]; cbn [relv] in h; try contradiction;
  destruct a' as [x'| | |u1'|m1'], b' as [y'| | |u2'|m2'], c' as [z'| | |u3'|m3']; cbn [relv] in h'; try contradiction;
    cbn [py_div unit_div multi_div multi_rdiv]; try apply rr_raise; try (apply rr_ok; exact I).
  - eapply rr_rmap; [apply h_div; eassumption|]. intros ? ? ? p. exact p.
  - open_u m1' m2' m3' h'. cbn [mc mv mtop mbot]. divided. apply rr_ok, relm_mk; assumption.
  - open_u u1 u2 u3 h. cbn [uc uv un ue]. divided. apply rr_mkv; assumption.
  - open_u u1 u2 u3 h. open_u u1' u2' u3' h'. cbn [uc uv un ue]. divided.
    destruct (String.eqb _ _); [|apply rr_ok, relm_mk; assumption]. destruct (e_is _ 0); [apply rr_ok; assumption|apply rr_mkv; assumption].
  - open_u u1 u2 u3 h. open_u m1' m2' m3' h'. cbn [uc uv un ue mc mv mtop mbot]. reduced. divided. apply rr_ok, rel_shape_div; assumption.
  - open_u m1 m2 m3 h. cbn [mc mv mtop mbot]. divided. apply rr_ok, relm_mk; assumption.
  - open_u m1 m2 m3 h. open_u u1' u2' u3' h'. cbn [uc uv un ue mc mv mtop mbot]. reduced. divided. apply rr_ok, rel_shape_div, h_mul; assumption.
  - open_u m1 m2 m3 h. open_u m1' m2' m3' h'. cbn [mc mv mtop mbot]. destruct (_ && _).
    + eapply rr_rmap; [apply h_div; eassumption|]. intros ? ? ? p. exact p.
    + reduced. divided. apply rr_ok, rel_shape_div, h_mul; assumption.
Qed.
Lemma rr_power a b c k : relv a b c -> rr lax relv (py_pow a k) (py_pow b k) (py_pow c k).
Proof.
  intro h.
  destruct a as [x| | |u1|m1], b as [y| | |u2|m2], c as [z| | |u3|m3]; cbn [relv] in h; try contradiction; cbn [py_pow]; try apply rr_raise.
  - eapply rr_rmap; [apply h_pow; eassumption|]. intros ? ? ? p. exact p.
  - open_u u1 u2 u3 h. unfold unit_pow. cbn [uc uv un ue]. apply (rr_bind rel); [apply h_pow, h|]. intros. apply rr_mkv. assumption.
  - open_u m1 m2 m3 h. unfold multi_pow. cbn [mc mv mtop mbot]. apply rr_same. intro r.
    apply (rr_bind rel); [apply h_pow, h|]. intros. apply rr_ok, relm_mk. assumption.
Qed.
Lemma rr_neg : (forall x y z, rel x y z -> rel (nopp x) (nopp y) (nopp z)) ->
  forall a b c, relv a b c -> rr lax relv (py_neg a) (py_neg b) (py_neg c).
Proof.
  intros h_opp a b c h.
  destruct a as [x| | |u1|m1], b as [y| | |u2|m2], c as [z| | |u3|m3]; cbn [relv] in h; try contradiction; cbn [py_neg]; try apply rr_raise.
  - apply rr_ok, h_opp, h.
  - open_u u1 u2 u3 h. unfold unit_neg. cbn [uc uv un ue]. apply rr_mkv, h_opp, h.
  - open_u m1 m2 m3 h. unfold multi_neg. cbn [mc mv mtop mbot]. apply rr_ok, relm_mk, h_opp, h.
Qed.
Lemma rr_add : (forall x y z x' y' z', rel x y z -> rel x' y' z' -> rel (nadd x x') (nadd y y') (nadd z z')) ->
  forall a b c a' b' c', relv a b c -> relv a' b' c' -> rr lax relv (py_add a a') (py_add b b') (py_add c c').
Proof.
  intros h_add a b c a' b' c' h h'.
  destruct a as [x| | |u1|m1], b as [y| | |u2|m2], c as [z| | |u3|m3]; cbn [relv] in h; try contradiction;
  destruct a' as [x'| | |u1'|m1'], b' as [y'| | |u2'|m2'], c' as [z'| | |u3'|m3']; cbn [relv] in h'; try contradiction;
    cbn [py_add unit_addsub multi_add]; try apply rr_raise.
  - apply rr_ok, h_add; assumption.
  - open_u u1 u2 u3 h. cbn [uc uv un ue]. apply rr_mkv, h_add; assumption.
  - open_u u1 u2 u3 h. open_u u1' u2' u3' h'. cbn [uc uv un ue]. destruct (ucls_sub _ _); [|apply rr_raise].
    destruct (_ && _); [|apply rr_raise]. apply rr_mkv, h_add; assumption.
  - open_u m1 m2 m3 h. open_u m1' m2' m3' h'. cbn [mc mv mtop mbot]. destruct (mcls_eqb _ _); [|apply rr_raise].
    destruct (_ && _); [|apply rr_raise]. apply rr_ok, relm_mk, h_add; assumption.
Qed.

(** ** Conversions *)
Definition relc (f : conv A) (g : conv B) (k : conv C) : Prop := forall x y z, rel x y z -> rr lax rel (f x) (g y) (k z).
Definition relt (a : option (table A)) (b : option (table B)) (c : option (table C)) : Prop :=
  forall n, rr lax relc (tab_get a n) (tab_get b n) (tab_get c n).
Variables (ta : tables A) (tb : tables B) (tc : tables C).
Hypothesis h_to : forall c, c <> Temperature -> relt (to_standard ta c) (to_standard tb c) (to_standard tc c).
Hypothesis h_from : forall c, c <> Temperature -> relt (from_standard ta c) (from_standard tb c) (from_standard tc c).
Hypothesis okq_exp : forall q, okq q.

Lemma rr_to c n x y z ex : c <> Temperature -> rel x y z -> rr lax rel (to_val ta c n x ex) (to_val tb c n y ex) (to_val tc c n z ex).
Proof.
  intros hc h. unfold to_val. apply (rr_bind relc); [apply h_to, hc|]. intros f g k hf.
  apply (rr_bind rel); [apply hf, h|]. intros. apply h_pow. assumption.
Qed.
Lemma rr_from c n x y z ex : c <> Temperature -> rel x y z -> rr lax rel (from_val ta c n x ex) (from_val tb c n y ex) (from_val tc c n z ex).
Proof.
  intros hc h. unfold from_val. apply (rr_bind relc); [apply h_from, hc|]. intros f g k hf.
  apply (rr_bind rel); [apply hf, h|]. intros. apply h_pow. assumption.
Qed.
Lemma rr_core a b c target ret ex : uc a <> Temperature -> relu a b c ->
  rr lax relu (unit_convert_core ta a target ret ex) (unit_convert_core tb b target ret ex) (unit_convert_core tc c target ret ex).
Proof.
  intros hc h. open_u a b c h. cbn [uc] in hc. unfold unit_convert_core. cbn [uc uv un ue].
  destruct (String.eqb _ target); [apply rr_ok, relu_mk, h|]. destruct (standard _) as [std|]; [|apply rr_raise].
  destruct (String.eqb target std).
  - apply (rr_bind rel); [apply rr_to; assumption|]. intros. apply rr_mk. assumption.
  - destruct (String.eqb _ std).
    + apply (rr_bind rel); [apply rr_from; assumption|]. intros. apply rr_mk. assumption.
    + apply (rr_bind rel).
      * match goal with |- rr lax rel (match ?r with _ => _ end) (match ?s with _ => _ end) (match ?t with _ => _ end) =>
          assert (q : rr lax rel r s t) by (apply rr_to; assumption); revert q; generalize t, s, r end.
        intros r1 r2 r3 q. destruct q as [v w k hk|er c|a b er hl]; [apply rr_ok, hk|destruct er; apply rr_raise|destruct er; apply rr_lax, hl].
      * intros. apply (rr_bind rel); [apply rr_from; assumption|]. intros. apply rr_mk. assumption.
Qed.
Lemma rr_unit_convert a b c target : uc a <> Temperature -> relu a b c ->
  rr lax relu (unit_convert_to ta a target) (unit_convert_to tb b target) (unit_convert_to tc c target).
Proof.
  intros hc h. unfold unit_convert_to. assert (e : un b = un a /\ un c = un a) by (unfold relu in h; tauto). destruct e as (-> & ->).
  destruct (mem_str _ _).
  - destruct (split_on "^" target) as [|r [|e [|? ?]]]; try apply rr_raise. apply rr_same. intro q. apply rr_core; assumption.
  - destruct (has_char "^" target); [|apply rr_core; assumption].
    destruct (split_on "^" target) as [|r [|e [|? ?]]]; try apply rr_raise. apply rr_same. intro q. apply rr_core; assumption.
Qed.
Definition rell (a : list (unit_obj A)) (b : list (unit_obj B)) (c : list (unit_obj C)) : Prop :=
  Forall2 (fun x yz => relu x (fst yz) (snd yz)) a (combine b c) /\ length b = length a /\ length c = length a.
Lemma rell_nil : rell nil nil nil.
Proof. split; [constructor|tauto]. Qed.
Lemma rell_cons x y z a b c : relu x y z -> rell a b c -> rell (x :: a) (y :: b) (z :: c).
Proof. intros h (p & q & r). split; [cbn; constructor; assumption|cbn; lia]. Qed.
Lemma rell_inv a b c : rell a b c ->
  (a = nil /\ b = nil /\ c = nil) \/ exists x y z a' b' c', a = x :: a' /\ b = y :: b' /\ c = z :: c' /\ relu x y z /\ rell a' b' c'.
Proof.
  intros (p & q & r). destruct a as [|x a], b as [|y b], c as [|z c]; cbn in *; try discriminate; [tauto|right].
  inversion p; subst. do 6 eexists. repeat (split; [reflexivity|]). split; [assumption|]. split; [assumption|lia].
Qed.
Definition scaled_temps (l : list (unit_obj A)) : Prop := forall x, In x l -> uc x = Temperature -> mem_str (un x) ["K"; "C"] = true \/ mem_str (un x) ["R"; "F"] = true.
Lemma mk_unit_fields {T} {N : Num T} c (x : T) n e u : mk_unit c x n e = Ok u -> uc u = c /\ (c = Temperature -> un u = n).
Proof.
  destruct c; cbn [mk_unit]; try (intro h; injection h as <-; cbn; tauto);
    try (match goal with |- context [mem_str ?a ?b] => destruct (mem_str a b); [intro h; injection h as <-; cbn; split; [reflexivity|discriminate]|discriminate] end);
    unfold split_caret; (destruct (has_char "^" n); [|intro h; injection h as <-; cbn; split; [reflexivity|discriminate]]);
    (destruct (split_on "^" n) as [|a [|b [|? ?]]]; try discriminate); destruct (py_float b); cbn; try discriminate;
    intro h; injection h as <-; cbn; (split; [reflexivity|discriminate]).
Qed.
Lemma temp_names n : get_unit_class n = Ok Temperature -> mem_str n ["K"; "C"] = true \/ mem_str n ["R"; "F"] = true.
Proof.
  unfold get_unit_class. destruct (dict_get UNIT_REGISTRY n) as [c|] eqn:e; [|discriminate]. intro h. injection h as ->.
  assert (k : forall l, (forall a, In a l -> snd a = Temperature -> mem_str (fst a) ["K"; "C"] = true \/ mem_str (fst a) ["R"; "F"] = true) ->
    dict_get l n = Some Temperature -> mem_str n ["K"; "C"] = true \/ mem_str n ["R"; "F"] = true).
  { induction l as [|[m d] l IH]; intros hl hd; [discriminate|]. cbn [dict_get] in hd.
    destruct (dict_get l n) as [t|] eqn:el.
    - injection hd as ->. apply IH; [intros a ha; apply hl; right; exact ha|reflexivity].
    - destruct (String.eqb m n) eqn:em; [|discriminate]. injection hd as ->. apply String.eqb_eq in em. subst.
      apply (hl (n, Temperature)); [left; reflexivity|reflexivity]. }
  apply (k UNIT_REGISTRY); [|exact e].
  intros a ha ht. assert (q : forallb (fun a => negb (ucls_eqb (snd a) Temperature) || mem_str (fst a) ["K"; "C"] || mem_str (fst a) ["R"; "F"]) UNIT_REGISTRY = true) by (vm_compute; reflexivity).
  rewrite forallb_forall in q. specialize (q a ha). rewrite ht in q. cbn [ucls_eqb negb orb] in q. apply orb_prop in q. exact q.
Qed.
Definition relb (a : list (unit_obj A)) (b : list (unit_obj B)) (c : list (unit_obj C)) : Prop := rell a b c /\ scaled_temps a.
Lemma rr_base l : rr lax relb (base_to_unit l) (base_to_unit l) (base_to_unit l).
Proof.
  unfold base_to_unit. induction l as [|x l IH]; cbn [mapM].
  - apply rr_ok. split; [apply rell_nil|]. intros x [].
  - destruct (get_unit_class (bname x)) as [c|e] eqn:g; cbn [bind]; [|apply rr_raise].
    assert (hm : rr lax relu (mk_unit c (nq 1) (bname x) (bexp x)) (mk_unit c (nq 1) (bname x) (bexp x)) (mk_unit c (nq 1) (bname x) (bexp x)))
      by (apply rr_mk, h_q, okq_1).
    pose proof (mk_unit_fields c (nq 1 : A) (bname x) (bexp x)) as hf.
    revert hm hf. generalize (mk_unit c (nq 1 : A) (bname x) (bexp x)), (mk_unit c (nq 1 : B) (bname x) (bexp x)), (mk_unit c (nq 1 : C) (bname x) (bexp x)).
    intros r1 r2 r3 hm hf. destruct hm as [ua ub uc' hu|e1 c'|r1 r2 e1 hl].
    + cbn [bind]. apply (rr_bind relb); [exact IH|]. intros a b c' (hl & ht). apply rr_ok.
      split; [apply rell_cons; assumption|]. intros y [<-|hy] hy2; [|apply ht; assumption].
      destruct (hf ua eq_refl) as (h1 & h2). rewrite hy2 in h1. subst c. rewrite (h2 eq_refl). apply temp_names, g.
    + apply rr_raise.
    + apply rr_lax, hl.
Qed.
Lemma rr_get_factor a b c : (uc a = Temperature -> mem_str (un a) ["K"; "C"] = true \/ mem_str (un a) ["R"; "F"] = true) -> relu a b c ->
  rr lax relu (convert_and_get_factor ta a) (convert_and_get_factor tb b) (convert_and_get_factor tc c).
Proof.
  intros ht h. pose proof h as h0. open_u a b c h. unfold convert_and_get_factor. cbn [uc uv un ue] in *.
  destruct (mem_str _ ["K"; "C"]); [apply rr_ok, relu_mk, h_mul; [assumption|apply h_q, okq_exp]|].
  destruct (mem_str _ ["R"; "F"]); [apply rr_ok, relu_mk, h_mul; [assumption|apply h_mul; apply h_q, okq_exp]|].
  match goal with ht : ?c = Temperature -> _ |- _ => assert (hc : c <> Temperature) by (intro e; destruct (ht e); discriminate) end.
  destruct (standard _) as [std|]; [|apply rr_raise]. destruct (e_is _ 1); [apply rr_unit_convert; assumption|].
  destruct (has_char "^" std); [apply rr_raise|apply rr_core; assumption].
Qed.
Definition relf (a : list (unit_obj A) * A) (b : list (unit_obj B) * B) (c : list (unit_obj C) * C) : Prop :=
  rell (fst a) (fst b) (fst c) /\ rel (snd a) (snd b) (snd c).
Lemma rr_factor_loop inv : forall a b c, rell a b c -> scaled_temps a -> forall x y z, rel x y z ->
  rr lax relf (factor_loop ta inv a x) (factor_loop tb inv b y) (factor_loop tc inv c z).
Proof.
  induction a as [|u a IH]; intros b c hl ht x y z h; apply rell_inv in hl;
    (destruct hl as [(e1 & -> & ->)|(p & q & r & a' & b' & c' & e1 & -> & -> & hu & hl)]; [try discriminate|try discriminate]); cbn [factor_loop].
  - apply rr_ok. split; [apply rell_nil|exact h].
  - injection e1 as <- <-. apply (rr_bind relu); [apply rr_get_factor; [intro; apply ht; [left; reflexivity|assumption]|assumption]|].
    intros ua ub uc' hu'. apply (rr_bind rel).
    + destruct inv; [|apply rr_ok; unfold relu in hu'; tauto]. apply h_div; [apply h_q, okq_1|unfold relu in hu'; tauto].
    + intros f g k hf. apply (rr_bind relf); [apply IH; [assumption|intros w hw; apply ht; right; exact hw|apply h_mul; assumption]|].
      intros [la fa] [lb fb] [lc fc] (h1 & h2). apply rr_ok. split; [apply rell_cons; assumption|exact h2].
Qed.
Lemma rell_as_bu a : forall b c, rell a b c -> as_bu b = as_bu a /\ as_bu c = as_bu a.
Proof.
  induction a as [|u a IH]; intros b c hl; apply rell_inv in hl;
    (destruct hl as [(e1 & -> & ->)|(p & q & r & a' & b' & c' & e1 & -> & -> & hu & hl)]; [try discriminate|try discriminate]); [split; reflexivity|].
  injection e1 as <- <-. destruct (IH _ _ hl) as (h1 & h2). unfold as_bu in *. cbn [map]. rewrite h1, h2.
  unfold relu in hu. destruct hu as (_ & _ & -> & -> & -> & -> & _). split; reflexivity.
Qed.
Definition relp (a : list (unit_obj A) * list (unit_obj A) * A) (b : list (unit_obj B) * list (unit_obj B) * B)
    (c : list (unit_obj C) * list (unit_obj C) * C) : Prop :=
  relb (fst (fst a)) (fst (fst b)) (fst (fst c)) /\ relb (snd (fst a)) (snd (fst b)) (snd (fst c)) /\ rel (snd a) (snd b) (snd c).
Lemma rr_prepare t b : rr lax relp (conv_prepare t b) (conv_prepare t b) (conv_prepare t b).
Proof.
  unfold conv_prepare. apply (rr_bind rel3); [apply rr_prefixes|]. intros [[t1 b1] f1] [[t2 b2] f2] [[t3 b3] f3] (e1 & e2 & h).
  cbn in e1, e2, h. injection e1 as -> ->. injection e2 as -> ->. apply rr_same. intro d.
  apply (rr_bind relb); [apply rr_base|]. intros. apply (rr_bind relb); [apply rr_base|]. intros. apply rr_ok. unfold relp. cbn. tauto.
Qed.
Lemma rr_factor t1 t2 t3 b1 b2 b3 x y z : relb t1 t2 t3 -> relb b1 b2 b3 -> rel x y z ->
  rr lax relp (conv_factor ta t1 b1 x) (conv_factor tb t2 b2 y) (conv_factor tc t3 b3 z).
Proof.
  intros (ht & st) (hb & sb) h. unfold conv_factor.
  apply (rr_bind relf); [apply rr_factor_loop; [assumption|assumption|apply h_mul; [apply h_q, okq_1|assumption]]|].
  intros [l1 f1] [l2 f2] [l3 f3] (hl & hf). cbn [fst snd] in *.
  apply (rr_bind relf); [apply rr_factor_loop; assumption|].
  intros [k1 g1] [k2 g2] [k3 g3] (hk & hg). cbn [fst snd] in *.
  destruct (rell_as_bu _ _ _ hl) as (-> & ->). destruct (rell_as_bu _ _ _ hk) as (-> & ->). apply rr_same. intro d.
  apply (rr_bind relb); [apply rr_base|]. intros. apply (rr_bind relb); [apply rr_base|]. intros. apply rr_ok. unfold relp. cbn. tauto.
Qed.
Lemma rell_app a : forall b c a' b' c', rell a b c -> rell a' b' c' -> rell (a ++ a') (b ++ b') (c ++ c').
Proof.
  induction a as [|u a IH]; intros b c a' b' c' hl hl'; apply rell_inv in hl;
    (destruct hl as [(e1 & -> & ->)|(p & q & r & a'' & b'' & c'' & e1 & -> & -> & hu & hl)]; [try discriminate|try discriminate]); [exact hl'|].
  injection e1 as <- <-. cbn [app]. apply rell_cons; [assumption|apply IH; assumption].
Qed.
Lemma rell_classes a : forall b c, rell a b c -> classes_known b = classes_known a /\ classes_known c = classes_known a.
Proof.
  induction a as [|u a IH]; intros b c hl; apply rell_inv in hl;
    (destruct hl as [(e1 & -> & ->)|(p & q & r & a' & b' & c' & e1 & -> & -> & hu & hl)]; [try discriminate|try discriminate]); [split; reflexivity|].
  injection e1 as <- <-. destruct (IH _ _ hl) as (h1 & h2). unfold classes_known in *. cbn [mapM]. rewrite h1, h2.
  unfold relu in hu. destruct hu as (_ & _ & -> & -> & _). split; reflexivity.
Qed.
Definition csum {T} (c : ucls) (l : list (unit_obj T)) : Qc := fold_right (fun u a =>
    if match get_unit_class (un u) with Ok d => ucls_eqb c d | Raise _ => false end
    then (ev (ue u) + a)%Qc else a) (qc 0) l.
Lemma rell_csum k a : forall b c, rell a b c -> csum k b = csum k a /\ csum k c = csum k a.
Proof.
  induction a as [|u a IH]; intros b c hl; apply rell_inv in hl;
    (destruct hl as [(e1 & -> & ->)|(p & q & r & a' & b' & c' & e1 & -> & -> & hu & hl)]; [try discriminate|try discriminate]); [split; reflexivity|].
  injection e1 as <- <-. destruct (IH _ _ hl) as (h1 & h2). unfold csum in *. cbn [fold_right]. rewrite h1, h2.
  unfold relu in hu. destruct hu as (_ & _ & -> & -> & -> & -> & _). split; reflexivity.
Qed.
Lemma rell_dims t1 t2 t3 b1 b2 b3 t1' t2' t3' b1' b2' b3' :
  rell t1 t2 t3 -> rell b1 b2 b3 -> rell t1' t2' t3' -> rell b1' b2' b3' ->
  same_dims t2 b2 t2' b2' = same_dims t1 b1 t1' b1' /\ same_dims t3 b3 t3' b3' = same_dims t1 b1 t1' b1'.
Proof.
  intros h1 h2 h3 h4. unfold same_dims. generalize all_ucls. intro l.
  induction l as [|c l (IH1 & IH2)]; [split; reflexivity|]. cbn [forallb]. rewrite IH1, IH2.
  unfold class_total. cbv zeta.
  repeat match goal with |- context [fold_right ?f (qc 0) ?l] => change (fold_right f (qc 0) l) with (csum c l) end.
  destruct (rell_csum c _ _ _ h1) as (-> & ->). destruct (rell_csum c _ _ _ h2) as (-> & ->).
  destruct (rell_csum c _ _ _ h3) as (-> & ->). destruct (rell_csum c _ _ _ h4) as (-> & ->). split; reflexivity.
Qed.
Lemma rr_convert a b c target : relm a b c -> rr lax relm (multi_convert_to ta a target) (multi_convert_to tb b target) (multi_convert_to tc c target).
Proof.
  intro h. open_u a b c h. unfold multi_convert_to. cbn [mc mv mtop mbot]. apply rr_same. intro p.
  apply (rr_bind relp); [apply rr_prepare|]. intros [[rt1 rb1] rf1] [[rt2 rb2] rf2] [[rt3 rb3] rf3] (r1 & r2 & r3). cbn [fst snd] in *.
  apply (rr_bind relp); [apply rr_prepare|]. intros [[lt1 lb1] lf1] [[lt2 lb2] lf2] [[lt3 lb3] lf3] (l1 & l2 & l3). cbn [fst snd] in *.
  apply (rr_bind relp); [apply rr_factor; assumption|]. intros [[mt1 mb1] mf1] [[mt2 mb2] mf2] [[mt3 mb3] mf3] ((m1 & _) & (m2 & _) & m3). cbn [fst snd] in *.
  apply (rr_bind relp); [apply rr_factor; assumption|]. intros [[st1 sb1] sf1] [[st2 sb2] sf2] [[st3 sb3] sf3] ((s1 & _) & (s2 & _) & s3). cbn [fst snd] in *.
  destruct (rell_classes _ _ _ (rell_app _ _ _ _ _ _ s1 (rell_app _ _ _ _ _ _ s2 (rell_app _ _ _ _ _ _ m1 m2)))) as (-> & ->).
  apply rr_same. intro k. destruct (rell_dims _ _ _ _ _ _ _ _ _ _ _ _ m1 m2 s1 s2) as (-> & ->).
  destruct (same_dims mt1 mb1 st1 sb1); [|apply rr_raise].
  apply (rr_bind rel); [apply h_div; assumption|]. intros x y z hq. unfold mk_multi.
  destruct (String.eqb target EmptyString); [apply rr_ok, relm_mk, h_mul; assumption|].
  apply rr_same. intro p'. apply rr_ok, relm_mk, h_mul; assumption.
Qed.
End Tri.
