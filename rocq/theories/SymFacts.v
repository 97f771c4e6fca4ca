(** * SymFacts: the units of a formula can be computed without its values

    The model is generic in the numbers, so it can be run on the one-element type
    [unit]: that computes the units of a result.  The theorem [run_sound] says that
    the units so computed are those of the actual result, and that its value is the
    formula applied to the values of the arguments. *)
From Coq Require Import String Ascii List ZArith QArith Qcanon Bool Reals Qreals Lia Lra.
From Verif Require Import Py Num UnitsData UnitsStruct Units NumFacts Spec SpecFacts StructFacts CombineFacts CancelFacts
  ExpandFacts PrefixFacts SimplifyFacts OpFacts NamesFacts ClosureFacts FactorFacts LawFacts WitnessFacts OpPropFacts Solve Formulas FormulaSpec SemFacts.
Import ListNotations.
Local Open Scope string_scope.
Local Open Scope list_scope.
Local Open Scope R_scope.

#[global] Instance Unum : Num unit := {|
  nadd := fun _ _ => tt; nsub := fun _ _ => tt; nmul := fun _ _ => tt; ndiv := fun _ _ => tt; nopp := fun _ => tt;
  nq := fun _ => tt; neqb := fun _ _ => false; nltb := fun _ _ => false; npow := fun _ _ => Ok tt |}.
Definition erase {T} (v : pyval T) : pyval unit :=
  match v with
  | VNum _ => VNum tt
  | VNone => VNone
  | VObj => VObj
  | VUnit u => VUnit (UO (uc u) tt (un u) (ue u))
  | VMulti m => VMulti (MO (mc m) tt (mtop m) (mbot m))
  end.
(** A formula. *)
Inductive fx :=
| FVar (i : nat) | FNum (r : R)
| FMul (f g : fx) | FDiv (f g : fx) | FAdd (f g : fx) | FSub (f g : fx) | FNeg (f : fx)
| FPow (f : fx) (k : expo) | FLog (f : fx) | FFun (h : R -> R) (f : fx)
| FLet (f g : fx).
Definition var {A} (vs : list A) (i : nat) : res A := match nth_error vs i with Some v => Ok v | None => Raise EIndexError end.
Fixpoint run (vs : list val) (f : fx) : res val :=
  match f with
  | FVar i => var vs i
  | FNum r => Ok (VNum r)
  | FMul f g => omul (run vs f) (run vs g)
  | FDiv f g => odiv (run vs f) (run vs g)
  | FAdd f g => oadd (run vs f) (run vs g)
  | FSub f g => osub (run vs f) (run vs g)
  | FNeg f => oneg (run vs f)
  | FPow f k => opow (run vs f) k
  | FLog f => math_log (run vs f)
  | FFun h f => math1 h (run vs f)
  | FLet f g => let* v := run vs f in run (v :: vs) g
  end.
Notation sval := (pyval unit).
Fixpoint srun (vs : list sval) (f : fx) : res sval :=
  match f with
  | FVar i => var vs i
  | FNum r => Ok (VNum tt)
  | FMul f g => let* a := srun vs f in let* b := srun vs g in py_mul a b
  | FDiv f g => let* a := srun vs f in let* b := srun vs g in py_div a b
  | FAdd f g => let* a := srun vs f in let* b := srun vs g in py_add a b
  | FSub f g => let* a := srun vs f in let* b := srun vs g in py_sub a b
  | FNeg f => let* a := srun vs f in py_neg a
  | FPow f k => let* a := srun vs f in py_pow a k
  | FLog f | FFun _ f => let* a := srun vs f in match a with VNum _ => Ok (VNum tt) | _ => Raise ETypeError end
  | FLet f g => let* v := srun vs f in srun (v :: vs) g
  end.
Definition powr (x : R) (k : expo) : R := match Rpowq x (ev k) with Ok y => y | Raise _ => 0 end.
Fixpoint num (vs : list R) (f : fx) : R :=
  match f with
  | FVar i => nth i vs 0
  | FNum r => r
  | FMul f g => num vs f * num vs g
  | FDiv f g => num vs f / num vs g
  | FAdd f g => num vs f + num vs g
  | FSub f g => num vs f - num vs g
  | FNeg f => - num vs f
  | FPow f k => powr (num vs f) k
  | FLog f => ln (num vs f)
  | FFun h f => h (num vs f)
  | FLet f g => num (num vs f :: vs) g
  end.
(** Nothing is divided by zero, powers and logarithms are defined. *)
Fixpoint def (vs : list R) (f : fx) : Prop :=
  match f with
  | FVar _ | FNum _ => True
  | FMul f g | FAdd f g | FSub f g => def vs f /\ def vs g
  | FDiv f g => def vs f /\ def vs g /\ num vs g <> 0
  | FNeg f | FFun _ f => def vs f
  | FPow f k => def vs f /\ exists y, Rpowq (num vs f) (ev k) = Ok y
  | FLog f => def vs f /\ 0 < num vs f
  | FLet f g => def vs f /\ def (num vs f :: vs) g
  end.

(** ** The operators *)
Lemma split_unprefixed x : unprefixed (bname x) -> split_prefix x = Ok (EmptyString, x).
Proof.
  intro h. destruct x as [n e]. cbn [bname] in h. unfold split_prefix. cbn [bname bexp].
  destruct (String.eqb n "kg") eqn:ek; [apply String.eqb_eq in ek; subst; reflexivity|].
  assert (g : get_prefix n = Ok (EmptyString, n)).
  { destruct h as [[c ->]|[[c [r [-> hc]]]|h]].
    - cbn. reflexivity.
    - cbn [get_prefix]. assert (hm : mem_str (String c EmptyString) ["m"; "c"; "d"; "k"; "M"] = false).
      { destruct (mem_str (String c EmptyString) ["m"; "c"; "d"; "k"; "M"]) eqn:em; [|reflexivity]. exfalso. apply hc.
        apply mem_str_In in em. cbn in em. unfold prefix_letters. cbn.
        repeat (destruct em as [em|em]; [injection em as <-; tauto|]). destruct em. }
      rewrite hm. cbn [negb]. rewrite orb_true_r. reflexivity.
    - cbn in h. destruct h as [<-|[<-|[<-|[<-|[]]]]]; try reflexivity. discriminate ek. }
  rewrite g. reflexivity.
Qed.
Lemma split_half l : unprefixed_half l -> mapM split_prefix l = Ok (map (fun x => (EmptyString, x)) l).
Proof.
  induction l as [|x l IH]; intro h; [reflexivity|]. cbn [mapM map]. rewrite split_unprefixed by (apply h; left; reflexivity). cbn [bind].
  rewrite IH by (intros y hy; apply h; right; exact hy). reflexivity.
Qed.
Lemma loop_plain {T} `{Num T} inv l (f : T) : prefix_loop inv (map (fun x => (EmptyString, x)) l) f = Ok f.
Proof. induction l as [|x l IH]; [reflexivity|]. cbn. exact IH. Qed.
Lemma reduce_plain {T} `{Num T} ct cb top bot : unprefixed_half top -> unprefixed_half bot ->
  reduce ct cb top bot = let* r := reduce_tail ct cb top bot in Ok (fst r, snd r, nq 1 : T).
Proof.
  intros h1 h2. unfold reduce, deconstruct_unit_prefixes. rewrite (split_half _ h1), (split_half _ h2). cbn [bind].
  rewrite loop_plain. cbn [bind]. rewrite loop_plain. cbn [bind]. rewrite !map_map. cbn [snd]. rewrite !map_id. reflexivity.
Qed.
Lemma q2r1 : Q2R 1 = 1.
Proof. unfold Q2R. cbn. field. Qed.

(** What an operator does on values, and on units. *)
Definition follows (r : res val) (s : res sval) (x : R) : Prop :=
  match r with
  | Ok v => s = Ok (erase v) /\ value v = x /\ plain_val v
  | Raise e => s = Raise e
  end.
Lemma follows_intro r s x : (forall v, r = Ok v -> plain_val v) -> rmap erase r = s -> (forall v, r = Ok v -> value v = x) -> follows r s x.
Proof. intros h1 h2 h3. destruct r as [v|e]; cbn in *; subst; auto. Qed.
Lemma erase_shape_div {T} (v : T) t b : erase (shape_div v t b) = shape_div tt t b.
Proof. destruct t as [|x [|y t]]; destruct b as [|z [|z' b]]; reflexivity. Qed.
Lemma erase_shape_mul {T} (v : T) t b : erase (shape_mul v t b) = shape_mul tt t b.
Proof. destruct t as [|x [|y t]]; destruct b as [|z b]; reflexivity. Qed.
Lemma value_shape_div (v : R) t b : value (shape_div v t b) = v.
Proof. destruct t as [|x [|y t]]; destruct b as [|z [|z' b]]; reflexivity. Qed.
Lemma value_shape_mul (v : R) t b : value (shape_mul v t b) = v.
Proof. destruct t as [|x [|y t]]; destruct b as [|z b]; reflexivity. Qed.
Lemma unp_app' a b : unprefixed_half a -> unprefixed_half b -> unprefixed_half (a ++ b).
Proof. intros h1 h2 x hx. apply in_app_or in hx. destruct hx; auto. Qed.
Lemma unp_one' n e : unprefixed n -> unprefixed_half [BU n e].
Proof. intros h x [<-|[]]. exact h. Qed.
Lemma mk_erase c (v : R) n e : rmap erase (vunit (mk_unit c v n e)) = vunit (mk_unit c tt n e).
Proof.
  destruct c; cbn [mk_unit]; try reflexivity;
    try (match goal with |- context [mem_str ?a ?b] => destruct (mem_str a b); reflexivity end);
    unfold split_caret; (destruct (has_char "^" n); [|reflexivity]);
    (destruct (split_on "^" n) as [|a [|b [|? ?]]]; try reflexivity); (destruct (py_float b); reflexivity).
Qed.
Lemma mk_value c (v : R) n e r : vunit (mk_unit c v n e) = Ok r -> value r = v.
Proof.
  destruct c; cbn [mk_unit]; intro h; try (injection h as <-; reflexivity);
    try (match type of h with context [mem_str ?a ?b] => destruct (mem_str a b); [injection h as <-; reflexivity|discriminate] end);
    unfold split_caret in h; (destruct (has_char "^" n); [|injection h as <-; reflexivity]);
    (destruct (split_on "^" n) as [|a [|b [|? ?]]]; try discriminate); (destruct (py_float b); [injection h as <-; reflexivity|discriminate]).
Qed.
Ltac unps := first [assumption | apply unp_app'; unps | apply unp_one'; assumption].
Ltac tails := match goal with |- context [reduce_tail ?a ?b ?c ?d] => destruct (reduce_tail a b c d) as [[? ?]|]; cbn [bind fst snd] end.

Lemma mul_follows a b : plain_val a -> plain_val b -> follows (py_mul a b) (py_mul (erase a) (erase b)) (value a * value b).
Proof.
  intros ha hb. apply follows_intro; [intros v h; exact (plain_mul _ _ _ ha hb h)| |].
  - destruct a as [x| | |u|m]; destruct b as [y| | |u'|m']; cbn [plain_val] in *; try contradiction; cbn [py_mul erase unit_mul unit_rmul multi_mul multi_rmul uc uv un ue mc mv mtop mbot].
    + reflexivity.
    + apply mk_erase.
    + reflexivity.
    + apply mk_erase.
    + destruct (_ && _); [apply mk_erase|reflexivity].
    + destruct ha as [ha _]. destruct hb as [hb1 hb2]. rewrite !reduce_plain by unps. tails; [|reflexivity]. cbn [rmap]. rewrite erase_shape_mul. reflexivity.
    + reflexivity.
    + destruct hb as [hb _]. destruct ha as [ha1 ha2]. rewrite !reduce_plain by unps. tails; [|reflexivity]. cbn [rmap]. rewrite erase_shape_mul. reflexivity.
    + destruct ha as [ha1 ha2]. destruct hb as [hb1 hb2]. rewrite !reduce_plain by unps. tails; reflexivity.
  - intros v h.
    destruct a as [x| | |u|m]; destruct b as [y| | |u'|m']; cbn [plain_val] in *; try contradiction; cbn [py_mul erase unit_mul unit_rmul multi_mul multi_rmul uc uv un ue mc mv mtop mbot value] in *.
    + injection h as <-. reflexivity.
    + apply mk_value in h. rewrite h. apply Rmult_comm.
    + injection h as <-. reflexivity.
    + apply mk_value in h. rewrite h. reflexivity.
    + destruct (_ && _); [apply mk_value in h; exact h|injection h as <-; reflexivity].
    + destruct ha as [ha _]. destruct hb as [hb1 hb2]. rewrite !reduce_plain in h by unps.
      destruct (reduce_tail _ _ _ _) as [[? ?]|]; cbn [bind fst snd] in h; [|discriminate]. injection h as <-. rewrite value_shape_mul. reflexivity.
    + injection h as <-. reflexivity.
    + destruct hb as [hb _]. destruct ha as [ha1 ha2]. rewrite !reduce_plain in h by unps.
      destruct (reduce_tail _ _ _ _) as [[? ?]|]; cbn [bind fst snd] in h; [|discriminate]. injection h as <-. rewrite value_shape_mul. apply Rmult_comm.
    + destruct ha as [ha1 ha2]. destruct hb as [hb1 hb2]. rewrite !reduce_plain in h by unps.
      destruct (reduce_tail _ _ _ _) as [[? ?]|]; cbn [bind fst snd] in h; [|discriminate]. injection h as <-. cbn [mv nmul nq Rnum]. rewrite q2r1. apply Rmult_1_r.
Qed.
Lemma pydiv_u (x y : unit) : pydiv x y = Ok tt.
Proof. reflexivity. Qed.
Lemma div_follows a b : plain_val a -> plain_val b -> value b <> 0 -> follows (py_div a b) (py_div (erase a) (erase b)) (value a / value b).
Proof.
  intros ha hb hz. apply follows_intro; [intros v h; exact (plain_div _ _ _ ha hb h)| |].
  - destruct a as [x| | |u|m]; destruct b as [y| | |u'|m']; cbn [plain_val] in *; try contradiction; cbn [py_div erase unit_div multi_div multi_rdiv uc uv un ue mc mv mtop mbot value] in *;
      rewrite ?pydiv_u; try (rewrite pydiv_ok by exact hz); cbn [bind].
    + reflexivity.
    + reflexivity.
    + reflexivity.
    + apply mk_erase.
    + destruct (String.eqb _ _); [|reflexivity]. destruct (e_is _ 0); [reflexivity|apply mk_erase].
    + destruct ha as [ha _]. destruct hb as [hb1 hb2]. rewrite !reduce_plain by unps. tails; [|reflexivity]. cbn [rmap]. rewrite erase_shape_div. reflexivity.
    + reflexivity.
    + destruct hb as [hb _]. destruct ha as [ha1 ha2]. rewrite !reduce_plain by unps. tails; [|reflexivity]. cbn [rmap]. rewrite erase_shape_div. reflexivity.
    + destruct ha as [ha1 ha2]. destruct hb as [hb1 hb2]. destruct (_ && _); [reflexivity|]. rewrite !reduce_plain by unps. tails; [|reflexivity].
      cbn [rmap]. rewrite erase_shape_div. reflexivity.
  - intros v h.
    destruct a as [x| | |u|m]; destruct b as [y| | |u'|m']; cbn [plain_val] in *; try contradiction; cbn [py_div erase unit_div multi_div multi_rdiv uc uv un ue mc mv mtop mbot value] in *;
      try (rewrite pydiv_ok in h by exact hz); cbn [bind rmap] in h.
    + injection h as <-. reflexivity.
    + discriminate.
    + injection h as <-. reflexivity.
    + apply mk_value in h. exact h.
    + destruct (String.eqb _ _); [destruct (e_is _ 0)|]; [injection h as <-; reflexivity|apply mk_value in h; exact h|injection h as <-; reflexivity].
    + destruct ha as [ha _]. destruct hb as [hb1 hb2]. rewrite !reduce_plain in h by unps.
      destruct (reduce_tail _ _ _ _) as [[? ?]|]; cbn [bind fst snd] in h; [|discriminate]. injection h as <-. rewrite value_shape_div. reflexivity.
    + injection h as <-. reflexivity.
    + destruct hb as [hb _]. destruct ha as [ha1 ha2]. rewrite !reduce_plain in h by unps.
      destruct (reduce_tail _ _ _ _) as [[? ?]|]; cbn [bind fst snd] in h; [|discriminate]. injection h as <-. rewrite value_shape_div. cbn [nmul nq Rnum]. rewrite q2r1. apply Rmult_1_r.
    + destruct ha as [ha1 ha2]. destruct hb as [hb1 hb2]. destruct (_ && _); [injection h as <-; reflexivity|]. rewrite !reduce_plain in h by unps.
      destruct (reduce_tail _ _ _ _) as [[? ?]|]; cbn [bind fst snd] in h; [|discriminate]. injection h as <-. rewrite value_shape_div. cbn [nmul nq Rnum]. rewrite q2r1. apply Rmult_1_r.
Qed.
Lemma add_follows a b : plain_val a -> plain_val b -> follows (py_add a b) (py_add (erase a) (erase b)) (value a + value b).
Proof.
  intros ha hb. apply follows_intro; [intros v h; exact (plain_addsub _ _ _ ha hb (or_introl h))| |].
  - destruct a as [x| | |u|m]; destruct b as [y| | |u'|m']; cbn [plain_val] in *; try contradiction; cbn [py_add erase unit_addsub multi_add uc uv un ue mc mv mtop mbot value] in *; try reflexivity.
    + apply mk_erase.
    + destruct (ucls_sub _ _); [|reflexivity]. destruct (_ && _); [apply mk_erase|reflexivity].
    + destruct (mcls_eqb _ _); [|reflexivity]. destruct (_ && _); reflexivity.
  - intros v h.
    destruct a as [x| | |u|m]; destruct b as [y| | |u'|m']; cbn [plain_val] in *; try contradiction; cbn [py_add erase unit_addsub multi_add uc uv un ue mc mv mtop mbot value] in *; try discriminate.
    + injection h as <-. reflexivity.
    + apply mk_value in h. exact h.
    + destruct (ucls_sub _ _); [|discriminate]. destruct (_ && _); [apply mk_value in h; exact h|discriminate].
    + destruct (mcls_eqb _ _); [|discriminate]. destruct (_ && _); [|discriminate]. injection h as <-. reflexivity.
Qed.
Lemma sub_follows a b : plain_val a -> plain_val b -> follows (py_sub a b) (py_sub (erase a) (erase b)) (value a - value b).
Proof.
  intros ha hb. apply follows_intro; [intros v h; exact (plain_addsub _ _ _ ha hb (or_intror h))| |].
  - destruct a as [x| | |u|m]; destruct b as [y| | |u'|m']; cbn [plain_val] in *; try contradiction; cbn [py_sub erase unit_addsub multi_sub uc uv un ue mc mv mtop mbot value] in *; try reflexivity.
    + apply mk_erase.
    + destruct (ucls_sub _ _); [|reflexivity]. destruct (_ && _); [apply mk_erase|reflexivity].
    + destruct (_ && _); reflexivity.
  - intros v h.
    destruct a as [x| | |u|m]; destruct b as [y| | |u'|m']; cbn [plain_val] in *; try contradiction; cbn [py_sub erase unit_addsub multi_sub uc uv un ue mc mv mtop mbot value] in *; try discriminate.
    + injection h as <-. reflexivity.
    + apply mk_value in h. exact h.
    + destruct (ucls_sub _ _); [|discriminate]. destruct (_ && _); [apply mk_value in h; exact h|discriminate].
    + destruct (_ && _); [|discriminate]. injection h as <-. reflexivity.
Qed.
Lemma neg_follows a : plain_val a -> follows (py_neg a) (py_neg (erase a)) (- value a).
Proof.
  intro ha. apply follows_intro; [intros v h; exact (plain_neg _ _ ha h)| |].
  - destruct a as [x| | |u|m]; cbn [plain_val] in *; try contradiction; try reflexivity. apply mk_erase.
  - intros v h. destruct a as [x| | |u|m]; cbn [plain_val] in *; try contradiction; cbn [py_neg unit_neg multi_neg] in h; try (injection h as <-; reflexivity).
    apply mk_value in h. exact h.
Qed.
Lemma pow_follows a k y : plain_val a -> Rpowq (value a) (ev k) = Ok y -> follows (py_pow a k) (py_pow (erase a) k) y.
Proof.
  intros ha hy. apply follows_intro; [intros v h; exact (plain_pow _ _ _ ha h)| |].
  - destruct a as [x| | |u|m]; cbn [plain_val value] in *; try contradiction; cbn [py_pow unit_pow multi_pow erase uc uv un ue mc mv mtop mbot].
    + cbn [npow Rnum]. rewrite hy. reflexivity.
    + unfold unit_pow. cbn [npow Rnum]. rewrite hy. cbn [bind uc un ue npow Unum]. apply mk_erase.
    + unfold multi_pow. cbn [mtop mbot mv mc npow Rnum]. tails; [|reflexivity]. rewrite hy. reflexivity.
  - intros v h. destruct a as [x| | |u|m]; cbn [plain_val value] in *; try contradiction; cbn [py_pow] in h.
    + cbn [npow Rnum] in h. rewrite hy in h. injection h as <-. reflexivity.
    + unfold unit_pow in h. cbn [npow Rnum] in h. rewrite hy in h. cbn [bind] in h. apply mk_value in h. exact h.
    + unfold multi_pow in h. cbn [npow Rnum] in h. destruct (reduce_tail _ _ _ _) as [[? ?]|]; cbn [bind fst snd] in h; [|discriminate].
      rewrite hy in h. injection h as <-. reflexivity.
Qed.
Lemma var_value vs i : value (nth i vs (VNum 0)) = nth i (map value vs) 0.
Proof. change 0 with (value (VNum 0)) at 2. rewrite map_nth. reflexivity. Qed.

Lemma bind2_follows x y s1 s2 (op : val -> val -> res val) (sop : sval -> sval -> res sval) p q z :
  follows x s1 p -> follows y s2 q ->
  (forall a b, plain_val a -> plain_val b -> value a = p -> value b = q -> follows (op a b) (sop (erase a) (erase b)) z) ->
  follows (let* a := x in let* b := y in op a b) (let* a := s1 in let* b := s2 in sop a b) z.
Proof.
  intros h1 h2 h. destruct x as [a|e]; cbn in h1.
  - destruct h1 as [-> [v1 p1]]. cbn [bind]. destruct y as [b|e]; cbn in h2.
    + destruct h2 as [-> [v2 p2]]. cbn [bind]. apply h; assumption.
    + rewrite h2. reflexivity.
  - rewrite h1. reflexivity.
Qed.
Lemma bind1_follows x s1 (op : val -> res val) (sop : sval -> res sval) p z :
  follows x s1 p -> (forall a, plain_val a -> value a = p -> follows (op a) (sop (erase a)) z) ->
  follows (let* a := x in op a) (let* a := s1 in sop a) z.
Proof.
  intros h1 h. destruct x as [a|e]; cbn in h1.
  - destruct h1 as [-> [v1 p1]]. cbn [bind]. apply h; assumption.
  - rewrite h1. reflexivity.
Qed.

Theorem run_sound f : forall vs, Forall plain_val vs -> def (map value vs) f -> follows (run vs f) (srun (map erase vs) f) (num (map value vs) f).
Proof.
  induction f as [i|r|f IHf g IHg|f IHf g IHg|f IHf g IHg|f IHf g IHg|f IHf|f IHf k|f IHf|h f IHf|f IHf g IHg]; intros vs hv hd; cbn [run srun num def] in *.
  - unfold var. rewrite nth_error_map. destruct (nth_error vs i) as [v|] eqn:e; cbn.
    + split; [reflexivity|]. split; [|apply nth_error_In in e; rewrite Forall_forall in hv; apply hv; exact e].
      rewrite <- var_value. rewrite (nth_error_nth _ _ _ e). reflexivity.
    + reflexivity.
  - cbn. auto.
  - destruct hd as [d1 d2]. eapply bind2_follows; [apply IHf|apply IHg|]; try assumption. intros a b pa pb <- <-. apply mul_follows; assumption.
  - destruct hd as [d1 [d2 d3]]. eapply bind2_follows; [apply IHf|apply IHg|]; try assumption. intros a b pa pb <- e. rewrite <- e in *. apply div_follows; assumption.
  - destruct hd as [d1 d2]. eapply bind2_follows; [apply IHf|apply IHg|]; try assumption. intros a b pa pb <- <-. apply add_follows; assumption.
  - destruct hd as [d1 d2]. eapply bind2_follows; [apply IHf|apply IHg|]; try assumption. intros a b pa pb <- <-. apply sub_follows; assumption.
  - eapply bind1_follows; [apply IHf; assumption|]. intros a pa <-. apply neg_follows; assumption.
  - destruct hd as [d1 [y hy]]. unfold opow. eapply bind1_follows; [apply IHf; assumption|]. intros a pa e. unfold powr. rewrite hy. apply pow_follows; [exact pa|]. rewrite e. exact hy.
  - destruct hd as [d1 d2]. unfold math_log. eapply bind1_follows; [apply IHf; assumption|]. intros a pa e. rewrite <- e in *.
    destruct a as [x| | |u|m]; cbn in pa; try contradiction; try reflexivity. cbn [value erase] in *. unfold Rltb. destruct (Rlt_dec 0 x); [|contradiction]. cbn. auto.
  - unfold math1. eapply bind1_follows; [apply IHf; assumption|]. intros a pa <-.
    destruct a as [x| | |u|m]; cbn in pa; try contradiction; try reflexivity. cbn. auto.
  - destruct hd as [d1 d2]. eapply bind1_follows; [apply IHf; assumption|]. intros a pa e.
    specialize (IHg (a :: vs)). cbn [map] in IHg. rewrite e in IHg. apply IHg; [constructor; assumption|exact d2].
Qed.
