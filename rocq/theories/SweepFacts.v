(** * SweepFacts: formulas on objects made by constructor calls *)
From Coq Require Import String Ascii List ZArith QArith Qcanon Bool Reals Qreals Lia Lra.
From Verif Require Import Py Num UnitsData UnitsStruct Units NumFacts Spec SpecFacts StructFacts
  OpFacts NamesFacts ClosureFacts FactorFacts LawFacts WitnessFacts OpPropFacts Solve Formulas FormulaSpec SemFacts SymFacts.
Import ListNotations.
Local Open Scope string_scope.
Local Open Scope list_scope.
Local Open Scope R_scope.

Definition smulti (c s : string) : res sval := rmap VMulti (mk_multi (MSub c) tt s).
Definition ssimple (c : ucls) (s : string) : res sval := rmap VUnit (mk_unit c tt s (eint 1)).
Definition snum : res sval := Ok (VNum tt).
Definition plain_sb (v : sval) : bool :=
  match v with
  | VNum _ => true
  | VUnit u => unprefixed_b (un u)
  | VMulti m => forallb (fun x => unprefixed_b (bname x)) (mtop m) && forallb (fun x => unprefixed_b (bname x)) (mbot m)
  | _ => false
  end.
(** The object [v] has the units of [s] and the value [x]. *)
Definition makes (s : res sval) (v : val) (x : R) : Prop :=
  s = Ok (erase v) /\ value v = x /\ match v with VUnit u => built u | _ => True end.
Lemma multi_makes c x s v : multi c x s = Ok v -> makes (smulti c s) v x.
Proof.
  unfold multi, smulti, mk_multi. destruct (String.eqb s EmptyString).
  - intro h. injection h as <-. split; [reflexivity|]. split; [reflexivity|exact I].
  - destruct (parse_units s) as [p|]; cbn [bind rmap]; [|discriminate]. intro h. injection h as <-. split; [reflexivity|]. split; [reflexivity|exact I].
Qed.
Lemma simple_makes c x s v : simple c x s = Ok v -> makes (ssimple c s) v x.
Proof.
  unfold simple, ssimple. intro h. pose proof (mk_erase c x s (eint 1)) as e. unfold vunit in e. rewrite h in e. cbn [rmap] in e.
  split; [symmetry; exact e|]. split; [apply (mk_value c x s (eint 1)); exact h|].
  destruct (mk_unit c x s (eint 1)) as [u|] eqn:eu; cbn in h; [|discriminate]. injection h as <-.
  exists x, s, (eint 1). assert (ec : uc u = c).
  { destruct c; cbn [mk_unit] in eu; try (injection eu as <-; reflexivity);
      try (match type of eu with context [mem_str ?a ?b] => destruct (mem_str a b); [injection eu as <-; reflexivity|discriminate] end);
      unfold split_caret in eu; (destruct (has_char "^" s); [|injection eu as <-; reflexivity]);
      (destruct (split_on "^" s) as [|a [|b [|? ?]]]; try discriminate); (destruct (py_float b); [injection eu as <-; reflexivity|discriminate]). }
  rewrite ec. exact eu.
Qed.
Lemma num_makes x : makes snum (VNum x) x.
Proof. repeat split. Qed.
Lemma makes_plain s v x : makes s v x -> match s with Ok a => plain_sb a | Raise _ => false end = true -> plain_val v.
Proof.
  intros [-> [_ hb]] h. destruct v as [y| | |u|m]; cbn in h; try discriminate; cbn [plain_val].
  - exact I.
  - split; [apply unprefixed_b_ok; exact h|exact hb].
  - apply andb_true_iff in h. destruct h. split; apply unprefixed_half_b_ok; assumption.
Qed.
Fixpoint seq {A} (l : list (res A)) : res (list A) :=
  match l with nil => Ok nil | x :: l => let* a := x in let* r := seq l in Ok (a :: r) end.
Inductive makes_all : list (res sval) -> list val -> list R -> Prop :=
| makes_nil : makes_all nil nil nil
| makes_cons s v x ss vs xs : makes s v x -> makes_all ss vs xs -> makes_all (s :: ss) (v :: vs) (x :: xs).
Definition sys_ok (args : list (res sval)) (f : fx) (ok : sval -> bool) : bool :=
  match seq args with
  | Ok l => forallb plain_sb l && match srun l f with Ok s => ok s | Raise _ => false end
  | Raise _ => false
  end.
Definition sys_raises (args : list (res sval)) (f : fx) (e : exn) : Prop :=
  match seq args with
  | Ok l => forallb plain_sb l = true /\ srun l f = Raise e
  | Raise _ => False
  end.
Lemma makes_all_seq ss vs xs : makes_all ss vs xs ->
  seq ss = Ok (map erase vs) /\ xs = map value vs /\ (forallb plain_sb (map erase vs) = true -> Forall plain_val vs).
Proof.
  induction 1 as [|s v x ss vs xs h _ [e1 [e2 e3]]]; [repeat split; constructor|]. pose proof h as [-> [hv hb]].
  cbn [seq map bind]. rewrite e1. cbn [bind]. split; [reflexivity|]. split; [rewrite hv, e2; reflexivity|].
  cbn [forallb]. intro hf. apply andb_true_iff in hf. destruct hf as [f1 f2]. constructor; [eapply makes_plain; [exact h|exact f1]|apply e3; exact f2].
Qed.
Lemma sys_sound ss vs xs f ok : makes_all ss vs xs -> sys_ok ss f ok = true -> def xs f ->
  exists r, run vs f = Ok r /\ ok (erase r) = true /\ value r = num xs f /\ plain_val r.
Proof.
  intros hm h hd. destruct (makes_all_seq _ _ _ hm) as [e1 [e2 e3]]. unfold sys_ok in h. rewrite e1 in h. apply andb_true_iff in h. destruct h as [hp h].
  subst xs. pose proof (run_sound f vs (e3 hp) hd) as hr. unfold follows in hr. destruct (run vs f) as [r|e].
  - destruct hr as [er [vr pr]]. rewrite er in h. exists r. auto.
  - rewrite hr in h. discriminate.
Qed.
Lemma sys_raise ss vs xs f e : makes_all ss vs xs -> sys_raises ss f e -> def xs f -> run vs f = Raise e.
Proof.
  intros hm h hd. destruct (makes_all_seq _ _ _ hm) as [e1 [e2 e3]]. unfold sys_raises in h. rewrite e1 in h. destruct h as [hp h].
  subst xs. pose proof (run_sound f vs (e3 hp) hd) as hr. unfold follows in hr. destruct (run vs f) as [r|e'].
  - destruct hr as [er _]. rewrite er in h. discriminate.
  - congruence.
Qed.
Ltac make := repeat (first [apply makes_nil | apply makes_cons; [first [apply multi_makes; eassumption | apply simple_makes; eassumption | apply num_makes]|]]).

(** Tests on the units of a result. *)
Definition is_num (s : sval) : bool := match s with VNum _ => true | _ => false end.
Definition is_unit (n : string) (s : sval) : bool := match s with VUnit u => String.eqb (un u) n && e_is (ue u) 1 | _ => false end.
Lemma is_num_ok (r : val) : is_num (erase r) = true -> r = VNum (value r).
Proof. destruct r; try discriminate. reflexivity. Qed.
Lemma e_is_ok e z : e_is e z = true -> ev e = qc z.
Proof. unfold e_is. intro h. apply Qc_eq_bool_correct in h. exact h. Qed.
Lemma is_unit_ok n (r : val) : is_unit n (erase r) = true -> exists u, r = VUnit u /\ un u = n /\ ev (ue u) = qc 1.
Proof.
  destruct r as [| | |u|]; try discriminate. cbn. intro h. apply andb_true_iff in h. destruct h as [h1 h2]. exists u. split; [reflexivity|].
  apply String.eqb_eq in h1. split; [exact h1|apply e_is_ok; exact h2].
Qed.
(** Sweeps over lists of names. *)
Lemma sweep1 (f : string -> bool) l a : forallb f l = true -> In a l -> f a = true.
Proof. rewrite forallb_forall. auto. Qed.
Lemma sweep2 (f : string -> string -> bool) l l' a b : forallb (fun x => forallb (f x) l') l = true -> In a l -> In b l' -> f a b = true.
Proof. rewrite forallb_forall. intros h ha hb. specialize (h _ ha). rewrite forallb_forall in h. auto. Qed.
Lemma sweep3 (f : string -> string -> string -> bool) l l' l'' a b c :
  forallb (fun x => forallb (fun y => forallb (f x y) l'') l') l = true -> In a l -> In b l' -> In c l'' -> f a b c = true.
Proof. rewrite forallb_forall. intros h ha hb hc. specialize (h _ ha). eapply sweep2; eassumption. Qed.
Lemma sweep4 (f : string -> string -> string -> string -> bool) l l' l'' l3 a b c d :
  forallb (fun x => forallb (fun y => forallb (fun z => forallb (f x y z) l3) l'') l') l = true -> In a l -> In b l' -> In c l'' -> In d l3 -> f a b c d = true.
Proof. rewrite forallb_forall. intros h ha hb hc hd. specialize (h _ ha). eapply sweep3; eassumption. Qed.
(** Units of equal objects. *)
Lemma same_erase a b : plain_val a -> plain_val b -> same_unit a b <-> erase a = erase b.
Proof.
  destruct a as [x| | |[]|[]]; destruct b as [y| | |[]|[]]; cbn; try tauto; intros _ _; split; try tauto; try discriminate; try reflexivity;
    try (intros [-> [-> ->]]; reflexivity); intro h; injection h as -> -> ->; auto.
Qed.
Lemma erase_kind (a b : val) : erase a = erase b -> kind a = kind b /\ shape a = shape b.
Proof.
  destruct a as [x| | |[]|[]]; destruct b as [y| | |[]|[]]; cbn; intro h; try discriminate; auto; injection h as -> -> ->; auto.
Qed.
