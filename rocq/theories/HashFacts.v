(** * HashFacts: equality and hashes of BaseUnits *)
From Coq Require Import String Ascii List Bool QArith Qcanon ZArith.
From Verif Require Import Py UnitsData UnitsStruct TextSpec TextFacts ShowFacts Print PrintTextFacts.
Import ListNotations.
Local Open Scope string_scope.
Local Open Scope list_scope.

Lemma sapp_cancel a b c : a +++ b = a +++ c -> b = c.
Proof. induction a as [|x a IH]; [auto|]. cbn. intro h. injection h as h. auto. Qed.
Lemma float_text_dot e s : isf e = true -> str_expo e = Ok s -> has_char "." s = true.
Proof.
  intros hf h. unfold str_expo in h. rewrite hf in h. cbn [negb] in h. destruct (Z.leb _ _); [discriminate|]. destruct (is_int _).
  - injection h as <-. rewrite TextFacts.has_char_app. apply orb_true_r.
  - destruct (Z.ltb _ _); [discriminate|]. destruct (dec_places _ _ _) as [k|]; [|discriminate]. destruct (Z.leb _ _); [discriminate|]. injection h as <-. rewrite !TextFacts.has_char_app. cbn [has_char]. rewrite !orb_true_r. reflexivity.
Qed.
Theorem seteq_text a b s t : base_repr a = Ok s -> base_repr b = Ok t -> (bu_seteq a b = true <-> bu_eqb a b = true /\ s = t).
Proof.
  intros ha hb. unfold bu_seteq. rewrite andb_true_iff. split; intros (h & k); (split; [exact h|]).
  - unfold bu_eqb in h. apply andb_true_iff in h. destruct h as (h1 & h2). apply String.eqb_eq in h1. unfold base_repr in ha, hb.
    assert (q : ev (bexp a) = ev (bexp b)) by (apply Qc_eq_bool_correct; exact h2). assert (e1 : e_is (bexp a) 1 = e_is (bexp b) 1) by (unfold e_is; rewrite q; reflexivity). rewrite <- e1 in hb.
    destruct (e_is (bexp a) 1) eqn:e; [congruence|]. cbn [orb] in k. apply Bool.eqb_prop in k. assert (x : bexp a = bexp b) by (destruct (bexp a), (bexp b); cbn in *; congruence). rewrite h1, x in ha. congruence.
  - subst t. unfold bu_eqb in h. apply andb_true_iff in h. destruct h as (h1 & h2). apply String.eqb_eq in h1. unfold base_repr in ha, hb.
    assert (q : ev (bexp a) = ev (bexp b)) by (apply Qc_eq_bool_correct; exact h2). assert (e1 : e_is (bexp a) 1 = e_is (bexp b) 1) by (unfold e_is; rewrite q; reflexivity). rewrite <- e1 in hb.
    destruct (e_is (bexp a) 1) eqn:e; [reflexivity|]. cbn [orb]. destruct (str_expo (bexp a)) as [x|] eqn:ea; [|discriminate]. destruct (str_expo (bexp b)) as [y|] eqn:eb; [|discriminate]. cbn [bind] in ha, hb.
    rewrite h1 in ha. assert (xy : x = y) by (apply (sapp_cancel (bname b +++ "^")); rewrite !sapp_assoc; congruence). subst y.
    assert (int : forall f z, isf f = false -> str_expo f = Ok z -> has_char "." z = false) by (intros f z hf hz; unfold str_expo in hz; rewrite hf in hz; injection hz as <-; apply show_Z_plain).
    destruct (isf (bexp a)) eqn:fa, (isf (bexp b)) eqn:fb; try reflexivity.
    + pose proof (float_text_dot _ _ fa ea). pose proof (int _ _ fb eb). congruence.
    + pose proof (float_text_dot _ _ fb eb). pose proof (int _ _ fa ea). congruence.
Qed.
Lemma hash_differs : exists a b s t, bu_eqb a b = true /\ base_repr a = Ok s /\ base_repr b = Ok t /\ s <> t.
Proof. exists (BU "m" (eint 2)), (BU "m" (eflt (Q2Qc 2))), "m^2", "m^2.0". split; [reflexivity|]. split; [reflexivity|]. split; [reflexivity|discriminate]. Qed.
