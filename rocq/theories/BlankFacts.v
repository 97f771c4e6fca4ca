(** * BlankFacts: blanks in an equation *)
From Coq Require Import String Ascii List ZArith QArith Bool Lia.
From Verif Require Import Py Balance BalanceSpec CoefSpec BalanceFacts NestedFacts ReactionFacts CoefFacts.
From Verif Require TextFacts.
Import ListNotations.
Local Open Scope string_scope.
Local Open Scope list_scope.

Lemma blank_space c : c = " "%char \/ (9 <= nat_of_ascii c <= 13)%nat -> is_space c = true.
Proof.
  intros [->|[h1 h2]]; [reflexivity|]. unfold is_space. apply Nat.leb_le in h1. apply Nat.leb_le in h2. rewrite h1, h2. cbn. rewrite ?orb_true_r. reflexivity.
Qed.
Lemma lstrip_blanks a s : blanks a -> lstrip (a +++ s) = lstrip s.
Proof. induction a as [|c a IH]; intro h; [reflexivity|]. destruct h as [h1 h2]. cbn [append lstrip]. rewrite (blank_space c h1). exact (IH h2). Qed.
Lemma rstrip_blanks b : blanks b -> rstrip b = "".
Proof. induction b as [|c b IH]; intro h; [reflexivity|]. destruct h as [h1 h2]. cbn [rstrip]. rewrite (IH h2), (blank_space c h1). reflexivity. Qed.
Lemma rstrip_end s b : blanks b -> rstrip (s +++ b) = rstrip s.
Proof. intro h. induction s as [|a s IH]; [exact (rstrip_blanks b h)|]. cbn [append rstrip]. rewrite IH. reflexivity. Qed.
Lemma blanks_has c b : c <> " "%char -> ~ (9 <= nat_of_ascii c <= 13)%nat -> blanks b -> has_char c b = false.
Proof.
  intros h1 h2. induction b as [|a b IH]; intro h; [reflexivity|]. destruct h as [ha hb]. cbn [has_char]. rewrite (IH hb), orb_false_r.
  apply Ascii.eqb_neq. intros ->. tauto.
Qed.
Lemma strip_spaced x : spaced x -> strip (spaced_text x) = formula_text (bare_formula x) /\ has_char "+" (spaced_text x) = false /\ has_char "-" (spaced_text x) = false.
Proof.
  destruct x as [[a f] b]. intros [ha [hb [hf hw]]]. cbn [spaced_text bare_formula fst snd]. pose proof (plainly_fine _ (wells_plainly f hw)) as ff. split.
  - unfold strip. rewrite lstrip_blanks by exact ha. pose proof (fine_blank _ ff) as fb. pose proof (wells_text f hf hw) as ne.
    assert (e : lstrip (formula_text f +++ b) = formula_text f +++ b).
    { destruct (formula_text f) as [|c t]; [tauto|]. cbn [append lstrip]. destruct ff as [fc _]. rewrite (space_fine c fc). reflexivity. }
    rewrite e, rstrip_end by exact hb. apply TextFacts.rstrip_free. exact fb.
  - rewrite !TextFacts.has_char_app. split; rewrite (blanks_has _ a), (blanks_has _ b) by (assumption || discriminate || (cbn; lia)); rewrite orb_false_r; cbn [orb]; apply fine_has; try exact ff; outside.
Qed.
Lemma split_spaced l : l <> [] -> Forall spaced l -> map strip (split_on "+" (join "+" (map spaced_text l))) = map formula_text (map bare_formula l).
Proof.
  induction l as [|x l IH]; intros hn h; [tauto|]. inversion h as [|? ? hx hl]; subst. destruct (strip_spaced x hx) as [e1 [e2 _]].
  destruct l as [|y l].
  - cbn [map join]. rewrite TextFacts.split_none by exact e2. cbn [map]. rewrite e1. reflexivity.
  - change (join "+" (map spaced_text (x :: y :: l))) with (spaced_text x +++ String "+" (join "+" (map spaced_text (y :: l)))).
    rewrite TextFacts.split_sep by exact e2. cbn [map]. rewrite e1. f_equal. apply IH; [discriminate|exact hl].
Qed.
Lemma join_spaced l : Forall spaced l -> has_char "-" (join "+" (map spaced_text l)) = false.
Proof.
  induction 1 as [|x l hx hl IH]; [reflexivity|]. destruct (strip_spaced x hx) as [_ [_ e]]. destruct l as [|y l]; [exact e|].
  change (join "+" (map spaced_text (x :: y :: l))) with (spaced_text x +++ "+" +++ join "+" (map spaced_text (y :: l))). rewrite !TextFacts.has_char_app, e, IH. reflexivity.
Qed.
Lemma spaced_bare l : Forall spaced l -> Forall tidy (map formula_text (map bare_formula l)).
Proof.
  induction 1 as [|[[a f] b] l [_ [_ [hf hw]]] hl IH]; [constructor|]. constructor; [|exact IH]. apply (tidy_numbered ("", f)). split; [left; reflexivity|]. split; assumption.
Qed.
Theorem blanks_ignored lstsq enum rs ps : rs <> [] -> ps <> [] -> Forall spaced rs -> Forall spaced ps ->
  balance_equation lstsq enum (spaced_equation rs ps) = balance_equation lstsq enum (equation_text (map bare_formula rs) (map bare_formula ps)).
Proof.
  intros n1 n2 h1 h2. assert (ne : forall (A B : Type) (f : A -> B) l, l <> [] -> map f l <> []) by (intros A B f [|? ?] k; [tauto|discriminate]).
  destruct (sides_tidy (map formula_text (map bare_formula rs)) (map formula_text (map bare_formula ps))) as [a [b [f1 [f2 f3]]]]; [do 2 apply ne; assumption|do 2 apply ne; assumption|apply spaced_bare; assumption|apply spaced_bare; assumption|].
  unfold balance_equation, reaction_system, spaced_equation, equation_text. rewrite f1, f2, f3. rewrite arrow_split by (apply join_spaced; exact h1). rewrite arrow_none by (apply join_spaced; exact h2).
  rewrite !split_spaced by assumption. reflexivity.
Qed.
Theorem spaced_case : let h2 := [Atom "H" "2"] in let o2 := [Atom "O" "2"] in let h2o := [Atom "H" "2"; Atom "O" ""] in
  Forall spaced [("", h2, ""); (" ", o2, String "009" "")] /\ spaced ("  ", h2o, String "010" "") /\
  spaced_equation [("", h2, ""); ("", o2, "")] [("", h2o, "")] = "H2+O2->H2O" /\
  balance_equation (fun _ _ => Ok [-1 # 1; -1 # 2]%Q) (nodup string_dec) "H2+O2->H2O" = Ok "2.0 H2 + 1.0 O2 -> 2.0 H2O".
Proof.
  cbn zeta. assert (W : forall l, Forall plain_atom l -> Forall well l) by (intros l h; apply one_group_well; left; exact h).
  split; [constructor; [|constructor; [|constructor]]|split; [|split; [reflexivity|vm_compute; reflexivity]]].
  - split; [exact I|]. split; [exact I|]. split; [discriminate|]. apply W. atoms_tac.
  - split; [split; [left; reflexivity|exact I]|]. split; [split; [right; cbn; lia|exact I]|]. split; [discriminate|]. apply W. atoms_tac.
  - split; [cbn; tauto|]. split; [split; [right; cbn; lia|exact I]|]. split; [discriminate|]. apply W. atoms_tac.
Qed.
