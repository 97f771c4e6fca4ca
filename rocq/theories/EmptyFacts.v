(** * EmptyFacts: a group with nothing in it *)
From Coq Require Import String Ascii List ZArith Bool Lia.
From Verif Require Import Py Balance BalanceSpec BalanceFacts NestedFacts.
Import ListNotations.
Local Open Scope string_scope.
Local Open Scope list_scope.

Theorem empty_group x n y : Forall plain_atom x -> Forall plain_atom y -> all_digits n ->
  exists d, parse_molecule (formula_text (x ++ [Group [] n] ++ y)) = Ok d /\ dictionary_of (x ++ [Group [] n] ++ y) d.
Proof.
  intros hx hy hn. pose proof (alnum_atoms x hx) as ax. pose proof (alnum_atoms y hy) as ay.
  assert (at_ : all_alnum (n +++ formula_text y)) by (apply alnum_app; split; [apply alnum_digits; exact hn|exact ay]).
  assert (run : parse_molecule (formula_text (x ++ [Group [] n] ++ y)) = Ok (get_chemical_dict [] (formula_text (x ++ [Group [] n] ++ y)) 1)).
  { rewrite group_text. cbn [formula_text concat_with fold_right append]. set (t := n +++ formula_text y) in *. fold t. unfold parse_molecule.
    assert (nl : has_char "010" (formula_text x +++ String "(" (String ")" t)) = false).
    { rewrite has_char_app. rewrite has_char_alnum by (odd || exact ax). cbn [has_char orb]. apply has_char_alnum; [odd|exact at_]. }
    rewrite nl. unfold paren_group. rewrite cut_first_app by (apply has_char_alnum; [odd|exact ax]).
    change (String ")" t) with ("" +++ String ")" t). rewrite cut_last_app by (apply has_char_alnum; [odd|exact at_]). reflexivity. }
  eexists. split; [exact run|]. pose proof (nodup_molecule _ _ run) as nd. split; [exact nd|].
  assert (ee : find_elements None (formula_text (x ++ [Group [] n] ++ y)) = map atom_pair (x ++ y)).
  { rewrite group_text, fe_atoms by (exact hx || (split; reflexivity)). cbn [close_match app]. rewrite map_app. f_equal.
    cbn [formula_text concat_with fold_right append find_elements close_match app]. replace (is_upper "(") with false by reflexivity. replace (is_upper ")") with false by reflexivity.
    rewrite fe_skip by exact hn. rewrite <- (app_nil (formula_text y)), fe_atoms by (exact hy || exact I). cbn [close_match app find_elements]. apply app_nil_r. }
  destruct (dict_of [] _ 1 _ ee) as (h1 & h2).
  assert (hxy : Forall plain_atom (x ++ y)) by (apply Forall_app; split; assumption).
  intros e k. rewrite (count_in _ e k nd), h1, h2, total_pairs by exact hxy. cbn [count find map In].
  assert (a1 : atoms (x ++ [Group [] n] ++ y) e = atoms (x ++ y) e) by (unfold atoms; rewrite !total_app; cbn; lia).
  assert (a2 : formula_symbols (x ++ [Group [] n] ++ y) = formula_symbols (x ++ y)) by (unfold formula_symbols; rewrite !flat_map_app; reflexivity).
  rewrite a1, a2, (symbols_plain _ hxy). unfold symbols. rewrite map_map. unfold count. cbn [find]. split.
  - intros ([[]|h] & ->). split; [exact h|lia].
  - intros (h & ->). split; [right; exact h|lia].
Qed.
