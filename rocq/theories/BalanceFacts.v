(** * BalanceFacts: facts about the balancing of chemical equations *)
From Coq Require Import String Ascii List ZArith QArith Qcanon Qabs Bool Lia.
From Verif Require Import Py Balance BalanceSpec.
Import ListNotations.
Local Open Scope string_scope.
Local Open Scope list_scope.

(** ** Strings *)
Lemma app_nil s : s +++ "" = s.
Proof. induction s as [|c s IH]; [reflexivity|]. cbn. rewrite IH. reflexivity. Qed.
Lemma app_ass a b c : (a +++ b) +++ c = a +++ b +++ c.
Proof. induction a as [|x a IH]; [reflexivity|]. cbn. rewrite IH. reflexivity. Qed.
Lemma concat_app {A} (f : A -> string) l l' : concat_with f (l ++ l') = concat_with f l +++ concat_with f l'.
Proof. induction l as [|x l IH]; [reflexivity|]. cbn [app concat_with fold_right]. rewrite app_ass. f_equal. exact IH. Qed.
Lemma total_app {A} (f : A -> Z) l l' : total f (l ++ l') = (total f l + total f l')%Z.
Proof. induction l as [|x l IH]; [reflexivity|]. cbn [app total fold_right] in *. fold (total f (l ++ l')) (total f l) in *. lia. Qed.

(** ** Characters *)
Lemma upper_iff c : is_upper c = true <-> capital c.
Proof. unfold is_upper, in_range, capital. rewrite andb_true_iff, !Nat.leb_le. tauto. Qed.
Lemma lower_iff c : is_lower c = true <-> small c.
Proof. unfold is_lower, in_range, small. rewrite andb_true_iff, !Nat.leb_le. tauto. Qed.
Lemma digit_iff c : is_digit c = true <-> digit c.
Proof. unfold is_digit, digit. rewrite andb_true_iff, !Nat.leb_le. tauto. Qed.
Lemma upper_not c : capital c -> is_digit c = false /\ is_lower c = false.
Proof.
  intro h. split; apply not_true_iff_false; intro k; [apply digit_iff in k|apply lower_iff in k]; unfold capital, digit, small in *; lia.
Qed.
Lemma digit_not c : digit c -> is_upper c = false /\ is_lower c = false.
Proof.
  intro h. split; apply not_true_iff_false; intro k; [apply upper_iff in k|apply lower_iff in k]; unfold capital, digit, small in *; lia.
Qed.
Lemma small_not c : small c -> is_upper c = false /\ is_digit c = false.
Proof.
  intro h. split; apply not_true_iff_false; intro k; [apply upper_iff in k|apply digit_iff in k]; unfold capital, digit, small in *; lia.
Qed.

(** ** Reading elements *)
(** Where a match ends in any case. *)
Definition stops (s : string) : Prop := match s with EmptyString => True | String c _ => is_digit c = false /\ is_lower c = false end.
Lemma fe_stop cur s : stops s -> find_elements cur s = close_match cur ++ find_elements None s.
Proof.
  destruct s as [|c s]; [destruct cur; reflexivity|]. intros [hd hl]. cbn [find_elements]. destruct cur as [[l d]|]; [|reflexivity].
  rewrite hd, hl. cbn [andb close_match app]. reflexivity.
Qed.
Lemma fe_digits n : forall l d s, all_digits n -> find_elements (Some (l, d)) (n +++ s) = find_elements (Some (l, d +++ n)) s.
Proof.
  induction n as [|c n IH]; intros l d s h; [rewrite app_nil; reflexivity|]. destruct h as [hc hn]. cbn [append find_elements].
  rewrite (proj2 (digit_iff c) hc). rewrite IH by exact hn. rewrite app_ass. reflexivity.
Qed.
Definition atom_pair (i : item) : string * string := match i with Atom s n => (s, n) | Group _ _ => ("", "") end.
Lemma fe_atom cur a s : plain_atom a -> stops s -> find_elements cur (item_text a +++ s) = close_match cur ++ atom_pair a :: find_elements None s.
Proof.
  destruct a as [sy n|]; [|intros []]. intros [hs hn] hst. cbn [item_text atom_pair].
  assert (fin : forall l, find_elements (Some (l, "")) (n +++ s) = (l, n) :: find_elements None s).
  { intro l. rewrite fe_digits by exact hn. rewrite fe_stop by exact hst. reflexivity. }
  destruct hs as [[c [hc ->]]|[c [d [hc [hd ->]]]]]; destruct (upper_not c hc) as [h1 h2].
  - cbn [append find_elements]. assert (e : (match cur with Some (l, d) => if is_digit c then Some (l, d +++ String c "") else if is_lower c && String.eqb d "" && Nat.eqb (String.length l) 1 then Some (l +++ String c "", "") else None | None => None end) = None).
    { destruct cur as [[l d]|]; [rewrite h1, h2; reflexivity|reflexivity]. }
    rewrite e, (proj2 (upper_iff c) hc), fin. reflexivity.
  - cbn [append find_elements]. assert (e : (match cur with Some (l, d) => if is_digit c then Some (l, d +++ String c "") else if is_lower c && String.eqb d "" && Nat.eqb (String.length l) 1 then Some (l +++ String c "", "") else None | None => None end) = None).
    { destruct cur as [[l d']|]; [rewrite h1, h2; reflexivity|reflexivity]. }
    rewrite e, (proj2 (upper_iff c) hc). destruct (small_not d hd) as [_ h3]. rewrite h3, (proj2 (lower_iff d) hd). cbn [andb String.eqb String.length Nat.eqb append]. rewrite fin. reflexivity.
Qed.
Lemma atom_stops a s : plain_atom a -> stops (item_text a +++ s).
Proof.
  destruct a as [sy n|]; [|intros []]. intros [hs _]. destruct hs as [[c [hc ->]]|[c [d [hc [hd ->]]]]]; cbn; apply upper_not; exact hc.
Qed.
Lemma atoms_stops l s : Forall plain_atom l -> stops s -> stops (formula_text l +++ s).
Proof. intros h hs. destruct h as [|a l ha hl]; [exact hs|]. unfold formula_text. cbn [concat_with fold_right]. rewrite app_ass. apply atom_stops. exact ha. Qed.
Lemma fe_atoms l : forall cur s, Forall plain_atom l -> stops s -> find_elements cur (formula_text l +++ s) = close_match cur ++ map atom_pair l ++ find_elements None s.
Proof.
  induction l as [|a l IH]; intros cur s h hs; [apply fe_stop; exact hs|]. inversion h as [|? ? ha hl]; subst.
  change (formula_text (a :: l) +++ s) with ((item_text a +++ formula_text l) +++ s). rewrite app_ass, fe_atom by (assumption || apply atoms_stops; assumption).
  rewrite (IH None) by assumption. reflexivity.
Qed.

(** ** Counting *)
Lemma digits_value_take s : forall acc n, all_digits s -> fst (fst (take_digits acc n s)) = digits_value acc s.
Proof.
  induction s as [|c s IH]; intros acc n h; [reflexivity|]. destruct h as [hc hs]. cbn [take_digits digits_value].
  rewrite (proj2 (digit_iff c) hc). rewrite IH by exact hs. reflexivity.
Qed.
Definition pair_value (p : string * string) : Z := if String.eqb (snd p) "" then 1 else int_of_digits (snd p).
Lemma pair_value_atom s n : all_digits n -> pair_value (s, n) = subscript_value n.
Proof. intro h. unfold pair_value, int_of_digits. cbn [snd]. destruct n as [|c n]; [reflexivity|]. cbn [String.eqb]. apply (digits_value_take (String c n)). exact h. Qed.
Lemma count_add d k n e : count (add_count d k n) e = (count d e + if String.eqb k e then n else 0)%Z.
Proof.
  induction d as [|[k' m] d IH]; unfold count in *; cbn [add_count find fst snd].
  - destruct (String.eqb k e); cbn [snd]; lia.
  - destruct (String.eqb_spec k' k) as [->|hk]; cbn [find fst snd].
    + destruct (String.eqb_spec k e); [reflexivity|]. destruct (find _ d) as [[? ?]|]; cbn [snd]; lia.
    + destruct (String.eqb_spec k' e) as [->|he]; [|exact IH]. destruct (String.eqb_spec k e) as [->|]; [tauto|]. cbn [snd]. lia.
Qed.
Lemma keys_add d k n e : In e (map fst (add_count d k n)) <-> In e (map fst d) \/ e = k.
Proof.
  induction d as [|[k' m] d IH]; cbn [add_count map fst In]; [intuition congruence|].
  destruct (String.eqb_spec k' k) as [->|hk]; cbn [map fst In]; [intuition congruence|]. rewrite IH. tauto.
Qed.
Lemma fold_count m l : forall d e,
  count (fold_left (fun d e => let '(ele, digits) := e in if String.eqb digits "" then add_count d ele (1 * m) else add_count d ele (int_of_digits digits * m)) l d) e =
  (count d e + total (fun p => if String.eqb (fst p) e then pair_value p else 0) l * m)%Z.
Proof.
  induction l as [|[s n] l IH]; intros d e; cbn [fold_left]; [cbn [total fold_right]; lia|]. rewrite IH.
  change (total ?f (?x :: l)) with (f x + total f l)%Z. cbv beta. unfold pair_value at 2. cbn [fst snd].
  destruct (String.eqb n ""); rewrite count_add; destruct (String.eqb s e); ring.
Qed.
Lemma fold_keys m l : forall d e,
  In e (map fst (fold_left (fun d e => let '(ele, digits) := e in if String.eqb digits "" then add_count d ele (1 * m) else add_count d ele (int_of_digits digits * m)) l d)) <->
  In e (map fst d) \/ In e (map fst l).
Proof.
  induction l as [|[s n] l IH]; intros d e; cbn [fold_left map In fst]; [tauto|]. rewrite IH.
  destruct (String.eqb n ""); rewrite keys_add; intuition.
Qed.
Lemma total_pairs l e : Forall plain_atom l -> total (fun p => if String.eqb (fst p) e then pair_value p else 0%Z) (map atom_pair l) = atoms l e.
Proof.
  intro h. unfold atoms. induction h as [|a l ha hl IH]; [reflexivity|]. cbn [map total fold_right]. unfold total in IH. rewrite IH. f_equal.
  destruct a as [s n|]; [|destruct ha]. cbn [atom_pair fst item_atoms]. rewrite pair_value_atom by apply ha. reflexivity.
Qed.
(** Symbols written in a formula. *)
Definition symbols (l : formula) : list string := map (fun a => fst (atom_pair a)) l.
Lemma dict_flat d g m : Forall plain_atom g ->
  (forall e, count (get_chemical_dict d (formula_text g) m) e = (count d e + atoms g e * m)%Z) /\
  (forall e, In e (map fst (get_chemical_dict d (formula_text g) m)) <-> In e (map fst d) \/ In e (symbols g)).
Proof.
  intro h. unfold get_chemical_dict.
  assert (ee : find_elements None (formula_text g) = map atom_pair g).
  { rewrite <- (app_nil (formula_text g)), fe_atoms by (exact h || exact I). cbn [close_match app find_elements]. apply app_nil_r. }
  rewrite ee. split; intro e; [rewrite fold_count, total_pairs by exact h; reflexivity|]. rewrite fold_keys. unfold symbols. rewrite map_map. tauto.
Qed.
Lemma dict_paren d g m : Forall plain_atom g ->
  (forall e, count (get_chemical_dict d ("(" +++ formula_text g +++ ")") m) e = (count d e + atoms g e * m)%Z) /\
  (forall e, In e (map fst (get_chemical_dict d ("(" +++ formula_text g +++ ")") m)) <-> In e (map fst d) \/ In e (symbols g)).
Proof.
  intro h. unfold get_chemical_dict.
  assert (ee : find_elements None ("(" +++ formula_text g +++ ")") = map atom_pair g).
  { change ("(" +++ formula_text g +++ ")") with (String "(" (formula_text g +++ ")")). cbn [find_elements].
    replace (is_upper "(") with false by reflexivity. cbn [close_match app]. rewrite fe_atoms; [|exact h|split; reflexivity]. cbn. apply app_nil_r. }
  rewrite ee. split; intro e; [rewrite fold_count, total_pairs by exact h; reflexivity|]. rewrite fold_keys. unfold symbols. rewrite map_map. tauto.
Qed.

(** ** Parentheses *)
(** The characters of plain atoms. *)
Definition alnum (c : ascii) : Prop := capital c \/ small c \/ digit c.
Fixpoint all_alnum (s : string) : Prop := match s with EmptyString => True | String c s => alnum c /\ all_alnum s end.
Lemma alnum_app s s' : all_alnum (s +++ s') <-> all_alnum s /\ all_alnum s'.
Proof. induction s as [|c s IH]; cbn; [tauto|]. rewrite IH. tauto. Qed.
Lemma alnum_digits s : all_digits s -> all_alnum s.
Proof. induction s as [|c s IH]; cbn; [tauto|]. intros [h1 h2]. split; [right; right; exact h1|auto]. Qed.
Lemma alnum_atoms l : Forall plain_atom l -> all_alnum (formula_text l).
Proof.
  induction 1 as [|a l ha hl IH]; [exact I|]. unfold formula_text. cbn [concat_with fold_right]. apply alnum_app. split; [|exact IH].
  destruct a as [s n|]; [|destruct ha]. destruct ha as [hs hn]. apply alnum_app. split; [|apply alnum_digits; exact hn].
  destruct hs as [[c [hc ->]]|[c [d [hc [hd ->]]]]]; cbn; unfold alnum; tauto.
Qed.
(** A character that no letter or digit equals. *)
Definition odd_char (c : ascii) : Prop := ~ alnum c.
Lemma alnum_neq c a : odd_char c -> alnum a -> Ascii.eqb a c = false.
Proof. intros h ha. apply Ascii.eqb_neq. intros ->. exact (h ha). Qed.
Lemma has_char_alnum c s : odd_char c -> all_alnum s -> has_char c s = false.
Proof. intros h. induction s as [|a s IH]; intro hs; [reflexivity|]. destruct hs as [ha hs]. cbn. rewrite (alnum_neq c a h ha), IH by exact hs. reflexivity. Qed.
Lemma has_char_app c s s' : has_char c (s +++ s') = has_char c s || has_char c s'.
Proof. induction s as [|a s IH]; [reflexivity|]. cbn. rewrite IH. apply orb_assoc. Qed.
Lemma cut_first_none c s : has_char c s = false -> cut_first c s = None.
Proof. induction s as [|a s IH]; [reflexivity|]. cbn. intro h. apply orb_false_iff in h. destruct h as [h1 h2]. rewrite h1, IH by exact h2. reflexivity. Qed.
Lemma cut_first_app c s r : has_char c s = false -> cut_first c (s +++ String c r) = Some (s, r).
Proof.
  induction s as [|a s IH]; intro h; [cbn; rewrite Ascii.eqb_refl; reflexivity|]. cbn in h. apply orb_false_iff in h. destruct h as [h1 h2].
  cbn. rewrite h1. rewrite IH by exact h2. reflexivity.
Qed.
Lemma cut_last_none c s : has_char c s = false -> cut_last c s = None.
Proof. induction s as [|a s IH]; [reflexivity|]. cbn. intro h. apply orb_false_iff in h. destruct h as [h1 h2]. rewrite IH by exact h2. rewrite h1. reflexivity. Qed.
Lemma cut_last_app c s r : has_char c r = false -> cut_last c (s +++ String c r) = Some (s, r).
Proof.
  intro h. induction s as [|a s IH]; cbn [append cut_last]; [rewrite cut_last_none by exact h; rewrite Ascii.eqb_refl; reflexivity|].
  rewrite IH. reflexivity.
Qed.
Ltac odd := unfold odd_char, alnum, capital, small, digit; cbn; lia.
Lemma any_special s : all_alnum s -> any_char regex_special s = false.
Proof.
  induction s as [|a s IH]; intro h; [reflexivity|]. destruct h as [ha hs]. cbn [any_char]. rewrite IH by exact hs. rewrite orb_false_r.
  unfold regex_special. apply orb_false_iff. split; [|apply Ascii.eqb_neq; intros ->; revert ha; unfold alnum, capital, small, digit; cbn; lia].
  apply not_true_iff_false. intro k. cbn [has_char] in k. repeat rewrite orb_true_iff in k.
  repeat match type of k with _ \/ _ => destruct k as [k|k] end; try discriminate; apply Ascii.eqb_eq in k; subst a; revert ha; unfold alnum, capital, small, digit; cbn; lia.
Qed.
Lemma drop_digits_atoms y : Forall plain_atom y -> drop_digits (formula_text y) = formula_text y.
Proof.
  intro h. pose proof (atoms_stops y "" h I) as hs. rewrite app_nil in hs. destruct (formula_text y) as [|c s]; [reflexivity|]. destruct hs as [hd _]. cbn. rewrite hd. reflexivity.
Qed.
Lemma symbols_app a b : symbols (a ++ b) = symbols a ++ symbols b.
Proof. apply map_app. Qed.
Lemma symbols_plain l : Forall plain_atom l -> formula_symbols l = symbols l.
Proof. induction 1 as [|a l ha hl IH]; [reflexivity|]. unfold formula_symbols, symbols in *. cbn [flat_map map]. rewrite IH. destruct a; [reflexivity|destruct ha]. Qed.
Lemma text_nonempty g : Forall plain_atom g -> g <> [] -> formula_text g <> "".
Proof.
  intros h n. destruct h as [|a l ha hl]; [tauto|]. destruct a as [s m|]; [|destruct ha]. destruct ha as [[[c [hc ->]]|[c [d [hc [hd ->]]]]] _]; discriminate.
Qed.
Lemma flat_counts f : Forall plain_atom f -> exists d, parse_molecule (formula_text f) = Ok d /\
  (forall e, count d e = atoms f e) /\ (forall e, In e (map fst d) <-> In e (formula_symbols f)).
Proof.
  intro h. pose proof (alnum_atoms f h) as ha. destruct (dict_flat [] f 1 h) as [h1 h2]. unfold parse_molecule.
  rewrite has_char_alnum by (odd || exact ha). unfold paren_group. rewrite cut_first_none by (apply has_char_alnum; [odd|exact ha]).
  eexists. split; [reflexivity|]. split; intro e; [rewrite h1; cbn [count find]; lia|]. rewrite h2, symbols_plain by exact h. cbn [map In]. tauto.
Qed.
Lemma group_text x g n y : formula_text (x ++ [Group g n] ++ y) = formula_text x +++ String "(" (formula_text g +++ String ")" (n +++ formula_text y)).
Proof. unfold formula_text. rewrite concat_app. f_equal. cbn [app concat_with fold_right item_text]. rewrite !app_ass. cbn [append]. reflexivity. Qed.
(** What follows the group. *)
Lemma group_parsed x g n y : Forall plain_atom x -> Forall plain_atom g -> g <> [] -> Forall plain_atom y -> all_digits n ->
  parse_molecule (formula_text (x ++ [Group g n] ++ y)) =
  (let* multiplier := int_of_next (n +++ formula_text y) in
   Ok (get_chemical_dict (get_chemical_dict [] ("(" +++ formula_text g +++ ")") multiplier)
         (if starts_digit (n +++ formula_text y) then formula_text x +++ drop_digits (n +++ formula_text y) else formula_text (x ++ [Group g n] ++ y)) 1)).
Proof.
  intros hx hg hne hy hn. pose proof (alnum_atoms x hx) as ax. pose proof (alnum_atoms g hg) as ag. pose proof (alnum_atoms y hy) as ay.
  assert (at_ : all_alnum (n +++ formula_text y)) by (apply alnum_app; split; [apply alnum_digits; exact hn|exact ay]).
  rewrite group_text. set (t := n +++ formula_text y) in *.
  unfold parse_molecule.
  assert (nl : has_char "010" (formula_text x +++ String "(" (formula_text g +++ String ")" t)) = false).
  { rewrite has_char_app. rewrite has_char_alnum by (odd || exact ax). cbn [has_char orb]. replace (Ascii.eqb "(" "010") with false by reflexivity. cbn [orb].
    rewrite has_char_app. rewrite has_char_alnum by (odd || exact ag). cbn [has_char orb]. replace (Ascii.eqb ")" "010") with false by reflexivity. cbn [orb].
    apply has_char_alnum; [odd|exact at_]. }
  rewrite nl. unfold paren_group. rewrite cut_first_app by (apply has_char_alnum; [odd|exact ax]).
  rewrite cut_last_app by (apply has_char_alnum; [odd|exact at_]).
  destruct (String.eqb_spec (formula_text g) "") as [e|_]; [destruct (text_nonempty g hg hne e)|].
  replace (formula_text x +++ String "(" (formula_text g +++ String ")" t)) with
    ((formula_text x +++ String "(" (formula_text g)) +++ String ")" t) by (rewrite app_ass; reflexivity).
  rewrite cut_first_app.
  2: { rewrite has_char_app. rewrite has_char_alnum by (odd || exact ax). cbn [has_char orb]. apply has_char_alnum; [odd|exact ag]. }
  rewrite any_special by exact ag. reflexivity.
Qed.
(** The group is taken as many times as the first digit says. *)
Theorem group_counts x g c n y : Forall plain_atom x -> Forall plain_atom g -> g <> [] -> Forall plain_atom y -> digit c -> all_digits n ->
  exists d, parse_molecule (formula_text (x ++ [Group g (String c n)] ++ y)) = Ok d /\
  (forall e, count d e = atoms (x ++ [Group g (String c "")] ++ y) e) /\ (forall e, In e (map fst d) <-> In e (formula_symbols (x ++ [Group g (String c n)] ++ y))).
Proof.
  intros hx hg hne hy hc hn. rewrite group_parsed by (assumption || (split; assumption)). cbn [append int_of_next starts_digit drop_digits]. rewrite (proj2 (digit_iff c) hc). cbn [bind].
  assert (dd : drop_digits (n +++ formula_text y) = formula_text y).
  { clear - hn hy. induction n as [|a n IH]; [apply drop_digits_atoms; exact hy|]. destruct hn as [ha hn]. cbn. rewrite (proj2 (digit_iff a) ha). apply IH. exact hn. }
  rewrite dd. replace (formula_text x +++ formula_text y) with (formula_text (x ++ y)) by apply concat_app.
  change ("(" +++ formula_text g +++ ")") with ("(" +++ formula_text g +++ ")").
  destruct (dict_paren [] g (digit_val c) hg) as [g1 g2]. set (dg := get_chemical_dict [] _ _) in *.
  destruct (dict_flat dg (x ++ y) 1 (proj2 (Forall_app _ _ _) (conj hx hy))) as [f1 f2].
  eexists. split; [reflexivity|]. split; intro e.
  + rewrite f1, g1. cbn [count find]. unfold atoms. rewrite !total_app. cbn [total fold_right item_atoms]. fold (total (item_atoms e) g).
    replace (subscript_value (String c "")) with (digit_val c) by (cbn [subscript_value digits_value]; unfold digit_val; lia). lia.
  + rewrite f2, g2. cbn [map In]. unfold formula_symbols. rewrite !flat_map_app, symbols_app. cbn [flat_map item_symbols]. rewrite app_nil_r.
    fold (formula_symbols x) (formula_symbols y) (formula_symbols g). rewrite !symbols_plain by assumption. rewrite !in_app_iff. tauto.
Qed.
Theorem molecule_counts f : one_group f -> exists d, parse_molecule (formula_text f) = Ok d /\
  (forall e, count d e = atoms f e) /\ (forall e, In e (map fst d) <-> In e (formula_symbols f)).
Proof.
  intros [h|[x [g [n [y [-> [hx [hg [hne [hy [c [hc ->]]]]]]]]]]]]; [apply flat_counts; exact h|]. apply group_counts; assumption || exact I.
Qed.
(** A group without a subscript is refused. *)
Theorem bare_group x g y : Forall plain_atom x -> Forall plain_atom g -> g <> [] -> Forall plain_atom y ->
  parse_molecule (formula_text (x ++ [Group g ""] ++ y)) = Raise (match y with [] => EIndexError | _ => EValueError end).
Proof.
  intros hx hg hne hy. rewrite group_parsed by (assumption || exact I). cbn [append]. destruct hy as [|a y ha hy]; [reflexivity|].
  pose proof (atom_stops a (formula_text y) ha) as hs. change (formula_text (a :: y)) with (item_text a +++ formula_text y).
  destruct (item_text a +++ formula_text y) as [|c s] eqn:e.
  - destruct a as [sy m|]; [|destruct ha]. destruct ha as [[[c [hc ->]]|[c [d [hc [hd ->]]]]] _]; discriminate.
  - destruct hs as [hs _]. cbn [int_of_next]. rewrite hs. reflexivity.
Qed.
(** ** The dictionary *)
Lemma nodup_add d k n : NoDup (map fst d) -> NoDup (map fst (add_count d k n)).
Proof.
  induction d as [|[k' m] d IH]; intro h; cbn [add_count map fst]; [constructor; [intros []|constructor]|]. inversion h as [|? ? h1 h2]; subst.
  destruct (String.eqb_spec k' k) as [->|hk]; cbn [map fst]; [exact h|]. constructor; [|apply IH; exact h2]. rewrite keys_add. intros [i|i]; [exact (h1 i)|congruence].
Qed.
Lemma nodup_dict d s m : NoDup (map fst d) -> NoDup (map fst (get_chemical_dict d s m)).
Proof.
  unfold get_chemical_dict. generalize (find_elements None s). intro l. revert d. induction l as [|[e n] l IH]; intros d h; [exact h|]. cbn [fold_left]. apply IH. destruct (String.eqb n ""); apply nodup_add; exact h.
Qed.
Lemma nodup_molecule s d : parse_molecule s = Ok d -> NoDup (map fst d).
Proof.
  unfold parse_molecule. destruct (has_char "010" s); [discriminate|]. destruct (paren_group s) as [[[x i] y]|].
  - destruct (cut_first ")" s) as [[a r]|]; [|discriminate]. destruct (int_of_next r) as [m|]; [|discriminate]. cbn [bind]. destruct (any_char regex_special i); [discriminate|].
    intro h. injection h as <-. apply nodup_dict, nodup_dict. constructor.
  - intro h. injection h as <-. apply nodup_dict. constructor.
Qed.
Lemma count_in d e n : NoDup (map fst d) -> (In (e, n) d <-> In e (map fst d) /\ n = count d e).
Proof.
  induction d as [|[k m] d IH]; intro h; [cbn; tauto|]. inversion h as [|? ? h1 h2]; subst. specialize (IH h2). unfold count in *. cbn [map fst find In snd] in *.
  destruct (String.eqb_spec k e) as [->|hk]; cbn [snd].
  - split; [intros [k|k]; [injection k as ->; tauto|]|intros [_ ->]; tauto]. exfalso. apply h1. apply (in_map fst) in k. exact k.
  - rewrite IH. split; [intros [k'|[i j]]; [congruence|tauto]|]. intros [[i|i] j]; [contradiction|tauto].
Qed.
Theorem molecule_dictionary f : one_group f -> exists d, parse_molecule (formula_text f) = Ok d /\ dictionary_of f d.
Proof.
  intro h. destruct (molecule_counts f h) as [d [hd [h1 h2]]]. exists d. split; [exact hd|]. pose proof (nodup_molecule _ _ hd) as nd. split; [exact nd|].
  intros e n. rewrite (count_in d e n nd), h1, h2. tauto.
Qed.
