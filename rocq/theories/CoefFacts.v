(** * CoefFacts: numbers written before the formulas of an equation *)
From Coq Require Import String Ascii List ZArith QArith Bool Lia.
From Verif Require Import Py Balance BalanceSpec CoefSpec BalanceFacts NestedFacts ReactionFacts.
From Verif Require TextFacts.
Import ListNotations.
Local Open Scope string_scope.
Local Open Scope list_scope.

(** ** Parsing skips what comes before *)
Definition skip_char (c : ascii) : Prop := digit c \/ c = "."%char \/ c = " "%char.
Fixpoint skip (s : string) : Prop := match s with EmptyString => True | String c s => skip_char c /\ skip s end.
Lemma skip_not c a : skip_char a -> ~ skip_char c -> Ascii.eqb a c = false.
Proof. intros h k. apply Ascii.eqb_neq. intros ->. exact (k h). Qed.
Lemma skip_has c s : ~ skip_char c -> skip s -> has_char c s = false.
Proof. intro k. induction s as [|a s IH]; intro h; [reflexivity|]. destruct h as [h1 h2]. cbn [has_char]. rewrite IH, (skip_not c a h1 k) by exact h2. reflexivity. Qed.
Ltac noskip := unfold skip_char, digit; cbn; intros [?|[?|?]]; [lia|discriminate|discriminate].
Lemma skip_upper a : skip_char a -> is_upper a = false.
Proof. intros [h|[->| ->]]; [apply (digit_not a h)|reflexivity|reflexivity]. Qed.
Lemma fe_skip pre s : skip pre -> find_elements None (pre +++ s) = find_elements None s.
Proof. induction pre as [|a pre IH]; intro h; [reflexivity|]. destruct h as [h1 h2]. cbn [append find_elements close_match app]. rewrite (skip_upper a h1). exact (IH h2). Qed.
Lemma dict_skip d pre s m : skip pre -> get_chemical_dict d (pre +++ s) m = get_chemical_dict d s m.
Proof. intro h. unfold get_chemical_dict. rewrite fe_skip by exact h. reflexivity. Qed.
Lemma group_skip pre s : skip pre -> paren_group (pre +++ s) = match paren_group s with Some (x, i, y) => Some (pre +++ x, i, y) | None => None end.
Proof.
  intro h. unfold paren_group. rewrite cut_before by (apply skip_has; [noskip|exact h]). destruct (cut_first "(" s) as [[x r]|]; [|reflexivity].
  destruct (cut_last ")" r) as [[i y]|]; [|reflexivity]. destruct (String.eqb i ""); reflexivity.
Qed.
Lemma parse_skip pre s : skip pre -> parse_molecule (pre +++ s) = parse_molecule s.
Proof.
  intro h. unfold parse_molecule. rewrite TextFacts.has_char_app, (skip_has "010" pre) by (noskip || exact h). cbn [orb]. rewrite group_skip by exact h.
  rewrite cut_before by (apply skip_has; [noskip|exact h]). destruct (has_char "010" s); [reflexivity|].
  destruct (paren_group s) as [[[x i] y]|]; [|rewrite dict_skip by exact h; reflexivity]. destruct (cut_first ")" s) as [[a b]|]; [|reflexivity].
  destruct (int_of_next b) as [m|e]; [|reflexivity]. cbn [bind]. destruct (any_char regex_special i); [reflexivity|].
  destruct (starts_digit y); [rewrite app_ass|]; rewrite dict_skip by exact h; reflexivity.
Qed.

(** ** Splitting the equation *)
Definition tidy (s : string) : Prop := lstrip s = s /\ rstrip s = s /\ s <> "" /\ has_char "+" s = false /\ has_char "-" s = false.
Lemma rstrip_app x y : rstrip y = y -> y <> "" -> rstrip (x +++ y) = x +++ y.
Proof.
  intros h k. induction x as [|a x IH]; [exact h|]. cbn [append rstrip]. rewrite IH. destruct (x +++ y) eqn:e; [destruct x; [exact (False_ind _ (k e))|discriminate]|].
  cbn [String.eqb]. rewrite andb_false_r. reflexivity.
Qed.
Lemma rstrip_space s : rstrip (s +++ " ") = rstrip s.
Proof. induction s as [|a s IH]; [reflexivity|]. cbn [append rstrip]. rewrite IH. reflexivity. Qed.
Lemma strip_tidy pre s post : pad pre -> pad post -> tidy s -> strip (pre +++ s +++ post) = s.
Proof.
  intros h1 h2 [t1 [t2 [t3 _]]]. unfold strip. assert (e : lstrip (pre +++ s +++ post) = lstrip (s +++ post)) by (destruct h1 as [-> | ->]; reflexivity). rewrite e. clear e.
  assert (e : lstrip (s +++ post) = s +++ post).
  { destruct s as [|a s]; [tauto|]. cbn [append lstrip] in *. destruct (is_space a); [|reflexivity]. exfalso.
    assert (L : forall u, (String.length (lstrip u) <= String.length u)%nat) by (induction u as [|b u IH]; [cbn; lia|]; cbn [lstrip]; destruct (is_space b); cbn [String.length] in *; lia).
    pose proof (L s) as k. rewrite t1 in k. cbn [String.length] in k. lia. }
  rewrite e. destruct h2 as [-> | ->]; [rewrite app_nil; exact t2|rewrite rstrip_space; exact t2].
Qed.
Lemma split_tidy l : forall pre post, l <> [] -> Forall tidy l -> pad pre -> pad post -> map strip (split_on "+" (pre +++ join " + " l +++ post)) = l.
Proof.
  assert (np : forall s, pad s -> has_char "+" s = false) by (intros s [-> | ->]; reflexivity).
  induction l as [|x l IH]; intros pre post hn hf h1 h2; [tauto|]. inversion hf as [|? ? hx hl]; subst.
  assert (hp : has_char "+" x = false) by apply hx. destruct l as [|y l].
  - cbn [join]. rewrite TextFacts.split_none by (rewrite !TextFacts.has_char_app, hp, !np by assumption; reflexivity). cbn [map]. rewrite strip_tidy by assumption. reflexivity.
  - change (join " + " (x :: y :: l)) with (x +++ " + " +++ join " + " (y :: l)).
    replace (pre +++ (x +++ " + " +++ join " + " (y :: l)) +++ post) with ((pre +++ x +++ " ") +++ String "+" (" " +++ join " + " (y :: l) +++ post)) by (rewrite !app_ass; reflexivity).
    rewrite TextFacts.split_sep by (rewrite !TextFacts.has_char_app, hp, np by assumption; reflexivity). cbn [map].
    rewrite strip_tidy by (assumption || (right; reflexivity)). f_equal. apply IH; [discriminate|assumption|right; reflexivity|assumption].
Qed.
Lemma join_dash l : Forall tidy l -> has_char "-" (join " + " l) = false.
Proof.
  induction 1 as [|x l hx hl IH]; [reflexivity|]. assert (h : has_char "-" x = false) by apply hx.
  destruct l as [|y l]; [exact h|]. change (join " + " (x :: y :: l)) with (x +++ " + " +++ join " + " (y :: l)). rewrite !TextFacts.has_char_app, h, IH. reflexivity.
Qed.
Lemma sides_tidy l r : l <> [] -> r <> [] -> Forall tidy l -> Forall tidy r ->
  exists a b, split_arrow (join " + " l +++ " -> " +++ join " + " r) = [a; b] /\ map strip (split_on "+" a) = l /\ map strip (split_on "+" b) = r.
Proof.
  intros n1 n2 h1 h2. exists (join " + " l +++ " "), (" " +++ join " + " r).
  replace (join " + " l +++ " -> " +++ join " + " r) with ((join " + " l +++ " ") +++ "->" +++ (" " +++ join " + " r)) by (rewrite !app_ass; reflexivity).
  rewrite arrow_split by (rewrite TextFacts.has_char_app, join_dash by exact h1; reflexivity). rewrite arrow_none by (cbn; apply join_dash; exact h2).
  split; [reflexivity|]. split; [exact (split_tidy _ "" " " n1 h1 (or_introl eq_refl) (or_intror eq_refl))|].
  rewrite <- (app_nil (join " + " r)) at 1. exact (split_tidy _ " " "" n2 h2 (or_intror eq_refl) (or_introl eq_refl)).
Qed.

(** ** The texts of numbered formulas *)
Lemma plainly_fine s : all_plainly s -> fine s.
Proof. induction s as [|c s IH]; [tauto|]. cbn. unfold plainly, fine_char. tauto. Qed.
Lemma wells_text f : f <> [] -> Forall well f -> formula_text f <> "".
Proof.
  intros h k. destruct f as [|i f]; [tauto|]. inversion k as [|? ? hi _]; subst. rewrite text_cons. destruct i as [s n|g n]; [|discriminate].
  destruct hi as [[[c [_ ->]]|[c [d [_ [_ ->]]]]] _]; discriminate.
Qed.
Lemma number_skip n : number_text n -> skip n.
Proof. induction n as [|c n IH]; [tauto|]. cbn. unfold skip_char. tauto. Qed.
Lemma skip_app a b : skip (a +++ b) <-> skip a /\ skip b.
Proof. induction a as [|c a IH]; cbn; [tauto|]. rewrite IH. tauto. Qed.
Lemma coefficient_skip s : coefficient_text s -> skip s.
Proof.
  intros [->|[n [_ [h [->| ->]]]]]; [exact I|apply number_skip; exact h|]. apply skip_app. split; [apply number_skip; exact h|]. cbn. unfold skip_char. tauto.
Qed.
Lemma space_fine a : fine_char a -> is_space a = false.
Proof. intro h. pose proof (fine_blank (String a "") (conj h I)) as k. cbn in k. rewrite andb_true_r in k. apply negb_true_iff in k. exact k. Qed.
Lemma tidy_numbered x : numbered x -> tidy (numbered_text x).
Proof.
  destruct x as [s f]. intros [hs [hf hw]]. unfold numbered_text. cbn [fst snd] in *. pose proof (plainly_fine _ (wells_plainly f hw)) as ff. pose proof (wells_text f hf hw) as ne.
  pose proof (coefficient_skip s hs) as sk. unfold tidy.
  split; [|split; [apply rstrip_app; [apply TextFacts.rstrip_free, fine_blank; exact ff|exact ne]|split; [destruct s; [exact ne|discriminate]|]]].
  - destruct hs as [->|[n [hn [h hs]]]].
    + cbn [append]. apply lstrip_blank, fine_blank. exact ff.
    + destruct n as [|c n]; [tauto|]. destruct h as [hc _].
      assert (k : is_space c = false) by (destruct hc as [hc| ->]; [apply space_fine; left; unfold alnum; tauto|reflexivity]).
      assert (e : exists t, s = String c t) by (destruct s as [|a s]; [destruct hs as [hs|hs]; discriminate|exists s; destruct hs as [hs|hs]; injection hs; intros; subst; reflexivity]).
      destruct e as [t ->]. cbn [append lstrip]. rewrite k. reflexivity.
  - rewrite !TextFacts.has_char_app. split; rewrite skip_has by (noskip || exact sk); cbn [orb]; apply fine_has; try exact ff; outside.
Qed.

(** ** Balancing *)
Lemma parse_sides rs : Forall numbered rs -> parse_equation_side (map numbered_text rs) = parse_equation_side (map formula_text (map snd rs)).
Proof.
  unfold parse_equation_side. induction 1 as [|x rs hx hr IH]; [reflexivity|]. cbn [map mapM]. rewrite IH. unfold numbered_text at 1. rewrite parse_skip by (apply coefficient_skip; apply hx). reflexivity.
Qed.
Lemma bare x : numbered x -> numbered ("", snd x).
Proof. intros [_ h]. split; [left; reflexivity|exact h]. Qed.
Lemma bare_text fs : map numbered_text (map (fun f => ("", f)) fs) = map formula_text fs.
Proof. rewrite map_map. reflexivity. Qed.
Lemma bare_tidy rs : Forall numbered rs -> Forall tidy (map formula_text (map snd rs)).
Proof. induction 1 as [|x rs hx hr IH]; [constructor|]. constructor; [exact (tidy_numbered _ (bare x hx))|exact IH]. Qed.
(** What is printed for a side. *)
Lemma show_side_error coeff : forall a b e, length a = length b -> show_side coeff a = Raise e -> show_side coeff b = Raise e.
Proof.
  unfold show_side. intros a b e hl h.
  enough (K : forall coeff a b, length a = length b -> match mapM (fun p : expo * string => let* t := str_expo (fst p) in Ok (t +++ " " +++ snd p)) (combine coeff a) with
    | Ok _ => True | Raise e => mapM (fun p : expo * string => let* t := str_expo (fst p) in Ok (t +++ " " +++ snd p)) (combine coeff b) = Raise e end).
  { specialize (K coeff a b hl). destruct (mapM _ (combine coeff a)) as [l|e']; [discriminate|]. injection h as <-. rewrite K. reflexivity. }
  clear. induction coeff as [|k ks IH]; intros a b hl; [exact I|]. destruct a as [|x a]; destruct b as [|y b]; try discriminate; [exact I|].
  cbn [combine mapM fst snd]. destruct (str_expo k) as [t|e]; [|reflexivity]. cbn [bind]. specialize (IH a b ltac:(cbn in hl; lia)). destruct (mapM _ (combine ks a)); [exact I|]. cbn [bind]. rewrite IH. reflexivity.
Qed.
Lemma show_side_names coeff : forall a t, show_side coeff a = Ok t -> exists ks, t = printed_side ks a /\ forall b, length a = length b -> show_side coeff b = Ok (printed_side ks b).
Proof.
  unfold show_side, printed_side. intros a t h.
  enough (K : forall coeff a l, mapM (fun p : expo * string => let* t := str_expo (fst p) in Ok (t +++ " " +++ snd p)) (combine coeff a) = Ok l ->
    exists ks, l = map (fun x : string * string => fst x +++ " " +++ snd x) (combine ks a) /\ forall b, length a = length b -> mapM (fun p : expo * string => let* t := str_expo (fst p) in Ok (t +++ " " +++ snd p)) (combine coeff b) = Ok (map (fun x : string * string => fst x +++ " " +++ snd x) (combine ks b))).
  { destruct (mapM _ (combine coeff a)) as [l|] eqn:e; [|discriminate]. injection h as <-. destruct (K _ _ _ e) as [ks [-> k]]. exists ks. split; [reflexivity|]. intros b hb. rewrite (k b hb). reflexivity. }
  clear. induction coeff as [|k ks IH]; intros a l h.
  - injection h as <-. exists []. split; [reflexivity|]. intros. reflexivity.
  - destruct a as [|x a]; [injection h as <-; exists []; split; [reflexivity|]; intros [|y b] hb; [reflexivity|discriminate]|].
    cbn [combine mapM fst snd] in h. destruct (str_expo k) as [t|] eqn:e; [|discriminate]. cbn [bind] in h.
    destruct (mapM _ (combine ks a)) as [l'|] eqn:e'; [|discriminate]. injection h as <-. destruct (IH _ _ e') as [ts [-> hk]].
    exists (t :: ts). split; [reflexivity|]. intros [|y b] hb; [discriminate|]. cbn [combine mapM fst snd map]. rewrite e. cbn [bind]. rewrite hk by (cbn in hb; lia). reflexivity.
Qed.
Theorem numbers_ignored lstsq enum rs ps : rs <> [] -> ps <> [] -> Forall numbered rs -> Forall numbered ps ->
  (forall e, balance_equation lstsq enum (equation_text (map snd rs) (map snd ps)) = Raise e -> balance_equation lstsq enum (numbered_equation rs ps) = Raise e) /\
  (forall t, balance_equation lstsq enum (equation_text (map snd rs) (map snd ps)) = Ok t -> exists kr kp,
    t = printed kr (map formula_text (map snd rs)) kp (map formula_text (map snd ps)) /\
    balance_equation lstsq enum (numbered_equation rs ps) = Ok (printed kr (map numbered_text rs) kp (map numbered_text ps))).
Proof.
  intros n1 n2 h1 h2.
  assert (ne : forall (A B : Type) (f : A -> B) l, l <> [] -> map f l <> []) by (intros A B f [|? ?] k; [tauto|discriminate]).
  assert (tn : forall l, Forall numbered l -> Forall tidy (map numbered_text l)) by (intros l h; apply Forall_map; eapply Forall_impl; [|exact h]; apply tidy_numbered).
  destruct (sides_tidy (map numbered_text rs) (map numbered_text ps)) as [a [b [e1 [e2 e3]]]]; [apply ne; assumption|apply ne; assumption|apply tn; assumption|apply tn; assumption|].
  destruct (sides_tidy (map formula_text (map snd rs)) (map formula_text (map snd ps))) as [a' [b' [f1 [f2 f3]]]]; [do 2 apply ne; assumption|do 2 apply ne; assumption|apply bare_tidy; assumption|apply bare_tidy; assumption|].
  unfold balance_equation, reaction_system, numbered_equation, equation_text. rewrite e1, f1, e2, e3, f2, f3, !parse_sides by assumption.
  destruct (parse_equation_side (map formula_text (map snd rs))) as [dr|e]; [|split; [intros ? h; exact h|discriminate]]. cbn [bind].
  destruct (parse_equation_side (map formula_text (map snd ps))) as [dp|e]; [|split; [intros ? h; exact h|discriminate]]. cbn [bind].
  destruct (subset (enum (keys dp)) (enum (keys dr)) && subset (enum (keys dr)) (enum (keys dp))); [|split; [intros ? h; exact h|discriminate]]. cbn [bind].
  destruct (lstsq _ _) as [x|e]; [|split; [intros ? h; exact h|discriminate]]. cbn [bind].
  destruct (coefficients x) as [sol|e]; [|split; [intros ? h; exact h|discriminate]]. cbn [bind]. rewrite !map_length.
  assert (l1 : length (map formula_text (map snd rs)) = length (map numbered_text rs)) by (rewrite !map_length; reflexivity).
  assert (l2 : length (map formula_text (map snd ps)) = length (map numbered_text ps)) by (rewrite !map_length; reflexivity).
  destruct (show_side (firstn (length rs) sol) (map formula_text (map snd rs))) as [t1|e] eqn:s1.
  - destruct (show_side_names _ _ _ s1) as [kr [-> k1]]. rewrite (k1 _ l1). cbn [bind].
    destruct (show_side (skipn (length rs) sol) (map formula_text (map snd ps))) as [t2|e] eqn:s2.
    + destruct (show_side_names _ _ _ s2) as [kp [-> k2]]. rewrite (k2 _ l2). cbn [bind]. split; [discriminate|]. intros t h. injection h as <-. exists kr, kp. split; reflexivity.
    + rewrite (show_side_error _ _ _ _ l2 s2). cbn [bind]. split; [intros ? h; exact h|discriminate].
  - rewrite (show_side_error _ _ _ _ l1 s1). cbn [bind]. split; [intros ? h; exact h|discriminate].
Qed.

(** ** Equations that have a solution *)
Local Open Scope Z_scope.
Lemma one_group_well f : one_group f -> Forall well f.
Proof.
  assert (P : forall l, Forall plain_atom l -> Forall well l) by (intros l h; eapply Forall_impl; [|exact h]; intros [s n|g n] k; [exact k|destruct k]).
  intros [h|[x [g [n [y [-> [hx [hg [hne [hy [c [hc ->]]]]]]]]]]]]; [apply P; exact h|].
  apply Forall_app. split; [apply P; exact hx|]. apply Forall_app. split; [|apply P; exact hy]. constructor; [|constructor]. cbn [well]. split; [exact hne|]. split; [split; [exact hc|exact I]|].
  apply P in hg. clear -hg. induction hg as [|i g hi hg IH]; [exact I|]. split; [exact hi|exact IH].
Qed.
Lemma show_names ks names : Forall (fun k => 0 <= k < 10 ^ 15) ks -> show_side (map FracFacts.float_of ks) names = Ok (printed_side (map whole_text ks) names).
Proof.
  intro h. unfold show_side, printed_side.
  enough (e : mapM (fun p : expo * string => let* t := str_expo (fst p) in Ok (t +++ " " +++ snd p)) (combine (map FracFacts.float_of ks) names) = Ok (map (fun x : string * string => fst x +++ " " +++ snd x) (combine (map whole_text ks) names))) by (rewrite e; reflexivity).
  revert names. induction h as [|k ks hk hks IH]; intro names; [reflexivity|]. destruct names as [|f names]; [reflexivity|]. cbn [map combine mapM fst snd]. rewrite str_float by exact hk. cbn [bind]. rewrite IH. reflexivity.
Qed.
Lemma numbered_of x : coefficient_text (fst x) /\ molecule (snd x) -> numbered x.
Proof. intros [h [k [l _]]]. split; [exact h|]. split; [exact k|apply one_group_well; exact l]. Qed.
Theorem numbers_printed lstsq enum nrs nps np kr kp kl :
  let rs := map snd nrs in let ps := map snd nps in let p := snd np in
  rs <> [] -> Forall molecule rs -> Forall molecule ps -> molecule p -> Forall coefficient_text (map fst (nrs ++ nps ++ [np])) -> set_order enum ->
  smallest_balance rs ps p kr kp kl -> accurate lstsq rs ps p (kr ++ kp) kl -> gcd_of (kr ++ kp) = 1 ->
  balance_equation lstsq enum (numbered_equation nrs (nps ++ [np])) =
  Ok (printed (map whole_text kr) (map numbered_text nrs) (map whole_text (kp ++ [kl])) (map numbered_text (nps ++ [np]))).
Proof.
  intros rs ps p hn hr hp hl hc he [lr [lp [sz [g1 bal]]]] acc gg.
  assert (og : forall fs, Forall molecule fs -> Forall one_group fs) by (intros fs h; eapply Forall_impl; [|exact h]; intros f hf; apply hf).
  assert (hpp : Forall molecule (ps ++ [p])) by (apply Forall_app; split; [exact hp|constructor; [exact hl|constructor]]).
  assert (ep' : map snd (nps ++ [np]) = ps ++ [p]) by (unfold ps, p; rewrite map_app; reflexivity).
  rewrite map_app in hc. apply Forall_app in hc. destruct hc as [c1 c2].
  assert (NU : forall l, Forall coefficient_text (map fst l) -> Forall molecule (map snd l) -> Forall numbered l).
  { induction l as [|x l IH]; intros a b; [constructor|]. inversion a; inversion b; subst. constructor; [apply numbered_of; split; assumption|apply IH; assumption]. }
  assert (m1 : Forall numbered nrs) by (apply NU; assumption). assert (m2 : Forall numbered (nps ++ [np])) by (apply NU; [exact c2|rewrite ep'; exact hpp]).
  assert (tn : forall l, Forall numbered l -> Forall tidy (map numbered_text l)) by (intros l h; apply Forall_map; eapply Forall_impl; [|exact h]; apply tidy_numbered).
  destruct (sides_tidy (map numbered_text nrs) (map numbered_text (nps ++ [np]))) as [l [r [e1 [e2 e3]]]].
  { unfold rs in hn. destruct nrs; [exfalso; apply hn; reflexivity|discriminate]. } { destruct nps; discriminate. } { apply tn, m1. } { apply tn, m2. }
  destruct (side_counted rs (og _ hr)) as [dr [er cr]]. destruct (side_counted (ps ++ [p]) (og _ hpp)) as [dp [ep cp]].
  unfold rs in er. rewrite <- (parse_sides nrs m1) in er. rewrite <- ep', <- (parse_sides _ m2) in ep.
  apply Forall_app in sz. destruct sz as [sr sz]. apply Forall_app in sz. destruct sz as [sp sl]. inversion sl as [|? ? sl' _]; subst.
  assert (pr : Forall (fun k => 0 < k) kr) by (eapply Forall_impl; [|exact sr]; cbn; lia).
  assert (pp : Forall (fun k => 0 < k) (kp ++ [kl])) by (apply Forall_app; split; [eapply Forall_impl; [|exact sp]; cbn; lia|constructor; [lia|constructor]]).
  assert (same : forall e, (exists f, In f rs /\ 0 < atoms f e) <-> exists f, In f (ps ++ [p]) /\ 0 < atoms f e).
  { intro e. rewrite <- (side_pos kr rs e lr pr hr). rewrite <- (side_pos (kp ++ [kl]) (ps ++ [p]) e) by (rewrite ?app_length; cbn; (lia || assumption)). rewrite (bal e). tauto. }
  assert (kin : forall fs ds, Forall molecule fs -> Forall2 counted fs ds -> forall e, In e (keys ds) <-> exists f, In f fs /\ 0 < atoms f e).
  { intros fs ds hf c e. rewrite (keys_symbols fs ds e c). rewrite Forall_forall in hf. split; intros [f [i j]]; exists f; (split; [exact i|]); apply (atoms_symbols f e); try exact j; apply (hf f i). }
  unfold numbered_equation, balance_equation, reaction_system. rewrite e1, e2, e3, er. cbn [bind]. rewrite ep. cbn [bind].
  set (es := enum (keys dr)). destruct (he (keys dr)) as [nd hes]. fold es in nd, hes.
  rewrite !subset_true; cycle 1.
  { intros e h. apply hes in h. apply (he (keys dp)). rewrite (kin _ _ hpp cp). rewrite <- same. apply (kin _ _ hr cr). exact h. }
  { intros e h. apply (proj1 (proj2 (he (keys dp)) e)) in h. apply hes. rewrite (kin _ _ hr cr). rewrite same. apply (kin _ _ hpp cp). exact h. }
  cbn [andb]. cbn [bind]. rewrite (columns_vectors 1 es rs dr cr), (columns_vectors (-1) es (ps ++ [p]) dp cp). rewrite (map_app (vector (-1) es)). cbn [map]. rewrite app_assoc. rewrite removelast_last, last_app.
  destruct (acc es nd) as [x [ex hx]].
  { intro e. rewrite hes, (kin _ _ hr cr). split.
    - intros [f [i j]]. exists f. split; [apply in_or_app; left; exact i|exact j].
    - intros [f [i j]]. apply in_app_or in i. destruct i as [i|i]; [exists f; tauto|]. apply same. exists f. tauto. }
  rewrite ex. cbn [bind]. rewrite (FracFacts.coefficients_found x (kr ++ kp) kl).
  - cbn [bind]. rewrite gg.
    rewrite (map_ext (fun k => FracFacts.float_of (k / 1)) FracFacts.float_of) by (intro k; rewrite Z.div_1_r; reflexivity).
    rewrite map_length. unfold rs in lr. rewrite map_length in lr. rewrite <- lr. rewrite <- (app_assoc kr). rewrite (map_app FracFacts.float_of kr).
    rewrite <- (map_length FracFacts.float_of kr). rewrite firstn_app, skipn_app, Nat.sub_diag, firstn_all, skipn_all, firstn_O, skipn_O, app_nil_r. cbn [app].
    assert (sm : forall ks, Forall (fun k => 0 < k <= 1000) ks -> Forall (fun k => 0 <= k < 10 ^ 15) ks).
    { intros ks h. eapply Forall_impl; [|exact h]. cbv beta. intros k hk. lia. }
    rewrite show_names by (apply sm; exact sr). cbn [bind].
    rewrite show_names by (apply sm; apply Forall_app; split; assumption). reflexivity.
  - destruct kr as [|a kr']; [destruct rs; [tauto|discriminate]|discriminate].
  - apply Forall_app. split; [exact pr|]. apply Forall_app in pp. tauto.
  - lia.
  - rewrite <- g1. rewrite app_assoc, (gcd_app (kr ++ kp)). f_equal. cbn. rewrite Z.gcd_0_r. symmetry. apply Z.abs_eq. lia.
  - apply Forall_app. split; eapply Forall_impl; [|exact sr| |exact sp]; cbv beta; lia.
  - exact hx.
Qed.

(** ** The text printed, balanced again *)
Lemma show_number f : forall z acc, 0 <= z -> number_text acc -> number_text (show_digits f z acc).
Proof.
  induction f as [|f IH]; intros z acc hz h; [exact h|]. cbn [show_digits].
  assert (k : number_text (String (digit_char (z mod 10)) acc)).
  { split; [|exact h]. left. pose proof (Z.mod_pos_bound z 10 ltac:(lia)). unfold digit, digit_char. rewrite nat_ascii_embedding by lia. lia. }
  destruct (Z.eqb (z / 10) 0); [exact k|]. apply IH; [apply Z.div_pos; lia|exact k].
Qed.
Lemma number_app a b : number_text (a +++ b) <-> number_text a /\ number_text b.
Proof. induction a as [|c a IH]; cbn; [tauto|]. rewrite IH. tauto. Qed.
Lemma whole_coefficient k : 0 <= k -> coefficient_text (whole_text k +++ " ").
Proof.
  intro h. right. exists (whole_text k). unfold whole_text. split; [destruct (show_Z k); discriminate|]. split; [|right; reflexivity]. apply number_app. split.
  - unfold show_Z. destruct (Z.ltb_spec k 0); [lia|]. apply show_number; [exact h|exact I].
  - cbn. unfold digit. cbn. split; [right; reflexivity|]. split; [left; lia|exact I].
Qed.
Lemma with_snd ks : forall fs, length ks = length fs -> map snd (with_coefficients ks fs) = fs.
Proof. unfold with_coefficients. induction ks as [|k ks IH]; intros [|f fs] h; try discriminate; [reflexivity|]. cbn. rewrite IH by (cbn in h; lia). reflexivity. Qed.
Lemma with_texts ks : forall fs, map numbered_text (with_coefficients ks fs) = map term_text (combine ks fs).
Proof.
  unfold with_coefficients. induction ks as [|k ks IH]; intros [|f fs]; try reflexivity. cbn [map combine]. rewrite IH. f_equal.
  unfold numbered_text, term_text, whole_text. cbn [fst snd]. rewrite !app_ass. reflexivity.
Qed.
Lemma with_fst ks : forall fs, Forall (fun k => 0 < k <= 1000) ks -> Forall coefficient_text (map fst (with_coefficients ks fs)).
Proof. unfold with_coefficients. induction ks as [|k ks IH]; intros [|f fs] h; try constructor; inversion h; subst; [apply whole_coefficient; lia|apply IH; assumption]. Qed.
Theorem balanced_again lstsq enum rs ps p kr kp kl :
  rs <> [] -> Forall molecule rs -> Forall molecule ps -> molecule p -> set_order enum ->
  smallest_balance rs ps p kr kp kl -> accurate lstsq rs ps p (kr ++ kp) kl -> gcd_of (kr ++ kp) = 1 ->
  balance_equation lstsq enum (balanced_text kr rs (kp ++ [kl]) (ps ++ [p])) =
  Ok (printed (map whole_text kr) (map term_text (combine kr rs)) (map whole_text (kp ++ [kl])) (map term_text (combine (kp ++ [kl]) (ps ++ [p])))).
Proof.
  intros hn hr hp hl he hb acc gg. pose proof hb as [lr [lp [sz _]]]. apply Forall_app in sz. destruct sz as [sr sz]. apply Forall_app in sz. destruct sz as [sp sl]. inversion sl as [|? ? sl' _]; subst.
  pose proof (numbers_printed lstsq enum (with_coefficients kr rs) (with_coefficients kp ps) (whole_text kl +++ " ", p) kr kp kl) as T. cbn zeta in T. cbn [snd] in T.
  rewrite (with_snd kr rs lr), (with_snd kp ps lp) in T.
  assert (e : with_coefficients kp ps ++ [(whole_text kl +++ " ", p)] = with_coefficients (kp ++ [kl]) (ps ++ [p])).
  { clear -lp. unfold with_coefficients. revert ps lp. induction kp as [|k kp IH]; intros [|f ps] lp; try discriminate; [reflexivity|]. cbn. f_equal. apply IH. cbn in lp. lia. }
  rewrite e in T. rewrite !with_texts in T.
  assert (eq : balanced_text kr rs (kp ++ [kl]) (ps ++ [p]) = numbered_equation (with_coefficients kr rs) (with_coefficients (kp ++ [kl]) (ps ++ [p]))) by (unfold balanced_text, numbered_equation; rewrite !with_texts; reflexivity).
  rewrite eq. apply T; try assumption. rewrite map_app. apply Forall_app. split; [apply with_fst; exact sr|apply with_fst, Forall_app; split; assumption].
Qed.

(** ** The numbers stay in the text *)
Local Open Scope nat_scope.
Lemma length_app a b : String.length (a +++ b) = String.length a + String.length b.
Proof. induction a as [|c a IH]; [reflexivity|]. cbn. rewrite IH. reflexivity. Qed.
Lemma printed_longer ks : forall rs, length ks = length rs ->
  String.length (printed_side ks (map formula_text (map snd rs))) <= String.length (printed_side ks (map numbered_text rs)) /\
  ((exists x, In x rs /\ fst x <> "") -> String.length (printed_side ks (map formula_text (map snd rs))) < String.length (printed_side ks (map numbered_text rs))).
Proof.
  unfold printed_side. induction ks as [|k ks IH]; intros [|x rs] h; try discriminate; [split; [cbn; lia|intros [? [[] _]]]|].
  specialize (IH rs ltac:(cbn in h; lia)). destruct IH as [i1 i2]. cbn [map combine].
  assert (J : forall a l, String.length (join " + " (a :: l)) = String.length a + match l with [] => 0 | _ => 3 + String.length (join " + " l) end).
  { intros a [|b l]; [cbn; lia|]. change (join " + " (a :: b :: l)) with (a +++ " + " +++ join " + " (b :: l)). rewrite !length_app. reflexivity. }
  rewrite !J. cbn [fst snd]. rewrite !length_app. assert (E : String.length (numbered_text x) = String.length (fst x) + String.length (formula_text (snd x))) by apply length_app. rewrite !E.
  destruct rs as [|y rs]; destruct ks as [|k' ks]; try discriminate.
  - cbn [map combine]. split; [lia|]. intros [z [[<- |[]] hz]]. destruct (fst x); [tauto|cbn [String.length]; lia].
  - cbn [map combine] in i1, i2 |- *. split; [lia|]. intros [z [[<- |hz] hn]]; [destruct (fst x); [tauto|cbn [String.length]; lia]|]. specialize (i2 (ex_intro _ z (conj hz hn))). lia.
Qed.
Lemma balanced_printed kr rs kp ps : balanced_text kr rs kp ps = printed (map whole_text kr) (map formula_text rs) (map whole_text kp) (map formula_text ps).
Proof.
  assert (e : forall ks fs, map term_text (combine ks fs) = map (fun x : string * string => fst x +++ " " +++ snd x) (combine (map whole_text ks) (map formula_text fs))).
  { induction ks as [|k ks IH]; intros [|f fs]; try reflexivity. cbn [combine map fst snd]. rewrite IH. f_equal. unfold term_text, whole_text. cbn [fst snd]. rewrite !app_ass. reflexivity. }
  unfold balanced_text, printed, printed_side. rewrite !e. reflexivity.
Qed.
Theorem numbers_kept lstsq enum nrs nps np kr kp kl :
  let rs := map snd nrs in let ps := map snd nps in let p := snd np in
  rs <> [] -> Forall molecule rs -> Forall molecule ps -> molecule p -> Forall coefficient_text (map fst (nrs ++ nps ++ [np])) -> set_order enum ->
  smallest_balance rs ps p kr kp kl -> accurate lstsq rs ps p (kr ++ kp) kl -> gcd_of (kr ++ kp) = 1%Z ->
  (exists x, In x (nrs ++ nps ++ [np]) /\ fst x <> "") ->
  balance_equation lstsq enum (numbered_equation nrs (nps ++ [np])) <> Ok (balanced_text kr rs (kp ++ [kl]) (ps ++ [p])).
Proof.
  intros rs ps p hn hr hp hl hc he hb acc gg hx. rewrite (numbers_printed lstsq enum nrs nps np kr kp kl) by assumption. rewrite balanced_printed. intro h. injection h as h.
  apply (f_equal String.length) in h. unfold printed in h. rewrite !length_app in h. destruct hb as [lr [lp _]]. unfold rs in lr, h. unfold ps in lp.
  assert (ep : ps ++ [p] = map snd (nps ++ [np])) by (rewrite map_app; reflexivity). rewrite ep in h.
  destruct (printed_longer (map whole_text kr) nrs) as [a1 a2]; [rewrite map_length; rewrite map_length in lr; exact lr|].
  destruct (printed_longer (map whole_text (kp ++ [kl])) (nps ++ [np])) as [b1 b2]; [rewrite map_length, !app_length; rewrite map_length in lp; rewrite lp; reflexivity|].
  destruct hx as [x [i k]]. apply in_app_or in i. destruct i as [i|i]; [specialize (a2 (ex_intro _ x (conj i k)))|specialize (b2 (ex_intro _ x (conj i k)))]; lia.
Qed.
Theorem water_case : let h2 := [Atom "H" "2"] in let o2 := [Atom "O" "2"] in let h2o := [Atom "H" "2"; Atom "O" ""] in
  let f := fun (_ : list (list Z)) (_ : list Z) => Ok [-1 # 1; -1 # 2]%Q in
  Forall molecule [h2; o2] /\ molecule h2o /\ Forall coefficient_text ["2 "; ""; "2.0"] /\ smallest_balance [h2; o2] [] h2o [2; 1]%Z [] 2%Z /\ accurate f [h2; o2] [] h2o [2; 1]%Z 2%Z /\
  numbered_equation [("2 ", h2); ("", o2)] [("2.0", h2o)] = "2 H2 + O2 -> 2.0H2O" /\
  balance_equation f (nodup string_dec) "2 H2 + O2 -> 2.0H2O" = Ok "2.0 2 H2 + 1.0 O2 -> 2.0 2.0H2O" /\
  balance_equation f (nodup string_dec) "2.0 H2 + 1.0 O2 -> 2.0 H2O" = Ok "2.0 2.0 H2 + 1.0 1.0 O2 -> 2.0 2.0 H2O".
Proof.
  cbn zeta. split; [constructor; [flat_molecule|constructor; [flat_molecule|constructor]]|]. split; [flat_molecule|]. split; [|split; [|split; [|split; [reflexivity|split; vm_compute; reflexivity]]]].
  - constructor; [right; exists "2"; cbn; unfold digit; cbn; split; [discriminate|]; split; [split; [left; lia|exact I]|right; reflexivity]|].
    constructor; [left; reflexivity|]. constructor; [|constructor]. right. exists "2.0". cbn. unfold digit. cbn. split; [discriminate|]. split; [|left; reflexivity].
    split; [left; lia|]. split; [right; reflexivity|]. split; [left; lia|exact I].
  - repeat split; try reflexivity; try (repeat constructor; lia). intro e. unfold side_atoms, atoms. cbn [app combine total fold_right fst snd item_atoms].
    destruct (String.eqb "H" e), (String.eqb "O" e); reflexivity.
  - intros es _ _. eexists. split; [reflexivity|]. repeat constructor.
Qed.
