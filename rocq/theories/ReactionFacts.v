(** * ReactionFacts: what balance_equation prints *)
From Coq Require Import String Ascii List ZArith QArith Qcanon Qabs Bool Lia Znumtheory.
From Verif Require Import Py Balance BalanceSpec BalanceFacts FracFacts.
From Verif Require TextFacts.
Import ListNotations.
Local Open Scope string_scope.
Local Open Scope list_scope.
Local Open Scope Z_scope.

(** ** The text of an equation *)
Definition fine_char (c : ascii) : Prop := alnum c \/ c = "("%char \/ c = ")"%char.
Fixpoint fine (s : string) : Prop := match s with EmptyString => True | String c s => fine_char c /\ fine s end.
Lemma fine_app s s' : fine (s +++ s') <-> fine s /\ fine s'.
Proof. induction s as [|c s IH]; cbn; [tauto|]. rewrite IH. tauto. Qed.
Lemma fine_alnum s : all_alnum s -> fine s.
Proof. induction s as [|c s IH]; cbn; [tauto|]. unfold fine_char. tauto. Qed.
Lemma fine_text f : one_group f -> fine (formula_text f).
Proof.
  intros [h|[x [g [n [y [-> [hx [hg [hne [hy [c [hc ->]]]]]]]]]]]]; [apply fine_alnum, alnum_atoms, h|].
  unfold formula_text. rewrite !concat_app. cbn [concat_with fold_right item_text]. fold (formula_text x) (formula_text g) (formula_text y).
  rewrite !fine_app. cbn [fine]. pose proof (fine_alnum _ (alnum_atoms x hx)). pose proof (fine_alnum _ (alnum_atoms g hg)). pose proof (fine_alnum _ (alnum_atoms y hy)).
  unfold fine_char, alnum. tauto.
Qed.
Definition outside (c : ascii) : Prop := ~ fine_char c.
Lemma fine_has c s : outside c -> fine s -> has_char c s = false.
Proof.
  intro h. induction s as [|a s IH]; intro hs; [reflexivity|]. destruct hs as [ha hs]. cbn. rewrite IH by exact hs. rewrite orb_false_r.
  apply Ascii.eqb_neq. intros ->. exact (h ha).
Qed.
Lemma fine_blank s : fine s -> TextFacts.blank_free s = true.
Proof.
  induction s as [|a s IH]; intro h; [reflexivity|]. destruct h as [ha hs]. cbn. rewrite IH by exact hs. rewrite andb_true_r. apply negb_true_iff.
  unfold is_space. destruct ha as [ha|[->| ->]]; [|reflexivity..].
  unfold alnum, capital, small, digit in ha. destruct (nat_of_ascii a =? 32)%nat eqn:e1; [apply Nat.eqb_eq in e1; lia|].
  destruct (9 <=? nat_of_ascii a)%nat eqn:e2; destruct (nat_of_ascii a <=? 13)%nat eqn:e3; destruct (28 <=? nat_of_ascii a)%nat eqn:e4; destruct (nat_of_ascii a <=? 31)%nat eqn:e5; cbn; try reflexivity;
    repeat match goal with h : (_ <=? _)%nat = true |- _ => apply Nat.leb_le in h end; lia.
Qed.
Ltac outside := unfold outside, fine_char, alnum, capital, small, digit; cbn; intros [?|[?|?]]; [lia|discriminate|discriminate].
Lemma rstrip_blank s : TextFacts.blank_free s = true -> rstrip (s +++ " ") = s.
Proof.
  induction s as [|a s IH]; intro h; [reflexivity|]. cbn in h. apply andb_true_iff in h. destruct h as [h1 h2]. apply negb_true_iff in h1.
  cbn. rewrite IH by exact h2. rewrite h1. reflexivity.
Qed.
Lemma lstrip_blank s : TextFacts.blank_free s = true -> lstrip s = s.
Proof. destruct s as [|a s]; intro h; [reflexivity|]. cbn in h. apply andb_true_iff in h. destruct h as [h1 _]. apply negb_true_iff in h1. cbn. rewrite h1. reflexivity. Qed.
Definition pad (s : string) : Prop := s = "" \/ s = " ".
Lemma strip_pad pre s post : pad pre -> pad post -> TextFacts.blank_free s = true -> strip (pre +++ s +++ post) = s.
Proof.
  intros h1 h2 h. unfold strip. assert (e : lstrip (pre +++ s +++ post) = lstrip (s +++ post)) by (destruct h1 as [-> | ->]; reflexivity). rewrite e. clear e.
  destruct h2 as [-> | ->]; [rewrite app_nil, lstrip_blank by exact h; apply TextFacts.rstrip_free; exact h|].
  destruct s as [|a s]; [reflexivity|]. pose proof h as h'. cbn in h'. apply andb_true_iff in h'. destruct h' as [h3 _]. apply negb_true_iff in h3.
  cbn [append lstrip]. rewrite h3. exact (rstrip_blank (String a s) h).
Qed.
Lemma split_side l : forall pre post, l <> [] -> Forall fine l -> pad pre -> pad post -> map strip (split_on "+" (pre +++ join " + " l +++ post)) = l.
Proof.
  assert (np : forall s, pad s -> has_char "+" s = false) by (intros s [-> | ->]; reflexivity).
  induction l as [|x l IH]; intros pre post hn hf h1 h2; [tauto|]. inversion hf as [|? ? hx hl]; subst.
  assert (hp : has_char "+" x = false) by (apply fine_has; [outside|exact hx]).
  destruct l as [|y l].
  - cbn [join]. rewrite TextFacts.split_none by (rewrite !TextFacts.has_char_app, hp, !np by assumption; reflexivity). cbn [map].
    rewrite strip_pad by (assumption || apply fine_blank; assumption). reflexivity.
  - change (join " + " (x :: y :: l)) with (x +++ " + " +++ join " + " (y :: l)).
    replace (pre +++ (x +++ " + " +++ join " + " (y :: l)) +++ post) with ((pre +++ x +++ " ") +++ String "+" (" " +++ join " + " (y :: l) +++ post)) by (rewrite !app_ass; reflexivity).
    rewrite TextFacts.split_sep by (rewrite !TextFacts.has_char_app, hp, np by assumption; reflexivity). cbn [map].
    rewrite strip_pad by (assumption || (right; reflexivity) || apply fine_blank; assumption). f_equal. apply IH; [discriminate|assumption|right; reflexivity|assumption].
Qed.
Lemma arrow_none s : has_char "-" s = false -> split_arrow s = [s].
Proof.
  induction s as [|a s IH]; intro h; [reflexivity|]. cbn in h. apply orb_false_iff in h. destruct h as [h1 h2]. specialize (IH h2).
  destruct s as [|b s]; [reflexivity|]. change (split_arrow (String a (String b s))) with (if Ascii.eqb a "-" && Ascii.eqb b ">" then "" :: split_arrow s else match split_arrow (String b s) with x :: xs => String a x :: xs | [] => [] end).
  rewrite h1, IH. reflexivity.
Qed.
Lemma arrow_split s r : has_char "-" s = false -> split_arrow (s +++ "->" +++ r) = s :: split_arrow r.
Proof.
  induction s as [|a s IH]; intro h; [reflexivity|]. cbn in h. apply orb_false_iff in h. destruct h as [h1 h2]. specialize (IH h2).
  destruct (s +++ "->" +++ r) as [|b t] eqn:e; [destruct s; discriminate|].
  change (String a s +++ "->" +++ r) with (String a (s +++ "->" +++ r)). rewrite e.
  change (split_arrow (String a (String b t))) with (if Ascii.eqb a "-" && Ascii.eqb b ">" then "" :: split_arrow t else match split_arrow (String b t) with x :: xs => String a x :: xs | [] => [] end).
  rewrite h1, IH. reflexivity.
Qed.
Lemma join_no_dash l : Forall fine l -> has_char "-" (join " + " l) = false.
Proof.
  induction 1 as [|x l hx hl IH]; [reflexivity|]. assert (h : has_char "-" x = false) by (apply fine_has; [outside|exact hx]).
  destruct l as [|y l]; [exact h|]. change (join " + " (x :: y :: l)) with (x +++ " + " +++ join " + " (y :: l)). rewrite !TextFacts.has_char_app, h, IH. reflexivity.
Qed.
Lemma equation_sides rs ps : rs <> [] -> ps <> [] -> Forall one_group rs -> Forall one_group ps ->
  exists l r, split_arrow (equation_text rs ps) = [l; r] /\ map strip (split_on "+" l) = map formula_text rs /\ map strip (split_on "+" r) = map formula_text ps.
Proof.
  intros n1 n2 h1 h2.
  assert (f1 : Forall fine (map formula_text rs)) by (apply Forall_map; eapply Forall_impl; [|exact h1]; intros; apply fine_text; assumption).
  assert (f2 : Forall fine (map formula_text ps)) by (apply Forall_map; eapply Forall_impl; [|exact h2]; intros; apply fine_text; assumption).
  assert (m1 : map formula_text rs <> []) by (destruct rs; [tauto|discriminate]). assert (m2 : map formula_text ps <> []) by (destruct ps; [tauto|discriminate]).
  exists (join " + " (map formula_text rs) +++ " "), (" " +++ join " + " (map formula_text ps)). unfold equation_text.
  replace (join " + " (map formula_text rs) +++ " -> " +++ join " + " (map formula_text ps)) with ((join " + " (map formula_text rs) +++ " ") +++ "->" +++ (" " +++ join " + " (map formula_text ps))) by (rewrite !app_ass; reflexivity).
  rewrite arrow_split by (rewrite TextFacts.has_char_app, join_no_dash by exact f1; reflexivity).
  rewrite arrow_none by (cbn; apply join_no_dash; exact f2).
  split; [reflexivity|]. split.
  - exact (split_side _ "" " " m1 f1 (or_introl eq_refl) (or_intror eq_refl)).
  - rewrite <- (app_nil (join " + " (map formula_text ps))) at 1. exact (split_side _ " " "" m2 f2 (or_intror eq_refl) (or_introl eq_refl)).
Qed.

(** ** The linear system *)
Definition counted (f : formula) (d : counts) : Prop := (forall e, count d e = atoms f e) /\ (forall e, In e (map fst d) <-> In e (formula_symbols f)).
Lemma side_counted fs : Forall one_group fs -> exists ds, parse_equation_side (map formula_text fs) = Ok ds /\ Forall2 counted fs ds.
Proof.
  unfold parse_equation_side. induction 1 as [|f fs hf hfs IH]; [exists []; split; [reflexivity|constructor]|]. destruct IH as [ds [e h]]. destruct (molecule_counts f hf) as [d [ed hd]].
  exists (d :: ds). cbn [map mapM]. rewrite ed, e. split; [reflexivity|constructor; [exact hd|exact h]].
Qed.
Lemma keys_symbols fs ds e : Forall2 counted fs ds -> In e (keys ds) <-> exists f, In f fs /\ In e (formula_symbols f).
Proof.
  unfold keys. induction 1 as [|f d fs ds [_ h] hs IH]; cbn [flat_map In]; [firstorder|]. rewrite in_app_iff, IH, h. split.
  - intros [k|[f' [i k]]]; [exists f; tauto|exists f'; tauto].
  - intros [f' [[<- |i] k]]; [left; exact k|right; exists f'; tauto].
Qed.
Lemma columns_vectors sg es fs ds : Forall2 counted fs ds -> map (column sg es) ds = map (vector sg es) fs.
Proof. induction 1 as [|f d fs ds [h _] hs IH]; [reflexivity|]. cbn [map]. rewrite IH. f_equal. unfold column, vector. apply map_ext. intro e. rewrite h. reflexivity. Qed.
Lemma total_nonneg {A} (f : A -> Z) l : Forall (fun x => 0 <= f x) l -> 0 <= total f l.
Proof. induction 1 as [|x l h hl IH]; cbn [total fold_right]; [lia|]. unfold total in IH. lia. Qed.
Lemma total_pos {A} (f : A -> Z) l : Forall (fun x => 0 <= f x) l -> (0 < total f l <-> exists x, In x l /\ 0 < f x).
Proof.
  induction 1 as [|x l h hl IH]; cbn [total fold_right In]; [split; [lia|intros [? [[] _]]]|]. pose proof (total_nonneg f l hl) as t. unfold total in t, IH.
  split.
  - intro k. destruct (Z.eq_dec (f x) 0) as [z|z]; [|exists x; split; [tauto|lia]]. destruct (proj1 IH ltac:(lia)) as [y [i j]]. exists y. tauto.
  - intros [y [[<- |i] j]]; [lia|]. assert (0 < fold_right (fun x z => f x + z) 0 l) by (apply IH; exists y; tauto). lia.
Qed.
Lemma atom_positive s n e : 0 < subscript_value n -> 0 <= item_atoms e (Atom s n) /\ (0 < item_atoms e (Atom s n) <-> In e (item_symbols (Atom s n))).
Proof. intro h. cbn [item_atoms item_symbols In]. destruct (String.eqb_spec s e) as [->|]; [split; [lia|]; tauto|]. split; [lia|]. split; [lia|]. intros [?|[]]. contradiction. Qed.
Lemma item_positive i e : positive_item i -> 0 <= item_atoms e i /\ (0 < item_atoms e i <-> In e (item_symbols i)).
Proof.
  destruct i as [s n|g n]; intro h; [apply atom_positive; exact h|]. destruct h as [hn hg]. cbn [item_atoms item_symbols].
  assert (nn : Forall (fun x => 0 <= item_atoms e x) g).
  { eapply Forall_impl; [|exact hg]. intros [s m|]; [|intros []]. intro hm. apply (atom_positive s m e hm). }
  pose proof (total_nonneg _ _ nn). split; [nia|]. rewrite in_flat_map. rewrite Forall_forall in hg.
  assert (iff : 0 < total (item_atoms e) g <-> exists x, In x g /\ In e (item_symbols x)).
  { rewrite total_pos by exact nn. split; intros [x [i j]]; exists x; (split; [exact i|]); specialize (hg x i); (destruct x as [s m|]; [|destruct hg]); apply (atom_positive s m e hg); exact j. }
  rewrite <- iff. nia.
Qed.
Lemma atoms_nonneg f e : Forall positive_item f -> 0 <= atoms f e.
Proof. intro h. apply total_nonneg. eapply Forall_impl; [|exact h]. intros i hi. apply (item_positive i e hi). Qed.
Lemma atoms_symbols f e : Forall positive_item f -> (0 < atoms f e <-> In e (formula_symbols f)).
Proof.
  intro h. unfold atoms. rewrite total_pos by (eapply Forall_impl; [|exact h]; intros i hi; apply (item_positive i e hi)). unfold formula_symbols. rewrite in_flat_map.
  rewrite Forall_forall in h. split; intros [x [i j]]; exists x; (split; [exact i|]); apply (item_positive x e (h x i)); exact j.
Qed.
Lemma side_pos ks fs e : length ks = length fs -> Forall (fun k => 0 < k) ks -> Forall molecule fs -> (0 < side_atoms ks fs e <-> exists f, In f fs /\ 0 < atoms f e).
Proof.
  intros hl hk hf. unfold side_atoms. rewrite total_pos.
  - split.
    + intros [[k f] [i j]]. cbn [fst snd] in j. exists f. split; [eapply in_combine_r; exact i|]. rewrite Forall_forall in hk. pose proof (hk k (in_combine_l _ _ _ _ i)). nia.
    + intros [f [i j]]. revert fs hl hf i. induction ks as [|k ks IH]; intros fs hl hf i; destruct fs as [|g fs]; try discriminate; [destruct i|]. inversion hk; subst. inversion hf; subst.
      destruct i as [<- |i]; [exists (k, g); split; [left; reflexivity|cbn [fst snd]; nia]|]. destruct (IH ltac:(assumption) fs ltac:(cbn in hl; lia) ltac:(assumption) i) as [x [a b]]. exists x. split; [right; exact a|exact b].
  - apply Forall_forall. intros [k f] i. cbn [fst snd]. rewrite Forall_forall in hk, hf. pose proof (hk k (in_combine_l _ _ _ _ i)). destruct (hf f (in_combine_r _ _ _ _ i)) as [_ [_ hp]]. pose proof (atoms_nonneg f e hp). nia.
Qed.
Lemma subset_true a b : (forall e, In e a -> In e b) -> subset a b = true.
Proof. intro h. unfold subset. apply forallb_forall. intros x hx. unfold mem_str. apply existsb_exists. exists x. split; [apply h; exact hx|apply String.eqb_refl]. Qed.

(** ** The text printed *)
Lemma str_float k : 0 <= k < 10 ^ 15 -> str_expo (float_of k) = Ok (show_Z k +++ ".0").
Proof.
  intro h. unfold str_expo, float_of, eflt. cbn [ev isf negb]. assert (e : this (Q2Qc (inject_Z k)) = inject_Z k) by (cbn [this Q2Qc]; apply Qred_identity; cbn; apply Z.gcd_1_r).
  rewrite e. cbn [Qnum Qden inject_Z]. destruct (Z.leb_spec (10 ^ 15 * 1) (Z.abs k)); [lia|]. unfold is_int. rewrite e. reflexivity.
Qed.
Lemma show_terms ks fs : Forall (fun k => 0 <= k < 10 ^ 15) ks ->
  show_side (map float_of ks) (map formula_text fs) = Ok (join " + " (map term_text (combine ks fs))).
Proof.
  intro h. unfold show_side. enough (e : mapM (fun p => let* t := str_expo (fst p) in Ok (t +++ " " +++ snd p)) (combine (map float_of ks) (map formula_text fs)) = Ok (map term_text (combine ks fs))) by (rewrite e; reflexivity).
  revert fs. induction h as [|k ks hk hks IH]; intro fs; [reflexivity|]. destruct fs as [|f fs]; [reflexivity|]. cbn [map combine mapM fst snd]. rewrite str_float by exact hk. cbn [bind]. rewrite IH. cbn [bind].
  do 2 f_equal. unfold term_text. cbn [fst snd]. rewrite app_ass. reflexivity.
Qed.
Lemma last_app {A} (l : list A) x d : last (l ++ [x]) d = x.
Proof. induction l as [|a l IH]; [reflexivity|]. cbn [app]. destruct (l ++ [x]) eqn:e; [destruct l; discriminate|]. exact IH. Qed.
Lemma gcd_app l l' : gcd_of (l ++ l') = Z.gcd (gcd_of l) (gcd_of l').
Proof. induction l as [|a l IH]; cbn [app gcd_of fold_right]; [symmetry; apply Z.gcd_0_l_nonneg; destruct l' as [|b l']; [cbn; lia|apply Z.gcd_nonneg]|]. unfold gcd_of in IH. rewrite IH. rewrite Z.gcd_assoc. reflexivity. Qed.
Theorem balance_prints lstsq enum rs ps p kr kp kl :
  rs <> [] -> Forall molecule rs -> Forall molecule ps -> molecule p -> set_order enum ->
  smallest_balance rs ps p kr kp kl -> accurate lstsq rs ps p (kr ++ kp) kl ->
  balance_equation lstsq enum (equation_text rs (ps ++ [p])) =
  Ok (balanced_text (map (fun k => k / gcd_of (kr ++ kp)) kr) rs (map (fun k => k / gcd_of (kr ++ kp)) (kp ++ [kl])) (ps ++ [p])).
Proof.
  intros hn hr hp hl he [lr [lp [sz [g1 bal]]]] acc.
  assert (og : forall fs, Forall molecule fs -> Forall one_group fs) by (intros fs h; eapply Forall_impl; [|exact h]; intros f hf; apply hf).
  assert (hpp : Forall molecule (ps ++ [p])) by (apply Forall_app; split; [exact hp|constructor; [exact hl|constructor]]).
  destruct (equation_sides rs (ps ++ [p]) hn ltac:(destruct ps; discriminate) (og _ hr) (og _ hpp)) as [l [r [e1 [e2 e3]]]].
  destruct (side_counted rs (og _ hr)) as [dr [er cr]]. destruct (side_counted (ps ++ [p]) (og _ hpp)) as [dp [ep cp]].
  apply Forall_app in sz. destruct sz as [sr sz]. apply Forall_app in sz. destruct sz as [sp sl]. inversion sl as [|? ? sl' _]; subst.
  assert (pr : Forall (fun k => 0 < k) kr) by (eapply Forall_impl; [|exact sr]; cbn; lia).
  assert (pp : Forall (fun k => 0 < k) (kp ++ [kl])) by (apply Forall_app; split; [eapply Forall_impl; [|exact sp]; cbn; lia|constructor; [lia|constructor]]).
  assert (same : forall e, (exists f, In f rs /\ 0 < atoms f e) <-> exists f, In f (ps ++ [p]) /\ 0 < atoms f e).
  { intro e. rewrite <- (side_pos kr rs e lr pr hr). rewrite <- (side_pos (kp ++ [kl]) (ps ++ [p]) e) by (rewrite ?app_length; cbn; (lia || assumption)). rewrite (bal e). tauto. }
  assert (kin : forall fs ds, Forall molecule fs -> Forall2 counted fs ds -> forall e, In e (keys ds) <-> exists f, In f fs /\ 0 < atoms f e).
  { intros fs ds hf c e. rewrite (keys_symbols fs ds e c). rewrite Forall_forall in hf. split; intros [f [i j]]; exists f; (split; [exact i|]); apply (atoms_symbols f e); try exact j; apply (hf f i). }
  unfold balance_equation, reaction_system. rewrite e1, e2, e3, er. cbn [bind]. rewrite ep. cbn [bind].
  set (es := enum (keys dr)). destruct (he (keys dr)) as [nd hes]. fold es in nd, hes.
  rewrite !subset_true; cycle 1.
  { intros e h. apply hes in h. apply (he (keys dp)). rewrite (kin _ _ hpp cp). rewrite <- same. apply (kin _ _ hr cr). exact h. }
  { intros e h. apply (proj1 (proj2 (he (keys dp)) e)) in h. apply hes. rewrite (kin _ _ hr cr). rewrite same. apply (kin _ _ hpp cp). exact h. }
  cbn [andb]. cbn [bind]. rewrite (columns_vectors 1 es rs dr cr), (columns_vectors (-1) es (ps ++ [p]) dp cp). rewrite map_app. cbn [map]. rewrite app_assoc. rewrite removelast_last, last_app.
  destruct (acc es nd) as [x [ex hx]].
  { intro e. rewrite hes, (kin _ _ hr cr). split.
    - intros [f [i j]]. exists f. split; [apply in_or_app; left; exact i|exact j].
    - intros [f [i j]]. apply in_app_or in i. destruct i as [i|i]; [exists f; tauto|]. apply same. exists f. tauto. }
  rewrite ex. cbn [bind]. rewrite (coefficients_found x (kr ++ kp) kl).
  - cbn [bind]. set (g := gcd_of (kr ++ kp)).
    rewrite map_length. rewrite <- lr. rewrite <- app_assoc. rewrite map_app.
    rewrite <- (map_length (fun k => float_of (k / g)) kr). rewrite firstn_app, skipn_app, Nat.sub_diag, firstn_all, skipn_all, firstn_O, skipn_O, app_nil_r. cbn [app].
    assert (gp : 0 < g).
    { assert (k : kr ++ kp <> []) by (destruct kr as [|a kr']; [destruct rs; [tauto|discriminate]|discriminate]).
      apply (g_pos (kr ++ kp) k). apply Forall_app. split; [exact pr|]. apply Forall_app in pp. tauto. }
    assert (sm : forall ks, Forall (fun k => 0 < k <= 1000) ks -> Forall (fun k => 0 <= k < 10 ^ 15) (map (fun k => k / g) ks)).
    { intros ks h. apply Forall_map. eapply Forall_impl; [|exact h]. cbv beta. intros k hk. split; [apply Z.div_pos; lia|]. eapply Z.le_lt_trans; [apply Z.div_le_upper_bound with (q := 1000); [lia|nia]|lia]. }
    rewrite <- (map_map (fun k => k / g) float_of kr), <- (map_map (fun k => k / g) float_of (kp ++ [kl])).
    rewrite show_terms by (apply sm; exact sr). cbn [bind].
    rewrite show_terms by (apply sm; apply Forall_app; split; assumption). reflexivity.
  - destruct kr as [|a kr']; [destruct rs; [tauto|discriminate]|discriminate].
  - apply Forall_app. split; [exact pr|]. apply Forall_app in pp. tauto.
  - lia.
  - rewrite <- g1. rewrite app_assoc, (gcd_app (kr ++ kp)). f_equal. cbn. rewrite Z.gcd_0_r. symmetry. apply Z.abs_eq. lia.
  - apply Forall_app. split; eapply Forall_impl; [|exact sr| |exact sp]; cbv beta; lia.
  - exact hx.
Qed.

(** When the coefficients are right. *)
Lemma div_one l : map (fun k => k / 1) l = l.
Proof. induction l as [|k l IH]; [reflexivity|]. cbn [map]. rewrite IH, Z.div_1_r. reflexivity. Qed.
Lemma side_scale g ks fs e : (forall k, In k ks -> (g | k)) -> 0 < g -> g * side_atoms (map (fun k => k / g) ks) fs e = side_atoms ks fs e.
Proof.
  intros h hg. unfold side_atoms. revert fs. induction ks as [|k ks IH]; intro fs; [apply Z.mul_0_r|]. destruct fs as [|f fs]; [apply Z.mul_0_r|]. cbn [map combine].
  change (total ?F (?x :: ?l)) with (F x + total F l). cbv beta. cbn [fst snd]. rewrite Z.mul_add_distr_l, IH by (intros; apply h; right; assumption).
  destruct (h k (or_introl eq_refl)) as [m ->]. rewrite Z.div_mul by lia. lia.
Qed.
Lemma side_last ks k fs f e : length ks = length fs -> side_atoms (ks ++ [k]) (fs ++ [f]) e = side_atoms ks fs e + k * atoms f e.
Proof.
  unfold side_atoms. revert fs. induction ks as [|a ks IH]; intros [|b fs] h; try discriminate; [cbn [app combine total fold_right fst snd]; lia|]. cbn [app combine].
  change (total ?F (?x :: ?l)) with (F x + total F l). cbv beta. cbn [fst snd]. rewrite IH by (cbn in h; lia). lia.
Qed.
Lemma has_symbol f : f <> [] -> one_group f -> exists e, In e (formula_symbols f).
Proof.
  assert (pl : forall f, Forall plain_atom f -> f <> [] -> exists e, In e (formula_symbols f)).
  { intros l h n. destruct h as [|a l ha hl]; [tauto|]. destruct a as [s m|]; [|destruct ha]. exists s. left. reflexivity. }
  intros hn [h|[x [g [n [y [-> [hx [hg [hne _]]]]]]]]]; [apply pl; assumption|]. destruct (pl g hg hne) as [e he]. exists e. unfold formula_symbols. rewrite !flat_map_app. cbn [flat_map item_symbols].
  rewrite !in_app_iff. right. left. left. exact he.
Qed.
Theorem printed_balanced_iff rs ps p kr kp kl : rs <> [] -> Forall molecule rs -> Forall molecule ps -> molecule p -> smallest_balance rs ps p kr kp kl ->
  let g := gcd_of (kr ++ kp) in
  balanced (map (fun k => k / g) kr) rs (map (fun k => k / g) (kp ++ [kl])) (ps ++ [p]) <-> g = 1.
Proof.
  intros hn hr hp [hne [hog hpos]] [lr [lp [sz [g1 bal]]]] g. split; [|intros ->; rewrite !div_one; exact bal].
  intro b. assert (sz' := sz). apply Forall_app in sz'. destruct sz' as [sr sz']. apply Forall_app in sz'. destruct sz' as [sp sl]. inversion sl as [|? ? sl' _]; subst.
  assert (gp : 0 < g).
  { assert (k : kr ++ kp <> []) by (destruct kr as [|a kr']; [destruct rs; [tauto|discriminate]|discriminate]).
    apply (g_pos (kr ++ kp) k). apply Forall_app. split; (eapply Forall_impl; [|eassumption]; cbn; lia). }
  assert (dv : forall k, In k (kr ++ kp) -> (g | k)) by (intros; apply (gcd_divides (kr ++ kp)); assumption).
  assert (exists e, 0 < atoms p e) as [e he] by (destruct (has_symbol p hne hog) as [e h]; exists e; apply (atoms_symbols p e hpos); exact h).
  specialize (b e). pose proof (bal e) as be. rewrite map_app in b. cbn [map] in b. rewrite side_last in b by (rewrite map_length; exact lp). rewrite side_last in be by exact lp.
  rewrite <- (side_scale g kr rs e), <- (side_scale g kp ps e) in be by (exact gp || (intros; apply dv; apply in_or_app; tauto)).
  assert (m : g * (kl / g) = kl) by nia.
  assert (d : (g | 1)). { rewrite <- g1. rewrite app_assoc. apply gcd_largest. intros k hk. apply in_app_or in hk. destruct hk as [hk|[<-|[]]]; [apply dv; exact hk|exists (kl / g); lia]. }
  apply Z.divide_1_r_nonneg in d; lia.
Qed.

Lemma subset_false a b e : In e a -> ~ In e b -> subset a b = false.
Proof.
  intros h n. apply not_true_iff_false. intro k. unfold subset in k. rewrite forallb_forall in k. specialize (k e h). unfold mem_str in k. apply existsb_exists in k.
  destruct k as [x [i j]]. apply String.eqb_eq in j. subst x. exact (n i).
Qed.
Theorem different_elements lstsq enum rs ps : rs <> [] -> ps <> [] -> Forall molecule rs -> Forall molecule ps -> set_order enum ->
  (exists e, ~ ((exists f, In f rs /\ 0 < atoms f e) <-> (exists f, In f ps /\ 0 < atoms f e))) ->
  balance_equation lstsq enum (equation_text rs ps) = Raise ETypeError.
Proof.
  intros n1 n2 hr hp he [e hd].
  assert (og : forall fs, Forall molecule fs -> Forall one_group fs) by (intros fs h; eapply Forall_impl; [|exact h]; intros f hf; apply hf).
  destruct (equation_sides rs ps n1 n2 (og _ hr) (og _ hp)) as [l [r [e1 [e2 e3]]]].
  destruct (side_counted rs (og _ hr)) as [dr [er cr]]. destruct (side_counted ps (og _ hp)) as [dp [ep cp]].
  assert (kin : forall fs ds, Forall molecule fs -> Forall2 counted fs ds -> In e (enum (keys ds)) <-> exists f, In f fs /\ 0 < atoms f e).
  { intros fs ds hf c. rewrite (proj2 (he (keys ds))), (keys_symbols fs ds e c). rewrite Forall_forall in hf. split; intros [f [i j]]; exists f; (split; [exact i|]); apply (atoms_symbols f e); try exact j; apply (hf f i). }
  rewrite <- (kin _ _ hr cr), <- (kin _ _ hp cp) in hd.
  unfold balance_equation, reaction_system. rewrite e1, e2, e3, er. cbn [bind]. rewrite ep. cbn [bind].
  destruct (in_dec string_dec e (enum (keys dr))) as [i|i]; destruct (in_dec string_dec e (enum (keys dp))) as [j|j]; [tauto| |  |tauto].
  - rewrite (subset_false (enum (keys dr)) _ e i j), andb_false_r. reflexivity.
  - rewrite (subset_false (enum (keys dp)) _ e j i). reflexivity.
Qed.
(** Two digits after the parenthesis. *)
Lemma digits_value_ge s : all_digits s -> forall a, 0 <= a -> a <= digits_value a s.
Proof. induction s as [|c s IH]; intros h a ha; [cbn; lia|]. destruct h as [hc hs]. cbn [digits_value]. unfold digit in hc. specialize (IH hs (a * 10 + (Z.of_nat (nat_of_ascii c) - 48)) ltac:(lia)). lia. Qed.
Theorem long_subscript_wrong x g c b n y : Forall plain_atom x -> Forall plain_atom g -> g <> [] -> Forall plain_atom y -> digit c -> c <> "0"%char -> digit b -> all_digits n ->
  Forall (fun i => match i with Atom _ m => 0 < subscript_value m | _ => False end) g ->
  exists d e k, parse_molecule (formula_text (x ++ [Group g (String c (String b n))] ++ y)) = Ok d /\ In (e, k) d /\ k < atoms (x ++ [Group g (String c (String b n))] ++ y) e.
Proof.
  intros hx hg hne hy hc h0 hb hn hp. destruct (group_counts x g c (String b n) y hx hg hne hy hc (conj hb hn)) as [d [hd [h1 h2]]].
  destruct (has_symbol g hne (or_introl hg)) as [e he]. exists d, e, (count d e). split; [exact hd|]. split.
  { apply (count_in d e _ (nodup_molecule _ _ hd)). split; [|reflexivity]. rewrite h2. unfold formula_symbols. rewrite !flat_map_app. cbn [flat_map item_symbols]. rewrite !in_app_iff. right. left. left. exact he. }
  rewrite h1. unfold atoms. rewrite !total_app. cbn [total fold_right item_atoms]. fold (total (item_atoms e) g).
  assert (pg : Forall positive_item g) by (eapply Forall_impl; [|exact hp]; intros [s m|]; [exact (fun h => h)|intros []]).
  assert (t : 0 < total (item_atoms e) g) by (apply (atoms_symbols g e pg); exact he).
  assert (c1 : 1 <= Z.of_nat (nat_of_ascii c) - 48).
  { unfold digit in hc. destruct (Nat.eq_dec (nat_of_ascii c) 48) as [q|q]; [|lia]. exfalso. apply h0. rewrite <- (ascii_nat_embedding c), q. reflexivity. }
  assert (lt : subscript_value (String c "") < subscript_value (String c (String b n))).
  { cbn [subscript_value digits_value]. pose proof (digits_value_ge n hn ((0 * 10 + (Z.of_nat (nat_of_ascii c) - 48)) * 10 + (Z.of_nat (nat_of_ascii b) - 48))) as k. unfold digit in hb. lia. }
  assert (total (item_atoms e) g * subscript_value (String c "") < total (item_atoms e) g * subscript_value (String c (String b n))) by (apply Z.mul_lt_mono_pos_l; assumption). lia.
Qed.

Theorem balance_right lstsq enum rs ps p kr kp kl :
  rs <> [] -> Forall molecule rs -> Forall molecule ps -> molecule p -> set_order enum ->
  smallest_balance rs ps p kr kp kl -> accurate lstsq rs ps p (kr ++ kp) kl -> gcd_of (kr ++ kp) = 1 ->
  balance_equation lstsq enum (equation_text rs (ps ++ [p])) = Ok (balanced_text kr rs (kp ++ [kl]) (ps ++ [p])).
Proof. intros h1 h2 h3 h4 h5 h6 h7 h8. rewrite (balance_prints lstsq enum rs ps p kr kp kl) by assumption. rewrite h8, !div_one. reflexivity. Qed.
Theorem balance_right_iff lstsq enum rs ps p kr kp kl :
  rs <> [] -> Forall molecule rs -> Forall molecule ps -> molecule p -> set_order enum ->
  smallest_balance rs ps p kr kp kl -> accurate lstsq rs ps p (kr ++ kp) kl ->
  exists kr' kp', balance_equation lstsq enum (equation_text rs (ps ++ [p])) = Ok (balanced_text kr' rs kp' (ps ++ [p])) /\
    (balanced kr' rs kp' (ps ++ [p]) <-> gcd_of (kr ++ kp) = 1).
Proof.
  intros h1 h2 h3 h4 h5 h6 h7. eexists. eexists. split; [exact (balance_prints lstsq enum rs ps p kr kp kl h1 h2 h3 h4 h5 h6 h7)|].
  exact (printed_balanced_iff rs ps p kr kp kl h1 h2 h3 h4 h6).
Qed.
Theorem no_arrow lstsq enum equation : has_char "-" equation = false -> balance_equation lstsq enum equation = Raise EValueError.
Proof. intro h. unfold balance_equation, reaction_system. rewrite arrow_none by exact h. reflexivity. Qed.
Theorem closest_fraction x : Zpos (Qden (limit_denominator x)) <= 1000000 /\ Qred (limit_denominator x) = limit_denominator x /\
  forall w, Zpos (Qden w) <= 1000000 -> (Qabs (limit_denominator x - x) <= Qabs (w - x))%Q.
Proof. destruct (limit_closest x) as [[h1 h2] h3]. split; [exact h2|]. split; [exact h1|exact h3]. Qed.

(** ** Reactions *)
Lemma symbol_one c : capital c -> symbol (String c "").
Proof. intro h. left. exists c. tauto. Qed.
Lemma symbol_two c d : capital c -> small d -> symbol (String c (String d "")).
Proof. intros h k. right. exists c, d. tauto. Qed.
Ltac plain := first [apply symbol_one; unfold capital; cbn; lia | apply symbol_two; unfold capital, small; cbn; lia].
Ltac atoms_tac := repeat match goal with
  | |- Forall _ (_ :: _) => constructor
  | |- Forall _ [] => constructor
  | |- plain_atom _ => split
  | |- symbol _ => plain
  | |- all_digits _ => cbn; unfold digit; cbn; lia
  end.
Ltac flat_molecule := split; [discriminate|split; [left; atoms_tac|repeat constructor]].
Theorem dimer_refuted : exists lstsq rs ps p kr kp kl,
  rs <> [] /\ Forall molecule rs /\ Forall molecule ps /\ molecule p /\ smallest_balance rs ps p kr kp kl /\ accurate lstsq rs ps p (kr ++ kp) kl /\
  forall enum, set_order enum -> balance_equation lstsq enum (equation_text rs (ps ++ [p])) = Ok "1.0 NO2 -> 0.0 N2O4".
Proof.
  set (f := fun (_ : list (list Z)) (_ : list Z) => Ok [-2 # 1]%Q). pose (a := [Atom "N" ""; Atom "O" "2"]). pose (b := [Atom "N" "2"; Atom "O" "4"]).
  exists f, [a], [], b, [2], [], 1.
  assert (h1 : Forall molecule [a]) by (unfold a; constructor; [flat_molecule|constructor]).
  assert (h2 : molecule b) by (unfold b; flat_molecule).
  assert (h3 : smallest_balance [a] [] b [2] [] 1).
  { repeat split; try reflexivity; try (repeat constructor; lia). intro e. unfold side_atoms, a, b, atoms. cbn [app combine total fold_right fst snd item_atoms].
    destruct (String.eqb "N" e), (String.eqb "O" e); reflexivity. }
  assert (h4 : accurate f [a] [] b ([2] ++ []) 1) by (intros es _ _; eexists; split; [reflexivity|]; repeat constructor).
  split; [discriminate|]. split; [exact h1|]. split; [constructor|]. split; [exact h2|]. split; [exact h3|]. split; [exact h4|]. intros enum he.
  rewrite (balance_prints f enum [a] [] b [2] [] 1) by (assumption || discriminate || constructor). reflexivity.
Qed.
Theorem iodide_case : exists lstsq rs ps p kr kp kl,
  rs <> [] /\ Forall molecule rs /\ Forall molecule ps /\ molecule p /\ smallest_balance rs ps p kr kp kl /\ accurate lstsq rs ps p (kr ++ kp) kl /\ gcd_of (kr ++ kp) = 1 /\
  equation_text rs (ps ++ [p]) = "KI + Pb(NO3)2 -> KNO3 + PbI2" /\
  balance_equation lstsq (nodup string_dec) (equation_text rs (ps ++ [p])) = Ok "2.0 KI + 1.0 Pb(NO3)2 -> 2.0 KNO3 + 1.0 PbI2".
Proof.
  set (f := fun (_ : list (list Z)) (_ : list Z) => Ok [-20000000001 # 10000000000; -1 # 1; -2 # 1]%Q).
  set (a := [Atom "K" ""; Atom "I" ""]). set (b := [Atom "Pb" ""; Group [Atom "N" ""; Atom "O" "3"] "2"]). set (c := [Atom "K" ""; Atom "N" ""; Atom "O" "3"]). set (d := [Atom "Pb" ""; Atom "I" "2"]).
  exists f, [a; b], [c], d, [2; 1], [2], 1. unfold a, b, c, d.
  split; [discriminate|]. split.
  { constructor; [flat_molecule|constructor; [|constructor]]. split; [discriminate|]. split; [|repeat constructor]. right. exists [Atom "Pb" ""], [Atom "N" ""; Atom "O" "3"], "2", [].
    split; [reflexivity|]. split; [atoms_tac|]. split; [atoms_tac|]. split; [discriminate|]. split; [constructor|]. exists "2"%char. unfold digit. cbn. split; [lia|reflexivity]. }
  split; [constructor; [flat_molecule|constructor]|]. split; [flat_molecule|]. split.
  { repeat split; try reflexivity; try (repeat constructor; lia). intro e. unfold side_atoms, atoms. cbn [app combine total fold_right fst snd item_atoms].
    destruct (String.eqb "K" e), (String.eqb "I" e), (String.eqb "Pb" e), (String.eqb "N" e), (String.eqb "O" e); reflexivity. }
  split; [intros es _ _; eexists; split; [reflexivity|]; repeat constructor|]. split; [reflexivity|]. split; [reflexivity|]. vm_compute. reflexivity.
Qed.
