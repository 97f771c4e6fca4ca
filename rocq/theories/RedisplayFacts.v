(** * RedisplayFacts: which displayed units are read back *)
From Coq Require Import String Ascii List ZArith QArith Qcanon Bool Lia.
From Verif Require Import Py Num UnitsData UnitsStruct Units TextSpec TextFacts ShowFacts ParseFacts PrintFacts PrintTextFacts PrintSpec.
Import ListNotations.
Local Open Scope string_scope.
Local Open Scope list_scope.

(** ** A displayed unit contains no caret *)
Lemma show_no c z : is_digit c = false -> (0 <= z)%Z -> has_char c (show_nonneg z) = false.
Proof. intros hc h. destruct (show_nonneg_ok z h) as (l & h1 & _ & -> & _). apply digits_no; assumption. Qed.
Lemma str_expo_no e s : str_expo e = Ok s -> has_char "^" s = false.
Proof.
  assert (Z1 : forall z, has_char "^" (show_Z z) = false).
  { intro z. destruct (show_Z_ok z) as (l & h1 & _ & _ & ->). rewrite has_char_app, (digits_no "^" l eq_refl h1). unfold sign_of. destruct (Z.ltb z 0); reflexivity. }
  unfold str_expo. destruct (isf e); cbn [negb]; [|intro h; injection h as <-; apply Z1]. destruct (Z.leb _ _); [discriminate|]. destruct (is_int _).
  - intro h. assert (K : forall x y : string, Ok x = Ok y -> x = y) by (intros; congruence). apply K in h. subst s. rewrite has_char_app, Z1. reflexivity.
  - destruct (Z.ltb _ _); [discriminate|]. destruct (dec_places _ _ _) as [k|]; [|discriminate]. set (m := (Z.abs _ * _ / _)%Z). destruct (Z.leb _ m); [discriminate|]. intro h. assert (K : forall x y : string, Ok x = Ok y -> x = y) by (intros; congruence). apply K in h. subst s.
    assert (m0 : (0 <= m)%Z) by (apply Z.div_pos; [apply Z.mul_nonneg_nonneg; [apply Z.abs_nonneg|apply Z.pow_nonneg; lia]|reflexivity]). assert (p : (0 < 10 ^ Z.of_nat k)%Z) by (apply Z.pow_pos_nonneg; lia).
    rewrite !has_char_app. rewrite show_no by (try reflexivity; apply Z.div_pos; lia). destruct (pad_text k (m mod 10 ^ Z.of_nat k)) as (l & l1 & _ & -> & _); [apply Z.mod_pos_bound; lia|]. rewrite (digits_no "^" l eq_refl l1).
    destruct (Z.ltb _ 0); reflexivity.
Qed.
Lemma sup_char_no a : Ascii.eqb a "^" = false -> has_char "^" (sup_char a) = false.
Proof. intro h. unfold sup_char. repeat match goal with |- context [if ?b then _ else _] => destruct b; [reflexivity|] end. cbn [has_char]. rewrite h. reflexivity. Qed.
Lemma to_sup_no s : has_char "^" s = false -> has_char "^" (to_sup s) = false.
Proof. induction s as [|a s IH]; [reflexivity|]. cbn [has_char to_sup]. intro h. apply orb_false_iff in h. destruct h as (h1 & h2). rewrite has_char_app, (sup_char_no a h1), (IH h2). reflexivity. Qed.
Lemma show_sup_no n e s : has_char "^" n = false -> show_sup n e = Ok s -> has_char "^" s = false.
Proof.
  intros hn h. unfold show_sup in h. destruct (remove_zero e) as [z|]; [|discriminate]. cbn [bind] in h. destruct (str_expo z) as [t|] eqn:ht; [|discriminate]. cbn [bind] in h. injection h as <-.
  rewrite has_char_app, hn, (to_sup_no t (str_expo_no _ _ ht)). reflexivity.
Qed.
Lemma show_bu_no x s : has_char "^" (bname x) = false -> show_bu x = Ok s -> has_char "^" s = false.
Proof. intros hn h. unfold show_bu in h. destruct (e_is _ _); [injection h as <-; exact hn|exact (show_sup_no _ _ _ hn h)]. Qed.
Lemma spaced_no_caret l : (forall t, In t l -> has_char "^" t = false) -> has_char "^" (spaced l) = false.
Proof.
  induction l as [|x [|y l] IH]; intro h; [reflexivity|apply h; left; reflexivity|]. change (spaced (x :: y :: l)) with (x +++ " * " +++ spaced (y :: l)). rewrite !has_char_app, (h x (or_introl eq_refl)), IH by (intros t ht; apply h; right; exact ht). reflexivity.
Qed.
Lemma bottom_no l : forall top acc r, (forall x, In x l -> has_char "^" (bname x) = false) -> has_char "^" top = false -> (forall t, In t acc -> has_char "^" t = false) ->
  show_bottom l top acc = Ok r -> has_char "^" (fst r) = false /\ forall t, In t (snd r) -> has_char "^" t = false.
Proof.
  induction l as [|x l IH]; intros top acc r hl ht ha h; cbn [show_bottom] in h; [injection h as <-; split; assumption|].
  assert (hx := hl x (or_introl eq_refl)). assert (hl' : forall y, In y l -> has_char "^" (bname y) = false) by (intros y hy; apply hl; right; exact hy).
  assert (add : forall s, has_char "^" s = false -> forall t, In t (acc ++ [s]) -> has_char "^" t = false) by (intros s hs t it; apply in_app_or in it; destruct it as [it|[<-|[]]]; [apply ha, it|exact hs]).
  destruct (e_is (bexp x) 1); [exact (IH _ _ _ hl' ht (add _ hx) h)|]. destruct (eltb _ _).
  - destruct (show_sup (bname x) (eopp (bexp x))) as [s|] eqn:hs; [|discriminate]. cbn [bind] in h. pose proof (show_sup_no _ _ _ hx hs) as ns. refine (IH _ _ _ hl' _ ha h). destruct (String.eqb top ""); [exact ns|]. rewrite !has_char_app, ht, ns. reflexivity.
  - destruct (show_sup (bname x) (bexp x)) as [s|] eqn:hs; [|discriminate]. cbn [bind] in h. exact (IH _ _ _ hl' ht (add _ (show_sup_no _ _ _ hx hs)) h).
Qed.
Lemma mapM_no l : forall ts, (forall x, In x l -> has_char "^" (bname x) = false) -> mapM show_bu l = Ok ts -> forall t, In t ts -> has_char "^" t = false.
Proof.
  induction l as [|x l IH]; intros ts hl h; cbn [mapM] in h; [injection h as <-; intros t []|]. destruct (show_bu x) as [s|] eqn:hs; [|discriminate]. cbn [bind] in h. destruct (mapM show_bu l) as [r|]; [|discriminate]. cbn [bind] in h. injection h as <-.
  intros t [<-|ht]; [exact (show_bu_no _ _ (hl x (or_introl eq_refl)) hs)|]. apply (IH r); [intros y hy; apply hl; right; exact hy|reflexivity|exact ht].
Qed.
Lemma unit_string_no top bot s : (forall x, In x (top ++ bot) -> has_char "^" (bname x) = false) -> get_unit_string top bot = Ok s -> has_char "^" s = false.
Proof.
  intros hl h. unfold get_unit_string in h. destruct (mapM show_bu top) as [ts|] eqn:ht; [|discriminate]. cbn [bind] in h. rewrite join_spaced in h.
  assert (nt : has_char "^" (spaced ts) = false) by (apply spaced_no_caret; apply (mapM_no top); [intros x hx; apply hl, in_or_app; auto|exact ht]).
  destruct bot as [|y bot]; [injection h as <-; exact nt|]. destruct (show_bottom (y :: bot) (spaced ts) nil) as [r|] eqn:hr; [|discriminate]. cbn [bind] in h. injection h as <-.
  destruct (bottom_no _ _ _ _ (fun x hx => hl x (in_or_app _ _ _ (or_intror hx))) nt (fun t (f : In t nil) => match f with end) hr) as (a & b). rewrite !has_char_app, a, join_spaced. cbn [orb]. change (has_char "^" (spaced (snd r)) = false). apply spaced_no_caret, b.
Qed.

(** ** Reading a text without carets *)
Definition one_each (l : list string) : half := map (fun t => BU t (eflt (qc 1))) l.
Lemma split_no c d s : has_char d s = false -> forall t, In t (split_on c s) -> has_char d t = false.
Proof.
  induction s as [|a s IH]; intro h; [intros t [<-|[]]; reflexivity|]. cbn [has_char] in h. apply orb_false_iff in h. destruct h as (h1 & h2). specialize (IH h2). cbn [split_on]. destruct (Ascii.eqb a c).
  - intros t [<-|ht]; [reflexivity|apply IH, ht].
  - destruct (split_on c s) as [|x l]; intros t [<-|ht]; try (cbn; rewrite h1; try reflexivity); [destruct ht|apply IH; left; reflexivity|apply IH; right; exact ht].
Qed.
Lemma lstrip_no d s : has_char d s = false -> has_char d (lstrip s) = false.
Proof. induction s as [|a s IH]; [reflexivity|]. intro h. cbn [lstrip]. destruct (is_space a); [apply IH; cbn in h; apply orb_false_iff in h; apply h|exact h]. Qed.
Lemma rstrip_no d s : has_char d s = false -> has_char d (rstrip s) = false.
Proof. induction s as [|a s IH]; [reflexivity|]. cbn [has_char rstrip]. intro h. apply orb_false_iff in h. destruct h as (h1 & h2). destruct (_ && _); [reflexivity|]. cbn. rewrite h1, (IH h2). reflexivity. Qed.
Lemma parse_half_no s : has_char "^" s = false -> parse_half s = Ok (one_each (split_on "*" (strip s))).
Proof.
  intro h. unfold parse_half. assert (g : forall t, In t (split_on "*" (strip s)) -> has_char "^" t = false) by (apply split_no, rstrip_no, lstrip_no, h). clear h. induction (split_on "*" (strip s)) as [|t l IH]; [reflexivity|].
  cbn [mapM]. unfold parse_factor at 1. rewrite (g t (or_introl eq_refl)). cbn [bind]. rewrite IH by (intros u hu; apply g; right; exact hu). reflexivity.
Qed.
Lemma parse_no s : has_char "^" s = false -> exists t b, parse_units s = Ok (one_each t, one_each b).
Proof.
  intro h. unfold parse_units. pose proof (split_no "/" "^" s h) as g. destruct (split_on "/" s) as [|t [|b [|c l]]]; cbn [bind].
  1,2,4: exists (split_on "*" (strip s)), nil; rewrite (parse_half_no s h); reflexivity.
  rewrite (parse_half_no b) by (apply g; right; left; reflexivity). cbn [bind]. rewrite (parse_half_no t) by (apply g; left; reflexivity). eexists _, _. reflexivity.
Qed.
Lemma one_each_exp l x : In x (one_each l) -> ev (bexp x) = Q2Qc 1.
Proof. intro h. apply in_map_iff in h. destruct h as (t & <- & _). reflexivity. Qed.
Lemma same_exp (l m : half) : map name_exp l = map name_exp m -> (forall x, In x l -> ev (bexp x) = Q2Qc 1) -> forall x, In x m -> ev (bexp x) = Q2Qc 1.
Proof.
  revert m. induction l as [|y l IH]; intros [|z m] e h x hx; try discriminate; [destruct hx|]. cbn [map] in e. unfold name_exp in e at 1 3. injection e as e1 e2 e3. destruct hx as [<-|hx]; [rewrite <- e2; apply h; left; reflexivity|].
  apply (IH m e3); [intros w hw; apply h; right; exact hw|exact hx].
Qed.
Lemma same_names (l m : half) : map name_exp l = map name_exp m -> map bname l = map bname m.
Proof. intro h. apply (f_equal (map fst)) in h. rewrite !map_map in h. exact h. Qed.

(** ** Units without exponents *)
Lemma e_is_one x : ev (bexp x) = Q2Qc 1 -> e_is (bexp x) 1 = true.
Proof. intro h. unfold e_is. rewrite h. reflexivity. Qed.
Lemma string_plain top bot : (forall x, In x (top ++ bot) -> ev (bexp x) = Q2Qc 1) ->
  get_unit_string top bot = Ok (spaced (map bname top) +++ match bot with nil => "" | _ => " / " +++ spaced (map bname bot) end).
Proof.
  intro h. unfold get_unit_string. assert (ht : forall l, (forall x, In x l -> ev (bexp x) = Q2Qc 1) -> mapM show_bu l = Ok (map bname l)).
  { induction l as [|x l IH]; intro hl; [reflexivity|]. cbn [mapM]. unfold show_bu at 1. rewrite (e_is_one x (hl x (or_introl eq_refl))). cbn [bind]. rewrite IH by (intros y hy; apply hl; right; exact hy). reflexivity. }
  rewrite ht by (intros x hx; apply h, in_or_app; auto). cbn [bind]. rewrite join_spaced. destruct bot as [|y bot]; [rewrite sapp_nil; reflexivity|].
  assert (hb : forall l t acc, (forall x, In x l -> ev (bexp x) = Q2Qc 1) -> show_bottom l t acc = Ok (t, acc ++ map bname l)).
  { induction l as [|x l IH]; intros t acc hl; [cbn; rewrite app_nil_r; reflexivity|]. cbn [show_bottom]. rewrite (e_is_one x (hl x (or_introl eq_refl))), IH by (intros z hz; apply hl; right; exact hz). rewrite <- app_assoc. reflexivity. }
  rewrite hb by (intros x hx; apply h, in_or_app; auto). cbn [bind fst snd List.app]. rewrite join_spaced. reflexivity.
Qed.
Lemma plain_parts s : plain_text s = true -> blank_free s = true /\ has_char "*" s = false /\ has_char "/" s = false /\ has_char "^" s = false /\ has_char " " s = false.
Proof.
  induction s as [|c s IH]; [auto|]. cbn [plain_text blank_free has_char]. intro h. apply andb_true_iff in h. destruct h as (h1 & h2). destruct (IH h2) as (a & b & d & f & g). rewrite a, b, d, f, g. unfold plain_char in h1. apply negb_true_iff in h1.
  apply orb_false_iff in h1. destruct h1 as (h1 & h4). apply orb_false_iff in h1. destruct h1 as (h1 & h3). apply orb_false_iff in h1. destruct h1 as (h0 & h1). rewrite StripFacts.blank_space in h4. rewrite h4, h0, h1, h3. repeat split; try reflexivity.
  rewrite orb_false_r. destruct (Ascii.eqb_spec c " ") as [->|]; [discriminate|reflexivity].
Qed.
Lemma lstrip_plain x r : plain_text x = true -> x <> "" -> lstrip (x +++ r) = x +++ r.
Proof. intros h hn. destruct x as [|c x]; [congruence|]. cbn [String.append lstrip]. apply plain_parts in h. destruct h as (h & _). cbn in h. apply andb_true_iff in h. destruct h as (h & _). apply negb_true_iff in h. rewrite h. reflexivity. Qed.
(** Two factors: a blank sticks to the first name. *)
Lemma two_names x y l r : plain_text x = true -> x <> "" -> exists p, split_on "*" (strip (spaced (x :: y :: l) +++ r)) = (x +++ " ") :: p.
Proof.
  intros h hn. assert (e : spaced (x :: y :: l) +++ r = (x +++ " ") +++ String "*" (" " +++ spaced (y :: l) +++ r)).
  { change (spaced (x :: y :: l)) with (x +++ " * " +++ spaced (y :: l)). rewrite !sapp_assoc. reflexivity. }
  unfold strip. rewrite e, sapp_assoc, (lstrip_plain x _ h hn), <- sapp_assoc, rstrip_app by reflexivity. rewrite split_sep; [eexists; reflexivity|]. rewrite has_char_app. destruct (plain_parts x h) as (_ & -> & _). reflexivity.
Qed.
Lemma one_name x : plain_text x = true -> x <> "" -> split_on "*" (strip x) = [x] /\ split_on "*" (strip (x +++ " ")) = [x] /\ split_on "*" (strip (" " +++ x)) = [x].
Proof.
  intros h hn. destruct (plain_parts x h) as (b & s & _). assert (r : rstrip (x +++ " ") = x).
  { clear h hn s. induction x as [|c x IH]; [reflexivity|]. cbn [blank_free] in b. apply andb_true_iff in b. destruct b as (b1 & b2). cbn [String.append rstrip]. rewrite (IH b2). apply negb_true_iff in b1. rewrite b1. reflexivity. }
  split; [rewrite strip_free by exact b; apply split_none, s|]. split.
  - unfold strip. rewrite (lstrip_plain x " " h hn), r. apply split_none, s.
  - change (strip (" " +++ x)) with (strip x). rewrite strip_free by exact b. apply split_none, s.
Qed.
Lemma spaced_no_slash l : (forall t, In t l -> has_char "/" t = false) -> has_char "/" (spaced l) = false.
Proof.
  induction l as [|x [|y l] IH]; intro h; [reflexivity|apply h; left; reflexivity|]. change (spaced (x :: y :: l)) with (x +++ " * " +++ spaced (y :: l)). rewrite !has_char_app, (h x (or_introl eq_refl)), IH by (intros t ht; apply h; right; exact ht). reflexivity.
Qed.

(** ** The characterisation *)
Section Back.
Context {T : Type}.
Lemma blank_name x : plain_text x = true -> x +++ " " <> x.
Proof. intros h c. apply plain_parts in h. destruct h as (_ & _ & _ & _ & h). rewrite <- c, has_char_app in h. cbn in h. rewrite orb_true_r in h. discriminate. Qed.
Lemma names_of l : map bname (one_each l) = l.
Proof. unfold one_each. rewrite map_map. cbn. apply map_id. Qed.
Theorem read_back c (v : T) top bot s : (forall x, In x (top ++ bot) -> plain_text (bname x) = true /\ bname x <> "") -> get_unit_string top bot = Ok s ->
  (exists m, mk_multi c v s = Ok m /\ map name_exp (mtop m) = map name_exp top /\ map name_exp (mbot m) = map name_exp bot) <-> survives top bot.
Proof.
  intros hp hs. assert (hc : has_char "^" s = false) by (apply (unit_string_no top bot s); [intros x hx; destruct (hp x hx) as (a & _); apply plain_parts in a; apply a|exact hs]).
  assert (all1 : forall m, mk_multi c v s = Ok m -> map name_exp (mtop m) = map name_exp top -> map name_exp (mbot m) = map name_exp bot -> forall x, In x (top ++ bot) -> ev (bexp x) = Q2Qc 1).
  { intros m hm e1 e2 x hx. unfold mk_multi in hm. assert (g : (forall y, In y (mtop m) -> ev (bexp y) = Q2Qc 1) /\ (forall y, In y (mbot m) -> ev (bexp y) = Q2Qc 1)).
    { destruct (String.eqb s ""); [injection hm as <-; split; intros y []|]. destruct (parse_no s hc) as (t & b & e). rewrite e in hm. cbn [bind fst snd] in hm. injection hm as <-. cbn [mtop mbot]. split; intros y hy; exact (one_each_exp _ _ hy). }
    apply in_app_or in hx. destruct hx as [hx|hx]; [exact (same_exp _ _ e1 (proj1 g) x hx)|exact (same_exp _ _ e2 (proj2 g) x hx)]. }
  assert (P : forall x, In x (map bname top) -> plain_text x = true /\ x <> "") by (intros x hx; apply in_map_iff in hx; destruct hx as (y & <- & hy); apply hp, in_or_app; auto).
  assert (B : forall x, In x (map bname bot) -> plain_text x = true /\ x <> "") by (intros x hx; apply in_map_iff in hx; destruct hx as (y & <- & hy); apply hp, in_or_app; auto).
  assert (sl : forall l, (forall x, In x l -> plain_text x = true /\ x <> "") -> has_char "/" (spaced l) = false).
  { intros l hl. apply spaced_no_slash. intros t ht. destruct (hl t ht) as (a & _). apply plain_parts in a. apply a. }
  split.
  - intros (m & hm & e1 & e2). pose proof (all1 m hm e1 e2) as one. rewrite (string_plain top bot one) in hs. assert (K : forall x y : string, Ok x = Ok y -> x = y) by (intros; congruence). apply K in hs.
    apply same_names in e1, e2. unfold mk_multi in hm. destruct bot as [|y bot].
    + rewrite sapp_nil in hs. destruct top as [|x [|x2 top]]; [left; split; reflexivity|right; exists x; split; [reflexivity|split; [apply one; left; reflexivity|left; reflexivity]]|exfalso].
      cbn [map] in hs, P. destruct (P (bname x) (or_introl eq_refl)) as (px & nx). assert (nz : String.eqb s "" = false) by (apply String.eqb_neq; subst s; destruct (bname x); [congruence|discriminate]).
      rewrite nz in hm. unfold parse_units in hm. rewrite split_none in hm by (rewrite <- hs; apply sl; exact P). cbn [bind] in hm. rewrite (parse_half_no s hc) in hm. cbn [bind fst snd] in hm. injection hm as <-. cbn [mtop] in e1. rewrite names_of in e1.
      destruct (two_names (bname x) (bname x2) (map bname top) "" px nx) as (p & ep). rewrite sapp_nil, hs in ep. rewrite ep in e1. cbn [map] in e1. injection e1 as e1 _. exact (blank_name _ px e1).
    + assert (nz : String.eqb s "" = false). { apply String.eqb_neq. subst s. destruct (spaced (map bname top)); discriminate. }
      rewrite nz in hm. unfold parse_units in hm. assert (es : s = (spaced (map bname top) +++ " ") +++ String "/" (" " +++ spaced (map bname (y :: bot)))) by (rewrite <- hs, sapp_assoc; reflexivity).
      assert (n1 : has_char "/" (spaced (map bname top) +++ " ") = false) by (rewrite has_char_app, (sl _ P); reflexivity). assert (n2 : has_char "/" (" " +++ spaced (map bname (y :: bot))) = false) by (rewrite has_char_app, (sl _ B); reflexivity).
      rewrite es in hc. rewrite has_char_app in hc. apply orb_false_iff in hc. destruct hc as (c1 & c2). cbn [has_char] in c2. apply orb_false_iff in c2. destruct c2 as (_ & c2).
      rewrite es, (split_sep "/" _ _ n1), (split_none "/" _ n2), (parse_half_no _ c2) in hm. cbn [bind] in hm. rewrite (parse_half_no _ c1) in hm. cbn [bind fst snd] in hm. injection hm as <-. cbn [mtop mbot] in e1, e2. rewrite names_of in e1, e2.
      right. destruct top as [|x [|x2 top]]; [exfalso; discriminate e1| |exfalso].
      * exists x. split; [reflexivity|]. split; [apply one; left; reflexivity|right]. destruct bot as [|y2 bot]; [exists y; split; [reflexivity|apply one; right; left; reflexivity]|exfalso].
        cbn [map] in e2, B. destruct (B (bname y) (or_introl eq_refl)) as (py & ny). destruct (two_names (bname y) (bname y2) (map bname bot) "" py ny) as (p & ep). rewrite sapp_nil in ep.
        assert (e3 : (bname y +++ " ") :: p = bname y :: bname y2 :: map bname bot) by (rewrite <- ep; exact e2). injection e3 as e3 _. exact (blank_name _ py e3).
      * cbn [map] in e1, P. destruct (P (bname x) (or_introl eq_refl)) as (px & nx). destruct (two_names (bname x) (bname x2) (map bname top) " " px nx) as (p & ep). rewrite ep in e1. injection e1 as e1 _. exact (blank_name _ px e1).
  - intros [(-> & ->)|(x & -> & x1 & hb)].
    + cbn in hs. injection hs as <-. eexists. split; [reflexivity|]. split; reflexivity.
    + destruct (hp x (or_introl eq_refl)) as (px & nx). destruct (one_name (bname x) px nx) as (o1 & o2 & _). destruct (plain_parts _ px) as (_ & _ & nsl & ncx & _). destruct hb as [->|(y & -> & y1)].
      * rewrite string_plain in hs by (intros z [<-|[]]; exact x1). cbn [map spaced] in hs. rewrite sapp_nil in hs. injection hs as <-. unfold mk_multi. replace (String.eqb (bname x) "") with false by (symmetry; apply String.eqb_neq, nx).
        unfold parse_units. rewrite (split_none "/" _ nsl). cbn [bind]. rewrite (parse_half_no _ hc), o1. eexists. split; [reflexivity|]. split; [|reflexivity]. cbn. unfold name_exp. cbn. rewrite x1. reflexivity.
      * rewrite string_plain in hs by (intros z [<-|[<-|[]]]; assumption). destruct (hp y (or_intror (or_introl eq_refl))) as (py & ny). destruct (one_name (bname y) py ny) as (_ & _ & o3). destruct (plain_parts _ py) as (_ & _ & nsy & ncy & _).
        assert (K : forall x y : string, Ok x = Ok y -> x = y) by (intros; congruence). apply K in hs. assert (es : s = (bname x +++ " ") +++ String "/" (" " +++ bname y)) by (rewrite <- hs, sapp_assoc; reflexivity).
        unfold mk_multi. replace (String.eqb s "") with false by (symmetry; apply String.eqb_neq; rewrite es; destruct (bname x); [congruence|discriminate]).
        unfold parse_units. rewrite es.
        rewrite split_sep by (rewrite has_char_app, nsl; reflexivity). rewrite split_none by (cbn; exact nsy). rewrite (parse_half_no (" " +++ bname y)) by (cbn; exact ncy). cbn [bind]. rewrite (parse_half_no (bname x +++ " ")) by (rewrite has_char_app, ncx; reflexivity).
        rewrite o2, o3. eexists. split; [reflexivity|]. cbn. unfold name_exp. cbn. rewrite x1, y1. split; reflexivity.
Qed.
End Back.
Lemma read_back_cases : get_unit_string [BU "m" (eint 1)] [BU "s" (eint 1)] = Ok "m / s" /\ survives [BU "m" (eint 1)] [BU "s" (eint 1)] /\
  get_unit_string [BU "m" (eint 2)] nil = Ok ("m" +++ sup_num (Numeral None [2%nat] None None)) /\ ~ survives [BU "m" (eint 2)] nil.
Proof.
  split; [reflexivity|]. split; [right; eexists; split; [reflexivity|]; split; [reflexivity|right; eexists; split; reflexivity]|]. split; [reflexivity|].
  intros [(c & _)|(x & e & h & _)]; [discriminate|]. injection e as <-. discriminate h.
Qed.
