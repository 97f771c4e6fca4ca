(** * UtilityFacts: powerset, parentheses, hashes *)
From Coq Require Import String Ascii List Bool Arith Lia QArith Qcanon ZArith Sorted Logic.FinFun.
From Verif Require Import Py UnitsData UnitsStruct TextSpec TextFacts ShowFacts Print Utility UtilitySpec.
Import ListNotations.
Local Open Scope string_scope.
Local Open Scope list_scope.
Local Open Scope nat_scope.

(** ** Combinations *)
Lemma comb_nil {A} (l : list A) : combinations 0 l = [nil].
Proof. destruct l; reflexivity. Qed.
Lemma comb_in {A} (l : list A) : forall r c, In c (combinations r l) <-> sub c l /\ List.length c = r.
Proof.
  assert (sn : forall l : list A, sub nil l) by (induction l0; constructor; assumption).
  induction l as [|x l IH]; intros r c.
  - destruct r; cbn [combinations In]; split.
    + intros [<-|[]]. split; [constructor|reflexivity].
    + intros (h & _). inversion h. left. reflexivity.
    + intros [].
    + intros (h & k). inversion h. subst. discriminate.
  - destruct r as [|r].
    + rewrite comb_nil. split; [intros [<-|[]]; split; [apply sn|reflexivity]|]. intros (_ & k). destruct c; [left; reflexivity|discriminate].
    + cbn [combinations]. rewrite in_app_iff, in_map_iff, IH. split.
      * intros [(d & <- & hd)|(h & k)]; [apply IH in hd; destruct hd as (h & k); split; [constructor; exact h|cbn; congruence]|split; [constructor; exact h|exact k]].
      * intros (h & k). inversion h; subst; [left|right; auto]. eexists. split; [reflexivity|]. apply IH. split; [assumption|cbn in k; congruence].
Qed.
Lemma sub_length {A} (c l : list A) : sub c l -> List.length c <= List.length l.
Proof. induction 1; cbn; lia. Qed.
Theorem powerset_in {A} (l c : list A) : In c (powerset l) <-> sub c l /\ c <> nil.
Proof.
  unfold powerset. rewrite in_flat_map. split.
  - intros (r & hr & h). apply comb_in in h. destruct h as (h & k). apply in_seq in hr. split; [exact h|]. intros ->. cbn in k. lia.
  - intros (h & k). exists (List.length c). split; [|apply comb_in; auto]. apply in_seq. apply sub_length in h. destruct c; [congruence|cbn in *; lia].
Qed.
Lemma comb_over {A} (l : list A) : forall r, List.length l < r -> combinations r l = nil.
Proof. induction l as [|x l IH]; intros [|r] h; cbn in *; try lia; [reflexivity|]. rewrite !IH by lia. reflexivity. Qed.
(** all sizes from 0 on *)
Definition sizes {A} n (l : list A) := list_sum (map (fun r => List.length (combinations r l)) (seq 0 n)).
Lemma sizes_snoc {A} n (l : list A) : sizes (S n) l = sizes n l + List.length (combinations n l).
Proof. unfold sizes. rewrite seq_S, map_app, list_sum_app. cbn. lia. Qed.
Lemma sizes_cons {A} x (l : list A) : forall n, sizes (S n) (x :: l) = sizes n l + sizes (S n) l.
Proof.
  induction n as [|n IH]; [unfold sizes; cbn; rewrite comb_nil; reflexivity|]. rewrite sizes_snoc, IH, (sizes_snoc (S n) l), (sizes_snoc n l). cbn [combinations]. rewrite app_length, map_length. lia.
Qed.
Lemma sizes_all {A} (l : list A) : sizes (S (List.length l)) l = 2 ^ List.length l.
Proof.
  induction l as [|x l IH]; [reflexivity|]. cbn [List.length]. rewrite sizes_cons, IH, sizes_snoc, comb_over by lia. rewrite IH. cbn. lia.
Qed.
Theorem powerset_count {A} (l : list A) : List.length (powerset l) + 1 = 2 ^ List.length l.
Proof.
  rewrite <- sizes_all. unfold sizes, powerset. cbn [seq map list_sum fold_right]. rewrite comb_nil. cbn [List.length].
  assert (k : forall m, List.length (flat_map (fun r => combinations r l) m) = list_sum (map (fun r => List.length (combinations r l)) m)) by (induction m as [|r m IH]; cbn; [reflexivity|]; rewrite app_length, IH; reflexivity).
  rewrite k. unfold list_sum. cbn. lia.
Qed.
Lemma NoDup_two {A} (l m : list A) : NoDup l -> NoDup m -> (forall x, In x l -> ~ In x m) -> NoDup (l ++ m).
Proof.
  induction l as [|x l IH]; intros hl hm h; [exact hm|]. inversion hl; subst. cbn. constructor.
  - rewrite in_app_iff. intros [k|k]; [contradiction|]. exact (h x (or_introl eq_refl) k).
  - apply IH; [assumption|exact hm|]. intros y hy. apply h. right. exact hy.
Qed.
Lemma sub_incl {A} (c l : list A) : sub c l -> incl c l.
Proof. induction 1; intros y hy; [exact hy|destruct hy as [<-|hy]; [left; reflexivity|right; auto]|right; auto]. Qed.
Lemma comb_nodup {A} (l : list A) : NoDup l -> forall r, NoDup (combinations r l).
Proof.
  induction 1 as [|x l hx hl IH]; intros [|r]; try (rewrite comb_nil; repeat constructor; intros []); [constructor|]. cbn [combinations]. apply NoDup_two; [|apply IH|].
  - apply Injective_map_NoDup; [intros a b e; congruence|apply IH].
  - intros c hc hd. apply in_map_iff in hc. destruct hc as (d & <- & _). apply comb_in in hd. destruct hd as (hd & _). apply hx. apply (sub_incl _ _ hd). left. reflexivity.
Qed.
Theorem powerset_nodup {A} (l : list A) : NoDup l -> NoDup (powerset l).
Proof.
  intro h. unfold powerset. assert (k : forall m, NoDup m -> NoDup (flat_map (fun r => combinations r l) m)); [|apply k, seq_NoDup].
  induction 1 as [|r m hr hm IH]; [constructor|]. cbn [flat_map]. apply NoDup_two; [apply comb_nodup, h|exact IH|].
  intros c hc hd. apply comb_in in hc. apply in_flat_map in hd. destruct hd as (r' & h1 & h2). apply comb_in in h2. destruct hc as (_ & e1), h2 as (_ & e2). subst. contradiction.
Qed.
Lemma comb_map {A B} (f : A -> B) l : forall r, combinations r (map f l) = map (map f) (combinations r l).
Proof.
  induction l as [|x l IH]; intros [|r]; try (rewrite !comb_nil; reflexivity); [reflexivity|]. cbn [map combinations]. rewrite map_app, !map_map, !IH, map_map. reflexivity.
Qed.
Theorem powerset_map {A B} (f : A -> B) l : powerset (map f l) = map (map f) (powerset l).
Proof. unfold powerset. rewrite map_length. induction (seq 1 (List.length l)) as [|r m IH]; [reflexivity|]. cbn [flat_map]. rewrite map_app, comb_map, IH. reflexivity. Qed.
Lemma sorted_app {A} (R : A -> A -> Prop) a b : StronglySorted R a -> StronglySorted R b -> (forall x y, In x a -> In y b -> R x y) -> StronglySorted R (a ++ b).
Proof.
  induction a as [|x a IH]; intros ha hb h; [exact hb|]. inversion ha; subst. cbn. constructor.
  - apply IH; [assumption|exact hb|]. intros y z hy hz. apply h; [right; exact hy|exact hz].
  - rewrite Forall_forall in *. intros y hy. apply in_app_iff in hy. destruct hy as [hy|hy]; [auto|apply h; [left; reflexivity|exact hy]].
Qed.
Lemma comb_dict n : forall r a, StronglySorted dict_before (combinations r (seq a n)).
Proof.
  induction n as [|n IH]; intros [|r] a; try (rewrite comb_nil; constructor; [constructor|constructor]); [constructor|]. cbn [seq combinations]. apply sorted_app; [|apply IH|].
  - specialize (IH r (S a)). induction IH as [|c m hm IHm hc]; [constructor|]. cbn [map]. constructor; [exact IHm|]. rewrite Forall_forall in *. intros d hd. apply in_map_iff in hd. destruct hd as (e & <- & he). right. split; [reflexivity|auto].
  - intros x y hx hy. apply in_map_iff in hx. destruct hx as (c & <- & _). apply comb_in in hy. destruct hy as (h & k). destruct y as [|y l]; [discriminate k|]. left.
    apply sub_incl in h. specialize (h y (or_introl eq_refl)). apply in_seq in h. lia.
Qed.
Theorem powerset_order n : StronglySorted listed_before (powerset (seq 0 n)).
Proof.
  unfold powerset. rewrite seq_length. set (l := seq 0 n). generalize 1 as a. revert l. intros l. assert (D : forall r, StronglySorted dict_before (combinations r l)) by (intro r; apply comb_dict). clearbody l.
  induction n as [|n IH]; intro a; [constructor|]. cbn [seq flat_map]. apply sorted_app; [|apply IH|].
  - assert (k : forall c, In c (combinations a l) -> List.length c = a) by (intros c hc; apply comb_in in hc; apply hc). specialize (D a). revert k. induction D as [|c m hm IHm hc]; intro k; [constructor|]. constructor; [apply IHm; intros d hd; apply k; right; exact hd|].
    rewrite Forall_forall in *. intros d hd. right. rewrite (k c), (k d); [auto|right; exact hd|left; reflexivity].
  - intros x y hx hy. apply comb_in in hx. apply in_flat_map in hy. destruct hy as (r & h1 & h2). apply comb_in in h2. apply in_seq in h1. left. lia.
Qed.

(** ** Parentheses *)
Fixpoint nest (d : nat) (s : string) : bool :=
  match s with
  | EmptyString => Nat.eqb d 0
  | String c r => if Ascii.eqb c "(" then nest (S d) r else if Ascii.eqb c ")" then match d with O => false | S d' => nest d' r end else false
  end.
Lemma two_step (P : string -> Prop) : P "" -> (forall c, P (String c "")) -> (forall c d r, P r -> P (String d r) -> P (String c (String d r))) -> forall s, P s.
Proof.
  intros h0 h1 h2. assert (k : forall s, P s /\ forall c, P (String c s)); [|intro s; apply k]. induction s as [|d r (ha & hb)]; [auto|]. split; [apply hb|]. intro c. apply h2; auto.
Qed.
Lemma drop_step c d r : drop_pairs (String c (String d r)) = if Ascii.eqb c "(" && Ascii.eqb d ")" then drop_pairs r else String c (drop_pairs (String d r)).
Proof.
  destruct (Ascii.eqb c "(") eqn:e1; cbn [andb].
  - apply Ascii.eqb_eq in e1. subst c. destruct (Ascii.eqb d ")") eqn:e2; [apply Ascii.eqb_eq in e2; subst d; reflexivity|].
    destruct d as [[] [] [] [] [] [] [] []]; try reflexivity. discriminate e2.
  - destruct c as [[] [] [] [] [] [] [] []]; try reflexivity. discriminate e1.
Qed.
Lemma drop_one c : drop_pairs (String c "") = String c "".
Proof. destruct c as [[] [] [] [] [] [] [] []]; reflexivity. Qed.
Lemma drop_nest s : forall d, nest d (drop_pairs s) = nest d s.
Proof.
  induction s as [|c|c e r IH1 IH2] using two_step; intro d; [reflexivity|rewrite drop_one; reflexivity|]. rewrite drop_step. destruct (Ascii.eqb c "(" && Ascii.eqb e ")") eqn:k.
  - apply andb_true_iff in k. destruct k as (k1 & k2). apply Ascii.eqb_eq in k1, k2. subst. rewrite IH1. reflexivity.
  - change (nest d (String c (drop_pairs (String e r)))) with (if Ascii.eqb c "(" then nest (S d) (drop_pairs (String e r)) else if Ascii.eqb c ")" then match d with O => false | S d' => nest d' (drop_pairs (String e r)) end else false).
    rewrite IH2. destruct d as [|d]; [reflexivity|]. rewrite IH2. reflexivity.
Qed.
Lemma in_pair c d r : str_in "()" (String c (String d r)) = (Ascii.eqb c "(" && Ascii.eqb d ")") || str_in "()" (String d r).
Proof.
  change (str_in "()" (String c (String d r))) with (String.prefix "()" (String c (String d r)) || str_in "()" (String d r)). rewrite prefix2. rewrite (Ascii.eqb_sym c), (Ascii.eqb_sym d). reflexivity.
Qed.
Lemma drop_length s : String.length (drop_pairs s) <= String.length s /\ (str_in "()" s = true -> String.length (drop_pairs s) < String.length s).
Proof.
  induction s as [|c|c e r IH1 IH2] using two_step; [cbn; split; [lia|discriminate]|rewrite drop_one; split; [lia|]; intro h; cbn [str_in] in h; rewrite prefix2 in h; discriminate h|].
  rewrite drop_step, in_pair. destruct (Ascii.eqb c "(" && Ascii.eqb e ")"); cbn [String.length orb] in *; split; try lia. intro h. destruct IH2 as (_ & IH2). specialize (IH2 h). lia.
Qed.
Lemma nest_pair s : forall d, nest (S d) s = true -> str_in "()" (String "(" s) = true.
Proof.
  induction s as [|c r IH]; intros d h; [discriminate|]. rewrite in_pair. cbn [nest] in h. destruct (Ascii.eqb c "(") eqn:e1.
  - apply Ascii.eqb_eq in e1. subst c. rewrite (IH _ h). apply orb_true_r.
  - destruct (Ascii.eqb c ")") eqn:e2; [apply Ascii.eqb_eq in e2; subst c; reflexivity|discriminate].
Qed.
Lemma check_loop_ok f : forall s, String.length s <= f -> check_loop f s = Ok (nest 0 s).
Proof.
  assert (stop : forall s, str_in "()" s = false -> String.eqb s "" = nest 0 s).
  { intros [|c r] h; [reflexivity|]. cbn [String.eqb nest]. destruct (Ascii.eqb c "(") eqn:e1; [|destruct (Ascii.eqb c ")"); reflexivity].
    apply Ascii.eqb_eq in e1. subst c. destruct (nest 1 r) eqn:n; [|reflexivity]. rewrite (nest_pair r 0 n) in h. discriminate. }
  induction f as [|f IH]; intros s h; cbn [check_loop]; destruct (str_in "()" s) eqn:e.
  - destruct s; [discriminate e|cbn in h; lia].
  - rewrite stop by exact e. reflexivity.
  - rewrite IH, drop_nest; [reflexivity|]. destruct (drop_length s) as (_ & k). specialize (k e). lia.
  - rewrite stop by exact e. reflexivity.
Qed.
Lemma nest_spec s : forall d, nest d s = true <->
  (forall p r, s = p +++ r -> times ")" p <= d + times "(" p) /\ d + times "(" s = times ")" s /\ times "(" s + times ")" s = String.length s.
Proof.
  assert (few : forall s, times "(" s + times ")" s <= String.length s).
  { induction s0 as [|c r IH]; [cbn; lia|]. cbn [times String.length]. destruct (Ascii.eqb "(" c) eqn:a, (Ascii.eqb ")" c) eqn:b; try lia. apply Ascii.eqb_eq in a. subst c. discriminate b. }
  induction s as [|c r IH]; intro d.
  - cbn [nest times String.length]. rewrite Nat.eqb_eq. split; [intros ->|intros (_ & h & _); lia]. split; [|split; reflexivity]. intros p q e. destruct p; [cbn; lia|discriminate].
  - cbn [nest times String.length]. rewrite (Ascii.eqb_sym "(" c), (Ascii.eqb_sym ")" c). destruct (Ascii.eqb c "(") eqn:a.
    + apply Ascii.eqb_eq in a. subst c. replace (Ascii.eqb "(" ")") with false by reflexivity. rewrite IH. split.
      * intros (h1 & h2 & h3). split; [|split; lia]. intros [|x p] q e; [cbn; lia|]. injection e as <- e. specialize (h1 p q e). cbn [times]. cbn [Ascii.eqb Bool.eqb]. lia.
      * intros (h1 & h2 & h3). split; [|split; lia]. intros p q e. specialize (h1 (String "(" p) q). cbn [String.append] in h1. rewrite e in h1. specialize (h1 eq_refl). cbn [times] in h1. cbn [Ascii.eqb Bool.eqb] in h1. lia.
    + destruct (Ascii.eqb c ")") eqn:b.
      * apply Ascii.eqb_eq in b. subst c. destruct d as [|d].
        -- split; [discriminate|]. intros (h1 & _). specialize (h1 ")" r eq_refl). cbn in h1. lia.
        -- rewrite IH. split.
           ++ intros (h1 & h2 & h3). split; [|split; lia]. intros [|x p] q e; [cbn; lia|]. injection e as <- e. specialize (h1 p q e). cbn [times]. cbn [Ascii.eqb Bool.eqb]. lia.
           ++ intros (h1 & h2 & h3). split; [|split; lia]. intros p q e. specialize (h1 (String ")" p) q). cbn [String.append] in h1. rewrite e in h1. specialize (h1 eq_refl). cbn [times] in h1. cbn [Ascii.eqb Bool.eqb] in h1. lia.
      * split; [discriminate|]. intros (_ & _ & h). specialize (few r). lia.
Qed.
Theorem check_ok s : exists b, check_valid_parentheses s = Ok b /\ (b = true <-> well_nested s).
Proof. exists (nest 0 s). split; [apply check_loop_ok; lia|]. rewrite nest_spec. unfold well_nested. cbn [plus]. reflexivity. Qed.
Theorem check_others s c : has_char c s = true -> c <> "("%char -> c <> ")"%char -> check_valid_parentheses s = Ok false.
Proof.
  intros h n1 n2. unfold check_valid_parentheses. rewrite check_loop_ok by lia. f_equal. generalize 0 as d. induction s as [|x r IH]; [discriminate|]. intro d. cbn [nest has_char] in *.
  destruct (Ascii.eqb x "(") eqn:a.
  - apply Ascii.eqb_eq in a. subst x. apply orb_true_iff in h. destruct h as [h|h]; [apply Ascii.eqb_eq in h; congruence|apply IH, h].
  - destruct (Ascii.eqb x ")") eqn:b; [|reflexivity]. apply Ascii.eqb_eq in b. subst x. apply orb_true_iff in h. destruct h as [h|h]; [apply Ascii.eqb_eq in h; congruence|]. destruct d; [reflexivity|apply IH, h].
Qed.
