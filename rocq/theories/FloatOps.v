(** * FloatOps: the operators with rounded exponents *)
From Coq Require Import String Ascii List ZArith QArith Qcanon Bool Reals Qreals Lia Lra Psatz.
From Verif Require Import Py Num UnitsData UnitsStruct Units NumFacts Spec StructFacts ExpandFacts SimplifyFacts FloatExp FloatRound FloatFacts FloatSimplify FloatSpec.
Import ListNotations.
Local Open Scope string_scope.
Local Open Scope list_scope.
Local Open Scope R_scope.

(** ** Exact arithmetic gives back the model *)
Lemma sum_exact l : ev (g_sum_matches exact_ops l) = sum_matches l.
Proof.
  unfold g_sum_matches. assert (s : forall l a, ev (fold_left (fun a (x : string * expo) => e_add exact_ops a (snd x)) l a) = (ev a + sum_matches l)%Qc).
  { induction l0 as [|x l0 IH]; intro a; cbn [fold_left sum_matches fold_right]; [change (qc 0) with 0%Qc; ring|]. rewrite IH. cbn [exact_ops e_add eadd ev]. fold (sum_matches l0). ring. }
  rewrite s. change (ev (eint 0)) with 0%Qc. ring.
Qed.
Lemma round_exact top bot : g_simplify_round exact_ops top bot = simplify_round top bot.
Proof.
  unfold g_simplify_round, simplify_round. change (g_match_one exact_ops top bot) with (match_one top bot).
  destruct (mapM (match_one top bot) DECONSTRUCTABLE_UNITS) as [ms|]; [|reflexivity]. cbn [bind]. destruct (somes ms) as [|m ms']; [reflexivity|].
  unfold e_is. rewrite sum_exact. reflexivity.
Qed.
Lemma loop_exact fuel top bot : g_simplify_loop exact_ops fuel top bot = simplify_loop fuel top bot.
Proof.
  revert top bot. induction fuel as [|fuel IH]; intros top bot; [reflexivity|]. cbn [g_simplify_loop simplify_loop]. rewrite round_exact.
  destruct (simplify_round top bot) as [[[t b]|]|]; [|reflexivity|reflexivity]. cbn [bind]. apply IH.
Qed.
Lemma tail_exact ct cb top bot : g_reduce_tail exact_ops ct cb top bot = reduce_tail ct cb top bot.
Proof.
  unfold g_reduce_tail, reduce_tail. change (g_deconstruct_units exact_ops) with deconstruct_units. destruct (deconstruct_units false top bot) as [[t b]|]; [|reflexivity]. cbn [bind].
  change (g_combine_units exact_ops) with combine_units. change (g_cancel_units exact_ops) with cancel_units.
  destruct (cancel_units _ _) as [t1 b1]. unfold g_simplify_units, simplify_units. rewrite loop_exact. reflexivity.
Qed.

Section Exact.
Context {T : Type} {N : Num T}.
Lemma reduce_exact ct cb top bot : g_reduce exact_ops (T := T) ct cb top bot = reduce ct cb top bot.
Proof. unfold g_reduce, reduce. destruct (deconstruct_unit_prefixes top bot) as [[[t b] f]|]; [|reflexivity]. cbn [bind]. rewrite tail_exact. reflexivity. Qed.
Lemma multi_mul_exact (a : multi_obj T) o : g_multi_mul exact_ops a o = multi_mul a o.
Proof. unfold g_multi_mul, multi_mul. destruct o; rewrite ?reduce_exact; reflexivity. Qed.
Lemma multi_div_exact (a : multi_obj T) o : g_multi_div exact_ops a o = multi_div a o.
Proof. unfold g_multi_div, multi_div. destruct o; rewrite ?reduce_exact; reflexivity. Qed.
Lemma multi_rdiv_exact (a : multi_obj T) o : g_multi_rdiv exact_ops a o = multi_rdiv a o.
Proof. unfold g_multi_rdiv, multi_rdiv. destruct o; rewrite ?reduce_exact; reflexivity. Qed.
Lemma mul_exact (a b : pyval T) : g_py_mul exact_ops a b = py_mul a b.
Proof. destruct a; try reflexivity; [destruct b; try reflexivity; apply multi_mul_exact|apply multi_mul_exact]. Qed.
Lemma div_exact (a b : pyval T) : g_py_div exact_ops a b = py_div a b.
Proof. destruct a; try (destruct b; try reflexivity; apply multi_rdiv_exact). apply multi_div_exact. Qed.
Lemma pow_exact (a : pyval T) p : g_py_pow exact_ops a p = py_pow a p.
Proof. destruct a; try reflexivity. cbn [g_py_pow py_pow]. unfold g_multi_pow, multi_pow. rewrite tail_exact. reflexivity. Qed.
End Exact.

(** ** The pipeline on modest exponents *)
Lemma measure_mass top bot : measure top bot <= 2 * (wt mass top + wt mass bot).
Proof.
  assert (m : forall n, mu n <= 2 * mass n /\ 0 <= mass n).
  { intro n. unfold mu, mass. destruct (String.eqb n "V") eqn:V; [apply String.eqb_eq in V; subst; cbv [String.eqb Ascii.eqb Bool.eqb]; lra|].
    unfold mem_str. cbn [existsb]. rewrite !(String.eqb_sym n).
    destruct (String.eqb "kg" n), (String.eqb "J" n), (String.eqb "A" n), (String.eqb "lbf" n), (String.eqb "g" n);
      rewrite ?orb_true_r, ?orb_true_l; cbn [orb]; try lra; destruct (_ || _); lra. }
  assert (p : forall l, plin mu l <= 2 * wt mass l /\ nlin mu l <= 2 * wt mass l).
  { induction l as [|x l IH]; cbn [plin nlin wt]; [lra|]. destruct (m (bname x)) as [m1 m0]. pose proof (mu_pos (bname x)). destruct (pos_abs (rexp x)) as [a1 a2].
    pose proof (pos_ge (rexp x)). pose proof (pos_ge (- rexp x)). pose proof (Rabs_pos (rexp x)).
    assert (pos (rexp x) * mu (bname x) <= Rabs (rexp x) * (2 * mass (bname x))) by (apply Rmult_le_compat; lra).
    assert (pos (- rexp x) * mu (bname x) <= Rabs (rexp x) * (2 * mass (bname x))) by (apply Rmult_le_compat; lra). lra. }
  unfold measure. destruct (p top), (p bot). lra.
Qed.

Lemma tail_same (n : nat) (g : Z) B ct cb top bot : (0 <= g)%Z -> (g + Z.of_nat n + 1 <= 1073)%Z -> 3 <= B -> B * p2 g * 16 ^ (n + 1) <= p2 53 ->
  good g top -> good g bot -> wt size top + wt size bot <= B -> 2 * (wt mass top + wt mass bot) <= INR n ->
  g_reduce_tail fo ct cb top bot = reduce_tail ct cb top bot.
Proof.
  intros h0 hz h3 hp gt gb hs hm. pose proof (p2_gt g) as pg. assert (p16 : 1 <= 16 ^ (n + 1)) by (apply pow_R1_Rle; lra).
  assert (hr : room g B) by (split; [lia|]; assert (0 <= B * p2 g) by (apply Rmult_le_pos; lra); nra).
  unfold g_reduce_tail, reduce_tail. destruct (deconstruct_same g B false top bot hr h3 gt gb hs) as [e k]. rewrite e.
  destruct (deconstruct_units false top bot) as [[t b]|] eqn:ed; [|reflexivity]. cbn [bind]. destruct (k _ _ eq_refl) as (g1 & g2 & w). clear k e ed.
  pose proof (w size size_shrinks) as ws. pose proof (w mass mass_shrinks) as wm. clear w. assert (mp : forall n, 0 <= mass n) by apply mass_shrinks. assert (sp : forall n, 0 <= size n) by apply size_shrinks.
  pose proof (wt_tot t) as tt. pose proof (wt_tot b) as tb. pose proof (tot_pos t). pose proof (tot_pos b).
  destruct (combine_same g B t hr g1) as (ct1 & ct2 & ct3); [lra|]. destruct (combine_same g B b hr g2) as (cb1 & cb2 & cb3); [lra|]. rewrite ct1, cb1.
  set (t' := if ct then combine_units t else t). set (b' := if cb then combine_units b else b).
  assert (gt' : good g t') by (unfold t'; destruct ct; assumption). assert (gb' : good g b') by (unfold b'; destruct cb; assumption).
  assert (w' : forall m, (forall n, 0 <= m n) -> wt m t' + wt m b' <= wt m t + wt m b).
  { intros m hm'. specialize (ct3 m hm'). specialize (cb3 m hm'). unfold t', b'. destruct ct, cb; lra. }
  destruct (cancel_same g B t' b' hr gt' gb') as [c1 c2]; [pose proof (w' one_ one_pos); lra|]. rewrite c1. destruct (cancel_units t' b') as [t2 b2] eqn:ec.
  destruct (c2 _ _ eq_refl) as (g3 & g4 & w2). unfold g_simplify_units, simplify_units.
  rewrite (simplify_loop_same n (simplify_fuel t2 b2) g B t2 b2); auto.
  - destruct (simplify_loop _ t2 b2) as [[t3 b3]|]; [|reflexivity]. cbn [bind]. apply common_same.
  - lra.
  - pose proof (w2 one_ one_pos). pose proof (w' one_ one_pos). lra.
  - pose proof (measure_mass t2 b2). pose proof (w2 mass mp). pose proof (w' mass mp). lra.
Qed.

(** ** The names of the specification *)
Lemma width_size n : width n = size n.
Proof.
  unfold width, size, look. cbn [find fst]. rewrite !(String.eqb_sym n). repeat match goal with |- context [String.eqb ?a n] => destruct (String.eqb a n); [reflexivity|] end. reflexivity.
Qed.
Lemma seeds_mass n : seeds n = mass n.
Proof.
  unfold seeds, mass, look, mem_str. cbn [find fst existsb]. rewrite !(String.eqb_sym n).
  repeat match goal with |- context [String.eqb ?a n] => destruct (String.eqb a n); [rewrite ?orb_true_r; reflexivity|] end. reflexivity.
Qed.
Lemma stem_cases n : stem n = n \/ exists c, In c ["m"; "c"; "d"; "k"; "M"]%char /\ n = String c (stem n) /\ In (stem n) ["V"; "W"; "J"; "Pa"; "psi"; "cP"; "C"; "kg"; "g"; "A"; "lbf"].
Proof.
  unfold stem. destruct n as [|c r]; [auto|]. destruct (_ && _) eqn:e; [right|auto]. apply andb_true_iff in e. destruct e as [e1 e2].
  apply existsb_exists in e1, e2. destruct e1 as (c' & h1 & k1). destruct e2 as (r' & h2 & k2). apply Ascii.eqb_eq in k1. apply String.eqb_eq in k2. subst. exists c'. auto.
Qed.
Ltac tables := cbv [size mass mem_str existsb orb String.eqb Ascii.eqb Bool.eqb].
Lemma stem_ge n : size n <= size (stem n) /\ mass n <= mass (stem n).
Proof.
  destruct (stem_cases n) as [->|(c & hc & hn & hr)]; [lra|]. revert hn hr. generalize (stem n). intros r -> hr. cbn [In] in hc, hr.
  repeat (destruct hc as [<-|hc]; [repeat (destruct hr as [<-|hr]; [tables; lra|]); destruct hr|]). destruct hc.
Qed.
Lemma stem_split x p y : split_prefix x = Ok (p, y) -> bexp y = bexp x /\ size (bname y) = size (stem (bname x)) /\ mass (bname y) = mass (stem (bname x)).
Proof.
  unfold split_prefix. destruct x as [n e]. cbn [bname bexp]. destruct (String.eqb n "kg") eqn:k.
  { apply String.eqb_eq in k. subst. intro h. injection h as _ <-. cbn [bname bexp]. split; [reflexivity|]. change (stem "kg") with "g". split; reflexivity. }
  unfold get_prefix. destruct n as [|c r]; [discriminate|]. destruct (String.eqb r "" || _ || _) eqn:b; cbn [bind fst snd]; intro h; injection h as _ <-; cbn [bname bexp]; (split; [reflexivity|]).
  - (* nothing is stripped *)
    assert (es : stem (String c r) = String c r); [|rewrite es; auto]. destruct (stem_cases (String c r)) as [es|(c' & hc & hn & hr)]; [exact es|exfalso].
    assert (hr' : In r ["V"; "W"; "J"; "Pa"; "psi"; "cP"; "C"; "kg"; "g"; "A"; "lbf"]) by (revert hn hr; generalize (stem (String c r)); intros s hn; injection hn as _ <-; auto).
    assert (c' = c) by congruence. subst c'. clear hn hr. rename hr' into hr. cbn [In] in hc, hr.
    repeat (destruct hc as [<-|hc]; [repeat (destruct hr as [<-|hr]; [try discriminate b; try discriminate k|]); destruct hr|]). destruct hc.
  - apply orb_false_iff in b. destruct b as [b b3]. apply orb_false_iff in b. destruct b as [b1 b2]. apply negb_false_iff in b2.
    unfold stem. replace (existsb (Ascii.eqb c) _) with true.
    2:{ symmetry. unfold mem_str in b2. cbn [existsb] in b2 |- *. rewrite !orb_false_r in *. cbn [String.eqb] in b2.
        repeat match goal with |- context [Ascii.eqb c ?d] => destruct (Ascii.eqb c d) eqn:?; cbn [orb]; [reflexivity|] end. exact b2. }
    cbn [andb]. destruct (existsb (String.eqb r) _) eqn:er; [auto|]. cbn [existsb] in er.
    repeat match type of er with (String.eqb r ?d || ?z = false) => apply orb_false_iff in er; let q := fresh "q" in destruct er as [q er] end.
    assert (hc : In c ["m"; "c"; "d"; "k"; "M"]%char).
    { unfold mem_str in b2. apply existsb_exists in b2. destruct b2 as (z & hz & ez). apply String.eqb_eq in ez. cbn [In] in hz |- *.
      repeat (destruct hz as [hz|hz]; [rewrite <- hz in ez; injection ez as <-; auto 9|]). destruct hz. }
    assert (s1 : size r = 1) by (unfold size; rewrite ?q, ?q0, ?q1, ?q2, ?q3, ?q4, ?q5, ?q6; reflexivity).
    assert (c1 : forall d, In d ["V"; "W"; "J"; "Pa"; "psi"; "C"; "g"; "A"; "lbf"] -> String.eqb (String c r) d = false).
    { intros d hd. apply String.eqb_neq. intros <-. cbn [In] in hc, hd. repeat (destruct hd as [hd|hd]; [injection hd as <- _; repeat (destruct hc as [hc|hc]; [discriminate hc|]); destruct hc|]). destruct hd. }
    assert (c2 : String.eqb (String c r) "cP" = false) by (unfold mem_str in b3; cbn [existsb] in b3; apply orb_false_iff in b3; destruct b3 as [_ b3]; apply orb_false_iff in b3; apply b3).
    assert (s2 : size (String c r) = 1) by (unfold size; rewrite (c1 "V"), (c1 "W"), (c1 "J"), (c1 "Pa"), (c1 "psi"), (c1 "C"), c2 by (cbn; auto 12); reflexivity).
    split; [congruence|].
    assert (m2 : mass (String c r) = 0) by (unfold mass, mem_str; cbn [existsb]; rewrite (c1 "V"), (c1 "W"), (c1 "J"), (c1 "Pa"), (c1 "psi"), (c1 "C"), (c1 "g"), (c1 "A"), (c1 "lbf"), c2, k by (cbn; auto 12); reflexivity).
    rewrite m2. unfold mass, mem_str. cbn [existsb]. rewrite ?q, ?q0, ?q1, ?q2, ?q3, ?q4, ?q5, ?q6, ?q7, ?q8, ?q9. reflexivity.
Qed.

(** ** Modest exponents *)
Lemma pow_p2 k : 2 ^ k = p2 (Z.of_nat k). Proof. apply (pow_powerRZ 2 k). Qed.
Lemma dyadic_grid k e : dyadic k e <-> grid (Z.of_nat k) (ev e).
Proof.
  unfold dyadic, grid. rewrite <- pow_p2. assert (0 < 2 ^ k) by (apply pow_lt; lra). split; intros [z h]; exists z; [rewrite h; field; lra|].
  rewrite <- h. field. lra.
Qed.
Lemma amount_app m l1 l2 : amount m (l1 ++ l2) = amount m l1 + amount m l2.
Proof. induction l1 as [|x l IH]; cbn [app amount]; [lra|]. rewrite IH. lra. Qed.
Lemma amount_wt l : wt size l <= amount width l /\ wt mass l <= amount seeds l.
Proof.
  induction l as [|x l IH]; cbn [wt amount]; [lra|]. rewrite width_size, seeds_mass. destruct (stem_ge (bname x)) as [s m]. pose proof (Rabs_pos (rexp x)). nra.
Qed.

Lemma modest_fits k n B : 3 <= B -> B * 2 ^ k * 16 ^ (n + 1) <= 2 ^ 53 -> (Z.of_nat k + Z.of_nat n + 1 <= 1073)%Z /\ B * p2 (Z.of_nat k) * 16 ^ (n + 1) <= p2 53.
Proof.
  intros h3 h. split; [|rewrite <- pow_p2; change (p2 53) with (p2 (Z.of_nat 53)); rewrite <- pow_p2; exact h].
  assert (0 < 2 ^ k) by (apply pow_lt; lra). assert (0 < 16 ^ (n + 1)) by (apply pow_lt; lra).
  assert (h1 : 2 ^ k * 16 ^ (n + 1) <= 2 ^ 53).
  { assert (0 < 2 ^ k * 16 ^ (n + 1)) by (apply Rmult_lt_0_compat; lra). rewrite Rmult_assoc in h. nra. }
  assert (h2 : 2 ^ (n + 1) <= 16 ^ (n + 1)) by (apply pow_incr; lra).
  assert (h4 : 2 ^ (k + (n + 1)) <= 2 ^ 53) by (rewrite pow_add; apply Rle_trans with (2 ^ k * 16 ^ (n + 1)); [apply Rmult_le_compat_l; lra|exact h1]).
  assert (k + (n + 1) <= 53)%nat; [|lia]. destruct (le_lt_dec (k + (n + 1)) 53) as [|c]; [assumption|]. exfalso.
  pose proof (Rlt_pow 2 53 (k + (n + 1)) ltac:(lra) c). lra.
Qed.
Lemma tail_modest k n ct cb top bot t b : modest k n (top ++ bot) ->
  Forall2 (fun x y => bexp y = bexp x /\ size (bname y) <= size (stem (bname x)) /\ mass (bname y) <= mass (stem (bname x))) top t ->
  Forall2 (fun x y => bexp y = bexp x /\ size (bname y) <= size (stem (bname x)) /\ mass (bname y) <= mass (stem (bname x))) bot b ->
  g_reduce_tail fo ct cb t b = reduce_tail ct cb t b.
Proof.
  intros [hd hs (B & h3 & hw & hp)] ft fb. destruct (modest_fits k n B h3 hp) as [z q].
  assert (w : forall l m, Forall2 (fun x y => bexp y = bexp x /\ size (bname y) <= size (stem (bname x)) /\ mass (bname y) <= mass (stem (bname x))) l m ->
    (forall x, In x l -> dyadic k (bexp x)) -> good (Z.of_nat k) m /\ wt size m <= amount width l /\ wt mass m <= amount seeds l).
  { intros l m f. induction f as [|x y l m (e1 & e2 & e3) f IH]; intro h; [split; [apply good_nil|cbn; lra]|]. destruct IH as (i1 & i2 & i3); [intros; apply h; right; assumption|].
    split; [apply good_cons; split; [rewrite e1; apply dyadic_grid, h; left; reflexivity|exact i1]|]. cbn [wt amount]. rewrite e1, width_size, seeds_mass. pose proof (Rabs_pos (rexp x)). nra. }
  destruct (w _ _ ft) as (g1 & w1 & m1); [intros; apply hd, in_or_app; auto|]. destruct (w _ _ fb) as (g2 & w2 & m2); [intros; apply hd, in_or_app; auto|].
  rewrite amount_app in hs, hw. apply (tail_same n (Z.of_nat k) B); auto; try lia; try lra.
Qed.
Lemma same_half (l : half) : Forall2 (fun x y => bexp y = bexp x /\ size (bname y) <= size (stem (bname x)) /\ mass (bname y) <= mass (stem (bname x))) l l.
Proof. induction l as [|x l IH]; constructor; [|exact IH]. split; [reflexivity|]. apply stem_ge. Qed.
Lemma stripped_half l ps : mapM split_prefix l = Ok ps -> Forall2 (fun x y => bexp y = bexp x /\ size (bname y) <= size (stem (bname x)) /\ mass (bname y) <= mass (stem (bname x))) l (map snd ps).
Proof.
  revert ps. induction l as [|x l IH]; intros ps h; cbn in h; [injection h as <-; constructor|].
  destruct (split_prefix x) as [[p y]|] eqn:e; cbn [bind] in h; [|discriminate]. destruct (mapM split_prefix l) as [ps'|] eqn:e'; cbn [bind] in h; [|discriminate].
  injection h as <-. cbn [map snd]. constructor; [|apply IH; reflexivity]. destruct (stem_split _ _ _ e) as (e1 & e2 & e3). split; [exact e1|]. lra.
Qed.
Lemma modest_incl k n l l' : (forall x, In x l' -> In x l) -> (forall m, amount m l' = amount m l) -> modest k n l -> modest k n l'.
Proof. intros h a [h1 h2 (B & h3 & h4 & h5)]. split; [auto|rewrite a; exact h2|exists B; rewrite a; auto]. Qed.

Section Ops.
Context {T : Type} {N : Num T}.
Lemma reduce_same k n ct cb top bot : modest k n (top ++ bot) -> g_reduce fo (T := T) ct cb top bot = reduce ct cb top bot.
Proof.
  intro h. unfold g_reduce, reduce. destruct (deconstruct_unit_prefixes top bot) as [[[t b] f]|] eqn:e; [|reflexivity]. cbn [bind].
  unfold deconstruct_unit_prefixes in e. destruct (mapM split_prefix top) as [tp|] eqn:e1; cbn [bind] in e; [|discriminate].
  destruct (mapM split_prefix bot) as [bp|] eqn:e2; cbn [bind] in e; [|discriminate].
  destruct (prefix_loop false tp _) as [f1|]; cbn [bind] in e; [|discriminate]. destruct (prefix_loop true bp _) as [f2|]; cbn [bind] in e; [|discriminate].
  injection e as <- <- <-. rewrite (tail_modest k n ct cb top bot); auto using stripped_half.
Qed.
Ltac shuffle := eapply modest_incl; [| |eassumption]; [intro; rewrite !in_app_iff; cbn [In]; tauto|intro; rewrite ?amount_app; cbn [amount]; lra].
Lemma multi_mul_same k n (a : multi_obj T) o : modest k n (parts (VMulti a) ++ parts o) -> g_multi_mul fo a o = multi_mul a o.
Proof.
  intro h. destruct o as [| | |u|b]; try reflexivity; cbn [g_multi_mul multi_mul parts] in *.
  - rewrite (reduce_same k n); [reflexivity|]. shuffle.
  - rewrite (reduce_same k n); [reflexivity|]. shuffle.
Qed.
Lemma multi_div_same k n (a : multi_obj T) o : modest k n (parts (VMulti a) ++ parts o) -> g_multi_div fo a o = multi_div a o.
Proof.
  intro h. destruct o as [| | |u|b]; try reflexivity; cbn [g_multi_div multi_div parts] in *.
  - rewrite (reduce_same k n); [reflexivity|]. shuffle.
  - destruct (_ && _); [reflexivity|]. rewrite (reduce_same k n); [reflexivity|]. shuffle.
Qed.
Lemma multi_rdiv_same k n (a : multi_obj T) o : modest k n (parts o ++ parts (VMulti a)) -> g_multi_rdiv fo a o = multi_rdiv a o.
Proof.
  intro h. destruct o as [| | |u|b]; try reflexivity; cbn [g_multi_rdiv multi_rdiv parts] in *.
  rewrite (reduce_same k n); [reflexivity|]. shuffle.
Qed.
Lemma no_caret n : ~ In "^"%char (list_ascii_of_string n) -> has_char "^" n = false.
Proof.
  induction n as [|c n IH]; intro h; [reflexivity|]. cbn [has_char list_ascii_of_string In] in *. destruct (Ascii.eqb c "^") eqn:e; [apply Ascii.eqb_eq in e; tauto|]. apply IH. tauto.
Qed.
Lemma mk_unit_same (c : ucls) (v : T) n e : has_char "^" n = false -> g_mk_unit fo c v n e = mk_unit c v n e.
Proof. intro h. destruct c; try reflexivity; cbn [g_mk_unit mk_unit]; unfold g_split_caret, split_caret; rewrite h; reflexivity. Qed.
Lemma modest_room k n l : modest k n l -> exists B, room (Z.of_nat k) B /\ amount width l <= B.
Proof.
  intros [_ _ (B & h3 & hw & hp)]. exists B. split; [|exact hw]. destruct (modest_fits k n B h3 hp) as [z q]. split; [lia|].
  assert (1 <= 16 ^ (n + 1)) by (apply pow_R1_Rle; lra). assert (0 <= B * p2 (Z.of_nat k)) by (pose proof (p2_gt (Z.of_nat k)); apply Rmult_le_pos; lra). nra.
Qed.
Lemma two_exps k n x y : modest k n [x; y] -> float_op Qcplus (bexp x) (bexp y) = eadd (bexp x) (bexp y) /\ float_op Qcminus (bexp x) (bexp y) = esub (bexp x) (bexp y).
Proof.
  intro h. destruct (modest_room k n _ h) as (B & hr & hw). destruct h as [hd _ _]. cbn [amount] in hw. rewrite !width_size in hw.
  pose proof (size_ge (stem (bname x))). pose proof (size_ge (stem (bname y))). pose proof (Rabs_pos (rexp x)). pose proof (Rabs_pos (rexp y)).
  assert (Rabs (rexp x) + Rabs (rexp y) <= B) by nra. assert (grid (Z.of_nat k) (ev (bexp x))) by (apply dyadic_grid, hd; cbn; auto).
  assert (grid (Z.of_nat k) (ev (bexp y))) by (apply dyadic_grid, hd; cbn; auto). split; [apply (add_same (Z.of_nat k) B)|apply (sub_same (Z.of_nat k) B)]; assumption.
Qed.
Lemma mul_same_all k n (a b : pyval T) : bare a -> bare b -> modest k n (parts a ++ parts b) -> g_py_mul fo a b = py_mul a b.
Proof.
  intros ha hb h. destruct a as [x| | |u|m].
  - destruct b; try reflexivity. cbn [g_py_mul py_mul g_unit_rmul unit_rmul]. rewrite mk_unit_same by apply no_caret, hb. reflexivity.
  - destruct b; reflexivity.
  - destruct b; reflexivity.
  - destruct b as [y| | |w|m]; try reflexivity; cbn [g_py_mul py_mul g_unit_mul unit_mul].
    + rewrite mk_unit_same by apply no_caret, ha. reflexivity.
    + destruct (_ && _); [|reflexivity]. rewrite mk_unit_same by apply no_caret, ha. cbn [parts app] in h. destruct (two_exps k n _ _ h) as [e _]. cbn [bexp] in e. cbn [fo e_add]. rewrite e. reflexivity.
    + apply (multi_mul_same k n). shuffle.
  - apply (multi_mul_same k n). exact h.
Qed.
Lemma div_same_all k n (a b : pyval T) : bare a -> bare b -> modest k n (parts a ++ parts b) -> g_py_div fo a b = py_div a b.
Proof.
  intros ha hb h. destruct a as [x| | |u|m].
  - destruct b; reflexivity.
  - destruct b; reflexivity.
  - destruct b; reflexivity.
  - destruct b as [y| | |w|m]; try reflexivity; cbn [g_py_div py_div g_unit_div unit_div].
    + destruct (pydiv (uv u) y); [|reflexivity]. cbn [bind]. rewrite mk_unit_same by apply no_caret, ha. reflexivity.
    + destruct (pydiv (uv u) (uv w)); [|reflexivity]. cbn [bind]. destruct (String.eqb _ _); [|reflexivity]. cbn [parts app] in h. destruct (two_exps k n _ _ h) as [_ e]. cbn [bexp] in e. cbn [fo e_sub]. rewrite e.
      destruct (e_is _ _); [reflexivity|]. rewrite mk_unit_same by apply no_caret, ha. reflexivity.
    + apply (multi_rdiv_same k n). exact h.
  - apply (multi_div_same k n). exact h.
Qed.

(** Powers: the products of the exponents must be modest. *)
Lemma short_tof e : short e -> tof e = ev e.
Proof.
  intros (k & hd & hb & hk). apply (room_tof (Z.of_nat k) (Rabs (QcR (ev e)))); [|apply dyadic_grid, hd|lra].
  split; [lia|]. rewrite <- pow_p2. change (p2 53) with (p2 (Z.of_nat 53)). rewrite <- pow_p2. exact hb.
Qed.
Lemma product k n p l x : modest k n (raised p l) -> short p -> (forall y, In y l -> short (bexp y)) -> In x l -> float_op Qcmult (bexp x) p = emul (bexp x) p.
Proof.
  intros h sp sl hx. destruct (modest_room k n _ h) as (B & hr & hw). destruct h as [hd _ _].
  assert (hi : In (BU (bname x) (emul (bexp x) p)) (raised p l)) by (apply in_map_iff; exists x; auto).
  assert (hb : Rabs (QcR (ev (bexp x) * ev p)%Qc) <= B).
  { apply Rle_trans with (amount width (raised p l)); [|exact hw]. destruct (amount_wt (raised p l)) as [w _]. pose proof (wt_tot (raised p l)). pose proof (tot_in _ _ hi) as ti. cbn [bexp emul ev] in ti. lra. }
  unfold float_op. rewrite (short_tof p sp), (short_tof (bexp x) (sl x hx)). destruct (isf (bexp x) || isf p) eqn:f; [|unfold emul; rewrite f; reflexivity].
  rewrite (room_fl (Z.of_nat k) B); auto; [unfold emul; rewrite f; reflexivity|]. apply (proj1 (dyadic_grid k (emul (bexp x) p))). exact (hd _ hi).
Qed.
Lemma raised_same k n p l l' : (forall x, In x l' -> In x l) -> modest k n (raised p l) -> short p -> (forall y, In y l -> short (bexp y)) -> g_scale_half fo p l' = raised p l'.
Proof.
  intros hl h sp sl. unfold g_scale_half, raised. apply map_ext_in. intros x hx. cbn [fo e_mul]. rewrite (product k n p l x h sp sl (hl x hx)). reflexivity.
Qed.
Lemma pow_same_all k n (a : pyval T) p : bare a -> short p -> (forall x, In x (parts a) -> short (bexp x)) -> modest k n (raised p (parts a)) -> g_py_pow fo a p = py_pow a p.
Proof.
  intros ha sp sl h. destruct a as [x| | |u|m]; try reflexivity; cbn [g_py_pow py_pow].
  - unfold g_unit_pow, unit_pow. destruct (npow (uv u) (ev p)); [|reflexivity]. cbn [bind]. rewrite mk_unit_same by apply no_caret, ha. cbn [fo e_mul].
    pose proof (product k n p _ (BU (un u) (ue u)) h sp sl (or_introl eq_refl)) as e. cbn [bexp] in e. rewrite e. reflexivity.
  - unfold g_multi_pow, multi_pow. rewrite (raised_same k n p (parts (VMulti m)) (mtop m)), (raised_same k n p (parts (VMulti m)) (mbot m)); auto;
      try (intros; apply in_or_app; auto). change (raised p) with (scale_half p). rewrite (tail_modest k n true true (scale_half p (mtop m)) (scale_half p (mbot m))); auto using same_half.
    cbn [parts] in h. unfold raised in h. rewrite map_app in h. exact h.
Qed.
End Ops.
Lemma model_exact T (N : Num T) (a b : pyval T) p :
  g_py_mul exact_ops a b = py_mul a b /\ g_py_div exact_ops a b = py_div a b /\ g_py_pow exact_ops a p = py_pow a p.
Proof. split; [apply mul_exact|]. split; [apply div_exact|apply pow_exact]. Qed.
Lemma short_fl e : short e -> fl (ev e) = ev e.
Proof.
  intros (k & hd & hb & hk). apply (fl_grid (Z.of_nat k)); [lia|apply dyadic_grid, hd|]. rewrite <- pow_p2. change (p2 53) with (p2 (Z.of_nat 53)). rewrite <- pow_p2. exact hb.
Qed.
