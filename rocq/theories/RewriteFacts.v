(** * RewriteFacts: proofs about reactions written in another order *)
From Coq Require Import String Ascii List ZArith QArith Qcanon Qabs Bool Lia Permutation.
From Verif Require Import Py Balance BalanceSpec BalanceFacts ReactionFacts RewriteSpec.
Import ListNotations.
Local Open Scope string_scope.
Local Open Scope list_scope.
Local Open Scope Z_scope.

Lemma total_perm {A} (f : A -> Z) l l' : Permutation l l' -> total f l = total f l'.
Proof. unfold total. induction 1; cbn [fold_right]; lia. Qed.
Lemma gcd_perm l l' : Permutation l l' -> gcd_of l = gcd_of l'.
Proof. unfold gcd_of. induction 1; cbn [fold_right]; try congruence. rewrite !Z.gcd_assoc, (Z.gcd_comm y x). reflexivity. Qed.
Lemma side_perm ks fs ks' fs' e : same_side ks fs ks' fs' -> side_atoms ks fs e = side_atoms ks' fs' e.
Proof. intros [_ p]. unfold side_atoms. apply total_perm. exact p. Qed.
Lemma combine_fst {A B} (a : list A) (b : list B) : length a = length b -> map fst (combine a b) = a.
Proof. revert b. induction a as [|x a IH]; intros [|y b] h; cbn in *; try discriminate; [reflexivity|]. rewrite IH by lia. reflexivity. Qed.
Lemma combine_snd {A B} (a : list A) (b : list B) : length a = length b -> map snd (combine a b) = b.
Proof. revert b. induction a as [|x a IH]; intros [|y b] h; cbn in *; try discriminate; [reflexivity|]. rewrite IH by lia. reflexivity. Qed.
Lemma side_lists ks fs ks' fs' : length ks = length fs -> same_side ks fs ks' fs' -> Permutation ks ks' /\ Permutation fs fs'.
Proof.
  intros h [h' p]. split.
  - rewrite <- (combine_fst ks fs h), <- (combine_fst ks' fs' h'). apply Permutation_map. exact p.
  - rewrite <- (combine_snd ks fs h), <- (combine_snd ks' fs' h'). apply Permutation_map. exact p.
Qed.
Lemma forall_perm {A} (P : A -> Prop) l l' : Permutation l l' -> Forall P l -> Forall P l'.
Proof. intros p h. apply Forall_forall. intros x hx. rewrite Forall_forall in h. apply h. exact (Permutation_in x (Permutation_sym p) hx). Qed.
Lemma snoc_length {A B} (a : list A) x (b : list B) y : length (a ++ [x]) = length (b ++ [y]) -> length a = length b.
Proof. rewrite !app_length. cbn. lia. Qed.

Section Orders.
Variables (rs ps : list formula) (p : formula) (kr kp : list Z) (kl : Z).
Variables (rs' ps' : list formula) (p' : formula) (kr' kp' : list Z) (kl' : Z).
Hypotheses (hr : rs <> []) (mr : Forall molecule rs) (mp : Forall molecule ps) (ml : molecule p).
Hypothesis (hb : smallest_balance rs ps p kr kp kl).

Lemma lengths : length kr = length rs /\ length (kp ++ [kl]) = length (ps ++ [p]).
Proof. destruct hb as [h1 [h2 _]]. split; [exact h1|]. rewrite !app_length, h2. reflexivity. Qed.
Lemma molecules_split : Forall molecule (ps' ++ [p']) -> Forall molecule ps' /\ molecule p'.
Proof. intro h. apply Forall_app in h. destruct h as [h1 h2]. inversion h2; subst. auto. Qed.
Lemma all_molecules : Forall molecule (ps ++ [p]).
Proof. apply Forall_app. split; [exact mp|]. constructor; [exact ml|constructor]. Qed.

Lemma rewritten_ok : rewritten rs ps p kr kp kl rs' ps' p' kr' kp' kl' ->
  rs' <> [] /\ Forall molecule rs' /\ Forall molecule ps' /\ molecule p' /\ smallest_balance rs' ps' p' kr' kp' kl'.
Proof.
  intros [s1 s2]. destruct lengths as [l1 l2]. destruct (side_lists _ _ _ _ l1 s1) as [k1 f1]. destruct (side_lists _ _ _ _ l2 s2) as [k2 f2].
  split; [intros ->; apply hr, Permutation_nil, Permutation_sym; exact f1|]. split; [exact (forall_perm _ _ _ f1 mr)|].
  destruct (molecules_split (forall_perm _ _ _ f2 all_molecules)) as [m1 m2]. split; [exact m1|]. split; [exact m2|].
  assert (k : Permutation (kr ++ kp ++ [kl]) (kr' ++ kp' ++ [kl'])) by (apply Permutation_app; assumption).
  destruct hb as (_ & _ & b1 & b2 & b3). split; [apply s1|]. split; [apply (snoc_length _ kl' _ p'), s2|].
  split; [exact (forall_perm _ _ _ k b1)|]. split; [rewrite <- (gcd_perm _ _ k); exact b2|].
  intro e. rewrite <- (side_perm _ _ _ _ e s1), <- (side_perm _ _ _ _ e s2). apply b3.
Qed.
Lemma turned_ok : turned rs ps p kr kp kl rs' ps' p' kr' kp' kl' ->
  rs' <> [] /\ Forall molecule rs' /\ Forall molecule ps' /\ molecule p' /\ smallest_balance rs' ps' p' kr' kp' kl'.
Proof.
  intros [s1 s2]. destruct lengths as [l1 l2]. destruct (side_lists _ _ _ _ l1 s1) as [k1 f1]. destruct (side_lists _ _ _ _ l2 s2) as [k2 f2].
  split; [intros ->; apply Permutation_sym, Permutation_nil in f2; destruct ps; discriminate|]. split; [exact (forall_perm _ _ _ f2 all_molecules)|].
  destruct (molecules_split (forall_perm _ _ _ f1 mr)) as [m1 m2]. split; [exact m1|]. split; [exact m2|].
  assert (k : Permutation (kr ++ kp ++ [kl]) (kr' ++ kp' ++ [kl'])).
  { apply (Permutation_trans (Permutation_app k1 k2)). apply Permutation_app_comm. }
  destruct hb as (_ & _ & b1 & b2 & b3). split; [apply s2|]. split; [apply (snoc_length _ kl' _ p'), s1|].
  split; [exact (forall_perm _ _ _ k b1)|]. split; [rewrite <- (gcd_perm _ _ k); exact b2|].
  intro e. rewrite <- (side_perm _ _ _ _ e s1), <- (side_perm _ _ _ _ e s2). symmetry. apply b3.
Qed.
Variables (lstsq : list (list Z) -> list Z -> res (list Q)) (enum : list string -> list string).
Hypotheses (he : set_order enum) (ha : accurate lstsq rs' ps' p' (kr' ++ kp') kl').
Lemma order_right : rewritten rs ps p kr kp kl rs' ps' p' kr' kp' kl' \/ turned rs ps p kr kp kl rs' ps' p' kr' kp' kl' ->
  gcd_of (kr' ++ kp') = 1 ->
  balance_equation lstsq enum (equation_text rs' (ps' ++ [p'])) = Ok (balanced_text kr' rs' (kp' ++ [kl']) (ps' ++ [p'])).
Proof. intros [h|h]; [apply rewritten_ok in h|apply turned_ok in h]; destruct h as (h1 & h2 & h3 & h4 & h5); apply balance_right; assumption. Qed.
Lemma order_right_iff : rewritten rs ps p kr kp kl rs' ps' p' kr' kp' kl' \/ turned rs ps p kr kp kl rs' ps' p' kr' kp' kl' ->
  exists xr xp, balance_equation lstsq enum (equation_text rs' (ps' ++ [p'])) = Ok (balanced_text xr rs' xp (ps' ++ [p'])) /\
    (balanced xr rs' xp (ps' ++ [p']) <-> gcd_of (kr' ++ kp') = 1).
Proof. intros [h|h]; [apply rewritten_ok in h|apply turned_ok in h]; destruct h as (h1 & h2 & h3 & h4 & h5); apply (balance_right_iff lstsq enum rs' ps' p' kr' kp' kl'); assumption. Qed.
End Orders.

(** ** Hydrogen peroxide *)
Definition h2o2 : formula := [Atom "H" "2"; Atom "O" "2"].
Definition h2o : formula := [Atom "H" "2"; Atom "O" ""].
Definition o2 : formula := [Atom "O" "2"].
Definition peroxide_solver (_ : list (list Z)) (b : list Z) : res (list Q) :=
  if Z.eqb (total (fun z => z) b) (-2) then Ok [-2 # 1; -2 # 1]%Q else Ok [-1 # 1; -1 # 2]%Q.
Lemma peroxide_sum es f : NoDup es -> lists_elements es ([h2o2] ++ f) -> (forall e, (exists g, In g f /\ (0 < atoms g e)) -> e = "H" \/ e = "O") ->
  forall g, total (fun z => z) (vector (-1) es g) = - (atoms g "H" + atoms g "O").
Proof.
  intros nd h hf g. assert (q : Permutation es ["H"; "O"]).
  { apply NoDup_Permutation; [exact nd|repeat constructor; cbn; intuition discriminate|]. intro e. rewrite (h e). split.
    - intros [x [hx hp]]. cbn in hx. destruct hx as [<-|hx].
      + unfold atoms, h2o2 in hp. cbn [total fold_right item_atoms] in hp. destruct (String.eqb_spec "H" e); [subst; left; reflexivity|]. destruct (String.eqb_spec "O" e); [subst; right; left; reflexivity|]. lia.
      + destruct (hf e) as [->| ->]; [eauto|left; reflexivity|right; left; reflexivity].
    - intros [<-|[<-|[]]]; exists h2o2; (split; [left; reflexivity|vm_compute; reflexivity]). }
  unfold vector. rewrite (total_perm _ _ _ (Permutation_map _ q)). unfold total. cbn [map fold_right]. lia.
Qed.
Lemma peroxide_elements f e : Forall (fun g => g = h2o \/ g = o2) f -> (exists g, In g f /\ (0 < atoms g e)) -> e = "H" \/ e = "O".
Proof.
  intros hf [g [hg hp]]. rewrite Forall_forall in hf. destruct (hf g hg) as [->| ->]; unfold atoms, h2o, o2 in hp; cbn [total fold_right item_atoms] in hp.
  - destruct (String.eqb_spec "H" e); [subst; auto|]. destruct (String.eqb_spec "O" e); [subst; auto|]. lia.
  - destruct (String.eqb_spec "O" e); [subst; auto|]. lia.
Qed.
Lemma peroxide_accurate : accurate peroxide_solver [h2o2] [h2o] o2 ([2] ++ [2]) 1 /\ accurate peroxide_solver [h2o2] [o2] h2o ([2] ++ [1]) 2.
Proof.
  split; intros es nd h; unfold peroxide_solver.
  - rewrite (peroxide_sum es ([h2o] ++ [o2]) nd h) by (intros e k; apply (peroxide_elements _ e) in k; [exact k|repeat constructor; auto]).
    change (- (atoms o2 "H" + atoms o2 "O") =? -2) with true. eexists. split; [reflexivity|]. repeat constructor.
  - rewrite (peroxide_sum es ([o2] ++ [h2o]) nd h) by (intros e k; apply (peroxide_elements _ e) in k; [exact k|repeat constructor; auto]).
    change (- (atoms h2o "H" + atoms h2o "O") =? -2) with false. eexists. split; [reflexivity|]. repeat constructor.
Qed.
Lemma peroxide_molecules : molecule h2o2 /\ molecule h2o /\ molecule o2.
Proof. unfold h2o2, h2o, o2. split; [flat_molecule|]. split; flat_molecule. Qed.
Lemma peroxide_balance : smallest_balance [h2o2] [h2o] o2 [2] [2] 1 /\ smallest_balance [h2o2] [o2] h2o [2] [1] 2.
Proof.
  split; (split; [reflexivity|split; [reflexivity|split; [repeat constructor; lia|split; [reflexivity|]]]]);
  intro e; unfold side_atoms, atoms, h2o2, h2o, o2; cbn [app combine total fold_right fst snd item_atoms]; destruct (String.eqb "H" e), (String.eqb "O" e); reflexivity.
Qed.
Ltac fm := cbn [app]; repeat (apply Forall_cons; [assumption|]); apply Forall_nil.
Lemma peroxide_refuted : exists lstsq rs ps p kr kp kl ps' p' kp' kl',
  smallest_balance rs ps p kr kp kl /\ rewritten rs ps p kr kp kl rs ps' p' kr kp' kl' /\
  Forall molecule (rs ++ ps ++ [p]) /\ accurate lstsq rs ps p (kr ++ kp) kl /\ accurate lstsq rs ps' p' (kr ++ kp') kl' /\
  equation_text rs (ps ++ [p]) = "H2O2 -> O2 + H2O" /\ equation_text rs (ps' ++ [p']) = "H2O2 -> H2O + O2" /\
  forall enum, set_order enum ->
    balance_equation lstsq enum "H2O2 -> O2 + H2O" = Ok "2.0 H2O2 -> 1.0 O2 + 2.0 H2O" /\
    balance_equation lstsq enum "H2O2 -> H2O + O2" = Ok "1.0 H2O2 -> 1.0 H2O + 0.0 O2".
Proof.
  exists peroxide_solver, [h2o2], [o2], h2o, [2], [1], 2, [h2o], o2, [2], 1.
  destruct peroxide_molecules as (m1 & m2 & m3). destruct peroxide_balance as [b1 b2]. destruct peroxide_accurate as [a1 a2].
  split; [exact b2|]. split; [split; split; [reflexivity|apply Permutation_refl|reflexivity|apply perm_swap]|].
  split; [fm|]. split; [exact a2|]. split; [exact a1|]. split; [reflexivity|]. split; [reflexivity|]. intros enum he. split.
  - change "H2O2 -> O2 + H2O" with (equation_text [h2o2] ([o2] ++ [h2o])).
    rewrite (balance_prints peroxide_solver enum [h2o2] [o2] h2o [2] [1] 2); try assumption; try discriminate; try fm. reflexivity.
  - change "H2O2 -> H2O + O2" with (equation_text [h2o2] ([h2o] ++ [o2])).
    rewrite (balance_prints peroxide_solver enum [h2o2] [h2o] o2 [2] [2] 1); try assumption; try discriminate; try fm. reflexivity.
Qed.
Lemma turned_case : turned [h2o2] [o2] h2o [2] [1] 2 [h2o; o2] [] h2o2 [2; 1] [] 2 /\ gcd_of ([2; 1] ++ []) = 1.
Proof. split; [|reflexivity]. split; split; try reflexivity; apply perm_swap. Qed.
