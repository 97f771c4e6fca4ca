(** * TextPropFacts: lemmas behind Properties_Text *)
From Coq Require Import String Ascii List ZArith QArith Qcanon Qpower Bool Reals Lia.
From Verif Require Import Py Num UnitsStruct Units TextSpec TextFacts ParseFacts ShowFacts.
Import ListNotations.
Local Open Scope string_scope.
Local Open Scope list_scope.

Lemma app_ne a b : a <> "" -> a +++ b <> "".
Proof. destruct a; [congruence|discriminate]. Qed.
Lemma unit_text_ne top bot : top <> nil -> (forall f, In f (top ++ bot) -> factor_ok f) -> unit_text top bot <> "".
Proof.
  intros hn h. unfold unit_text. apply app_ne. destruct top as [|f top]; [congruence|].
  assert (fo : fst f <> "") by (apply (h f); left; reflexivity).
  assert (ft : factor_text f <> "") by (unfold factor_text; destruct (snd f); [apply app_ne|]; exact fo).
  destruct top as [|g top]; [exact ft|]. change (factor_text f +++ "*" +++ stars (map factor_text (g :: top)) <> ""). apply app_ne. exact ft.
Qed.
Definition spelled (x : bu) : string * Qc := (bname x, ev (bexp x)).
Lemma spelled_parsed l : map spelled (map parsed l) = map factor_unit l.
Proof. rewrite map_map. apply map_ext. intros [n e]. reflexivity. Qed.
Lemma parse_exact c (v : R) top bot : top <> nil -> (forall f, In f (top ++ bot) -> factor_ok f) ->
  exists m, mk_multi c v (unit_text top bot) = Ok m /\ mc m = c /\ mv m = v /\
    map (fun x => (bname x, ev (bexp x))) (mtop m) = map factor_unit top /\
    map (fun x => (bname x, ev (bexp x))) (mbot m) = map factor_unit bot.
Proof.
  intros hn h. eexists. split.
  - unfold mk_multi. replace (String.eqb (unit_text top bot) "") with false.
    + rewrite (parse_text top bot hn h). cbn [bind]. reflexivity.
    + symmetry. apply String.eqb_neq. apply unit_text_ne; assumption.
  - cbn. split; [reflexivity|]. split; [reflexivity|]. split; apply spelled_parsed.
Qed.

Lemma accept_or_raise c (v : R) s : s <> "" ->
  (exists m, mk_multi c v s = Ok m /\ mc m = c /\ mv m = v /\
     ((count_char "/" s <= 1)%nat -> unit_reads s (mtop m) (mbot m)) /\
     ((2 <= count_char "/" s)%nat -> mbot m = nil /\ half_reads s (mtop m))) \/
  mk_multi c v s = Raise EValueError \/ mk_multi c v s = Raise Unmodelled.
Proof.
  intro hs. unfold mk_multi. replace (String.eqb s "") with false by (symmetry; apply String.eqb_neq; exact hs).
  destruct (parse_units s) as [[t b]|e] eqn:hp; cbn [bind].
  - left. eexists. split; [reflexivity|]. cbn. split; [reflexivity|]. split; [reflexivity|].
    split; intro hc; [apply parse_units_reads|apply parse_two_slashes]; assumption.
  - right. destruct (parse_units_exn _ _ hp) as [-> | ->]; auto.
Qed.
Lemma reject c (v : R) s : s <> "" -> (count_char "/" s <= 1)%nat -> (forall t b, ~ unit_reads s t b) ->
  mk_multi c v s = Raise EValueError \/ mk_multi c v s = Raise Unmodelled.
Proof.
  intros hs hc hn. destruct (accept_or_raise c v s hs) as [[m [_ [_ [_ [h _]]]]]|h]; [|exact h].
  exfalso. exact (hn _ _ (h hc)).
Qed.
(** Two carets in one factor cannot be read. *)
Lemma slashes c (v : R) : exists m, mk_multi c v "m/s/s" = Ok m /\ mtop m = [BU "m/s/s" (eflt (Q2Qc 1))] /\ mbot m = nil.
Proof. eexists. split; [reflexivity|]. split; reflexivity. Qed.

(** ** Displayed exponents are unambiguous *)
Lemma sapp_cancel a b c : a +++ b = a +++ c -> b = c.
Proof. induction a as [|x a IH]; cbn; intro h; [exact h|]. injection h as h. exact (IH h). Qed.
Definition sup_lead (c : ascii) : bool := Ascii.eqb c "194" || Ascii.eqb c "226".
Lemma sup_prefix d e a b : (d <= 9)%nat -> (e <= 9)%nat -> sup_digit d +++ a = sup_digit e +++ b -> d = e /\ a = b.
Proof.
  intros hd he h. revert e he h. revert d hd. refine (all_digits _ _ _ _ _ _ _ _ _ _ _);
  refine (all_digits _ _ _ _ _ _ _ _ _ _ _); intro h; vm_compute in h;
  (split; [try reflexivity; exfalso; discriminate h|first [discriminate h | injection h as h; exact h]]).
Qed.
Definition plain_start (s : string) : Prop := match s with "" => True | String c _ => sup_lead c = false end.
Lemma sup_digit_lead d r : (d <= 9)%nat -> ~ plain_start (sup_digit d +++ r).
Proof. revert d. apply all_digits; cbn; intro h; discriminate h. Qed.
Lemma sup_digits_inj l : forall m a b, digits_ok l -> digits_ok m -> plain_start a -> plain_start b ->
  sup_digits l +++ a = sup_digits m +++ b -> l = m /\ a = b.
Proof.
  induction l as [|d l IH]; intros [|e m] a b hl hm ha hb h.
  - auto.
  - exfalso. cbn [sup_digits String.append] in h. rewrite sapp_assoc in h. apply digits_ok_cons in hm.
    apply (sup_digit_lead e (sup_digits m +++ b) (proj1 hm)). rewrite <- h. exact ha.
  - exfalso. cbn [sup_digits String.append] in h. rewrite sapp_assoc in h. apply digits_ok_cons in hl.
    apply (sup_digit_lead d (sup_digits l +++ a) (proj1 hl)). rewrite h. exact hb.
  - cbn [sup_digits] in h. rewrite !sapp_assoc in h. apply digits_ok_cons in hl, hm. destruct hl as [hd hl]. destruct hm as [he hm].
    apply sup_prefix in h; [|assumption|assumption]. destruct h as [-> h]. apply IH in h; try assumption. destruct h as [-> ->]. auto.
Qed.
Definition sup_tail (n : numeral) : string := match nfrac n with None => "" | Some f => "." +++ sup_digits f end.
Lemma sup_tail_start n : plain_start (sup_tail n).
Proof. unfold sup_tail. destruct (nfrac n); cbn; exact I || reflexivity. Qed.
Lemma sup_tail_inj n m : num_ok n -> num_ok m -> sup_tail n = sup_tail m -> frac_digits n = frac_digits m.
Proof.
  intros [_ [hn _]] [_ [hm _]] h. unfold sup_tail, frac_digits in *. destruct (nfrac n) as [f|], (nfrac m) as [g|]; try discriminate h; [|reflexivity].
  injection h as h. rewrite <- (sapp_nil (sup_digits f)), <- (sapp_nil (sup_digits g)) in h. apply sup_digits_inj in h; try assumption; try exact I. apply h.
Qed.
Lemma sup_body_start n : num_ok n -> forall c r, sup_digits (nwhole n) +++ sup_tail n = String c r -> c <> "-"%char /\ c <> "+"%char.
Proof.
  intros [h1 _] c r h. destruct (nwhole n) as [|d l].
  - unfold sup_tail in h. destruct (nfrac n); [|discriminate h]. cbn in h. injection h as <- _. split; discriminate.
  - cbn [sup_digits] in h. apply digits_ok_cons in h1. destruct h1 as [h1 _]. rewrite sapp_assoc in h.
    revert h. generalize (sup_digits l +++ sup_tail n). intro rest. revert d h1.
    apply (all_digits (fun d => sup_digit d +++ rest = String c r -> c <> "-"%char /\ c <> "+"%char)); intro h; vm_compute in h; injection h as <- _; split; discriminate.
Qed.
Lemma sup_num_inj n m : num_ok n -> num_ok m -> nexp n = None -> nexp m = None -> sup_num n = sup_num m -> (num_val n == num_val m)%Q.
Proof.
  intros hn hm en em h.
  assert (E : nsign n = nsign m /\ sup_digits (nwhole n) +++ sup_tail n = sup_digits (nwhole m) +++ sup_tail m).
  { unfold sup_num in h. fold (sup_tail n) in h. fold (sup_tail m) in h. pose proof (sup_body_start n hn) as sn. pose proof (sup_body_start m hm) as sm.
    revert h. generalize dependent (sup_digits (nwhole n) +++ sup_tail n). generalize dependent (sup_digits (nwhole m) +++ sup_tail m).
    intros x sx y sy h. destruct (nsign n) as [[]|], (nsign m) as [[]|]; cbn [sign_text String.append] in h; try (injection h as h; auto; fail); try discriminate h.
    - exfalso. exact (proj1 (sx _ _ (eq_sym h)) eq_refl).
    - exfalso. exact (proj2 (sx _ _ (eq_sym h)) eq_refl).
    - exfalso. exact (proj1 (sy _ _ h) eq_refl).
    - exfalso. exact (proj2 (sy _ _ h) eq_refl).
    - auto. }
  destruct E as [e1 e2]. apply sup_digits_inj in e2; [|exact (proj1 hn)|exact (proj1 hm)|apply sup_tail_start|apply sup_tail_start].
  destruct e2 as [e2 e3]. apply sup_tail_inj in e3; [|assumption|assumption]. unfold num_val. rewrite e1, e2, e3, en, em. reflexivity.
Qed.
Lemma display_lossy : exists e z, expo_wf e /\ ev e = Q2Qc (205 # 100) /\ remove_zero e = Ok z /\ ev z = Q2Qc 2 /\
  get_unit_string [BU "m" e] nil = get_unit_string [BU "m" (eint 2)] nil.
Proof.
  exists (eflt (Q2Qc (205 # 100))), (eint 2). split; [intro h; discriminate h|]. split; [reflexivity|]. split; [reflexivity|]. split; reflexivity.
Qed.

(** ** Re-reading a displayed unit *)
Lemma redisplay c (v : R) n : plain_text n = true -> n <> "" ->
  get_unit_string [BU n (eflt (Q2Qc 1))] nil = Ok n /\ mk_multi c v n = Ok (MO c v [BU n (eflt (Q2Qc 1))] nil).
Proof.
  intros h hn. split; [reflexivity|]. unfold mk_multi. replace (String.eqb n "") with false by (symmetry; apply String.eqb_neq; exact hn).
  assert (F : forall f, In f ([(n, None)] ++ []) -> factor_ok f) by (intros f [<-|[]]; split; [exact hn|split; [exact h|exact I]]).
  pose proof (parse_text [(n, None)] [] ltac:(discriminate) F) as P. unfold unit_text in P. cbn in P. rewrite sapp_nil in P. unfold factor_text in P. cbn in P.
  rewrite P. reflexivity.
Qed.
Lemma redisplay_wrong : exists top bot s, get_unit_string top bot = Ok s /\ top = [BU "mol" (eint 1)] /\ bot = [BU "L" (eint 1); BU "s" (eint 1)] /\
  forall c (v : R), exists m, mk_multi c v s = Ok m /\ map bname (mtop m) = ["mol"] /\ map bname (mbot m) = ["L "; " s"].
Proof.
  exists [BU "mol" (eint 1)], [BU "L" (eint 1); BU "s" (eint 1)], "mol / L * s". split; [reflexivity|]. split; [reflexivity|]. split; [reflexivity|].
  intros c v. eexists. split; [reflexivity|]. split; reflexivity.
Qed.
Definition case_top : list factor := [("kg", None); ("m", Some (Numeral (Some true) [1%nat] (Some [2%nat; 5%nat]) None))].
Definition case_bot : list factor := [("s", Some (Numeral None [2%nat] None (Some (None, [0%nat]))))].
Ltac small_digits := let d := fresh in let hd := fresh in intros d hd; cbn in hd; repeat (destruct hd as [<-|hd]; [repeat constructor|]); contradiction.
Lemma parse_case : unit_text case_top case_bot = "kg*m^-1.25/s^2e0" /\ (forall f, In f (case_top ++ case_bot) -> factor_ok f)
  /\ map factor_unit case_top = [("kg", Q2Qc 1); ("m", Q2Qc (-125 # 100))] /\ map factor_unit case_bot = [("s", Q2Qc 2)].
Proof.
  split; [reflexivity|]. split.
  - intros f h. cbn in h. destruct h as [<-|[<-|[<-|[]]]]; (split; [discriminate|split; [reflexivity|]]); cbn [snd].
    + exact I.
    + split; [small_digits|]. split; [small_digits|]. split; [discriminate|exact I].
    + split; [small_digits|]. split; [small_digits|]. split; [discriminate|]. split; [small_digits|discriminate].
  - split; reflexivity.
Qed.
