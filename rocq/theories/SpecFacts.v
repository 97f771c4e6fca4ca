(** * SpecFacts: the SI sizes form a coherent system *)
From Coq Require Import String Ascii List ZArith QArith Qcanon Bool Reals Qreals Lia Lra.
From Verif Require Import Py Num UnitsData UnitsStruct Units NumFacts Spec.
Import ListNotations.
Local Open Scope string_scope.
Local Open Scope list_scope.
Local Open Scope R_scope.

Lemma dict_get_in {V} (d : list (string * V)) k v : dict_get d k = Some v -> In (k, v) d.
Proof.
  induction d as [|[k' v'] d IH]; cbn; [discriminate|].
  destruct (dict_get d k) as [u|]; [intro h; right; apply IH; exact h|].
  destruct (String.eqb k' k) eqn:e; [|discriminate]. intro h. injection h as ->. apply String.eqb_eq in e. subst. left. reflexivity.
Qed.

Lemma si_pos : positive si.
Proof.
  intro n. unfold si. destruct (dict_get si_table n) as [q|] eqn:e; [|lra].
  apply dict_get_in in e. apply Q2R_pos.
  assert (h : forallb (fun p => negb (Qle_bool (snd p) 0)) si_table = true) by (vm_compute; reflexivity).
  rewrite forallb_forall in h. specialize (h _ e). cbn in h. apply negb_true_iff in h.
  apply Qnot_le_lt. intro c. apply Qle_bool_iff in c. congruence.
Qed.

Definition size_is (n : string) (q : Q) : bool :=
  match dict_get si_table n with Some x => Qeq_bool x q | None => false end.
Lemma size_is_si n q : size_is n q = true -> si n = Q2R q.
Proof.
  unfold size_is, si. destruct (dict_get si_table n); [|discriminate]. intro h. apply Qeq_eqR, Qeq_bool_iff. exact h.
Qed.
Ltac si_val n q := rewrite (size_is_si n q) by (vm_compute; reflexivity).
Ltac q2r := unfold Q2R; cbn [Qnum Qden].

Lemma coherent_si : coherent si.
Proof.
  constructor.
  - exact si_pos.
  - assert (h : forallb (fun pf => forallb (fun s => match dict_get si_table s with
        | Some x => size_is (String (fst pf) s) (snd pf * x) | None => false end) si_symbols) si_prefix_q = true)
      by (vm_compute; reflexivity).
    rewrite forallb_forall in h. intros p f s hp hs.
    assert (hq : exists q, In (p, q) si_prefix_q /\ Q2R q = f).
    { cbn in hp. destruct hp as [e|[e|[e|[e|[e|[e|[]]]]]]]; injection e as <- <-.
      - exists (1 # 1000000). split; [cbn; tauto|q2r; lra].
      - exists (1 # 1000). split; [cbn; tauto|q2r; lra].
      - exists (1 # 100). split; [cbn; tauto|q2r; lra].
      - exists (1 # 10). split; [cbn; tauto|q2r; lra].
      - exists (1000 # 1). split; [cbn; tauto|q2r; lra].
      - exists (1000000 # 1). split; [cbn; tauto|q2r; lra]. }
    destruct hq as [q [hq <-]]. specialize (h _ hq). rewrite forallb_forall in h. specialize (h s hs). cbn [fst snd] in h.
    destruct (dict_get si_table s) as [x|] eqn:e; [|discriminate].
    rewrite (size_is_si _ _ h). rewrite Q2R_mult. unfold si. rewrite e. reflexivity.
  - si_val "Pa" 1%Q. si_val "kg" 1%Q. si_val "m" 1%Q. si_val "s" 1%Q. q2r. field.
  - si_val "J" 1%Q. si_val "kg" 1%Q. si_val "m" 1%Q. si_val "s" 1%Q. q2r. field.
  - si_val "W" 1%Q. si_val "J" 1%Q. si_val "s" 1%Q. q2r. field.
  - si_val "psi" ((444822 # 100000) / ((254 # 10000) * (254 # 10000)))%Q. si_val "lbf" (444822 # 100000). si_val "in" (254 # 10000).
    rewrite Q2R_div, Q2R_mult by (cbn; discriminate). q2r. field.
  - si_val "cP" (1 # 1000). si_val "g" (1 # 1000). si_val "m" 1%Q. si_val "s" 1%Q. q2r. field.
  - si_val "C" 1%Q. si_val "A" 1%Q. si_val "s" 1%Q. q2r. field.
  - si_val "V" 1%Q. si_val "kg" 1%Q. si_val "m" 1%Q. si_val "s" 1%Q. si_val "A" 1%Q. q2r. field.
Qed.
