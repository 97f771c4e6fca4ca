(** * HeapSpec: what heaps stand for and when objects are left alone *)
From Coq Require Import String QArith List.
From Verif Require Import Py Num UnitsData UnitsStruct Units Heap.
Import ListNotations.

Section Spec.
Context {T : Type}.
Notation heap := (@heap T).

(** The objects [bs] are stored at the references [cs]. *)
Definition stored (h : heap) (cs : list nat) (bs : half) : Prop :=
  Forall2 (fun c b => nth_error (cells h) c = Some b) cs bs.
(** The list object [l] holds the BaseUnits [bs]. *)
Definition holds (h : heap) (l : nat) (bs : half) : Prop :=
  exists cs, nth_error (lists h) l = Some cs /\ stored h cs bs.
(** The Python value at a reference. *)
Inductive means (h : heap) : hval -> pyval T -> Prop :=
| means_num x : means h (HNum x) (VNum x)
| means_none : means h HNone VNone
| means_obj : means h HObj VObj
| means_unit n u : nth_error (uobjs h) n = Some u -> means h (HUnit n) (VUnit u)
| means_multi n r t b : nth_error (mobjs h) n = Some r -> holds h (mrt r) t -> holds h (mrb r) b ->
    means h (HMulti n) (VMulti (MO (mrc r) (mrv r) t b)).

(** Every reference leads to an object, and no object occurs twice in one list. *)
Definition wf (h : heap) : Prop :=
  (forall cs, In cs (lists h) -> NoDup cs /\ Forall (fun c => (c < length (cells h))%nat) cs)
  /\ (forall r, In r (mobjs h) -> (mrt r < length (lists h))%nat /\ (mrb r < length (lists h))%nat)
  /\ (2 <= length (lists h))%nat.

(** Everything stored before is stored still: BaseUnits, lists, Units, MultiUnits. *)
Definition keeps {A} (l l' : list A) : Prop := forall i x, nth_error l i = Some x -> nth_error l' i = Some x.
Definition unchanged (h h' : heap) : Prop :=
  keeps (cells h) (cells h') /\ keeps (lists h) (lists h') /\ keeps (uobjs h) (uobjs h') /\ keeps (mobjs h) (mobjs h').

(** The outcome of a computation with references against the outcome with values. *)
Definition agrees (h : heap) (r : res hval) (p : res (pyval T)) : Prop :=
  match p with
  | Ok v => exists x, r = Ok x /\ means h x v
  | Raise e => r = Raise e
  end.

(** The storage of a MultiUnit: its two lists and the BaseUnits in them. *)
Definition list_of (h : heap) (m l : nat) : Prop :=
  exists r, nth_error (mobjs h) m = Some r /\ (l = mrt r \/ l = mrb r).
Definition cell_of (h : heap) (m c : nat) : Prop :=
  exists l cs, list_of h m l /\ nth_error (lists h) l = Some cs /\ In c cs.
(** [h'] is [h] after arbitrary changes of the storage of [m] (and allocations). *)
Definition changed_storage (m : nat) (h h' : heap) : Prop :=
  (forall c x, ~ cell_of h m c -> nth_error (cells h) c = Some x -> nth_error (cells h') c = Some x)
  /\ (forall l x, ~ list_of h m l -> nth_error (lists h) l = Some x -> nth_error (lists h') l = Some x)
  /\ keeps (uobjs h) (uobjs h') /\ keeps (mobjs h) (mobjs h').
(** [m], made after [h0], is independent of the objects of [h0]: no change of its
    storage shows in one of them, and no change of the storage of one of them
    shows in [m]. *)
Definition independent (h0 h : heap) (m : nat) : Prop :=
  (forall h' x p, changed_storage m h h' -> means h0 x p -> means h' x p)
  /\ (forall h' n p, (n < length (mobjs h0))%nat -> changed_storage n h h' -> means h (HMulti m) p -> means h' (HMulti m) p).
(** The lists in use: the two default ones and those of the MultiUnits. *)
Definition live (h : heap) (l : nat) : Prop := l = 0%nat \/ l = 1%nat \/ exists m, list_of h m l.
(** Two lists in use are one list or have no BaseUnit in common. *)
Definition shared_whole (h : heap) : Prop := forall l l' cs cs' c, live h l -> live h l' -> l <> l' ->
  nth_error (lists h) l = Some cs -> nth_error (lists h) l' = Some cs' -> In c cs -> ~ In c cs'.
(** A MultiUnit after the list [l] has gone from [t] to [f t]. *)
Definition seen_through (l : nat) (f : half -> half) (r : mrec) (t b : half) : multi_obj T :=
  MO (mrc r) (mrv r) (if Nat.eqb (mrt r) l then f t else t) (if Nat.eqb (mrb r) l then f b else b).
End Spec.

(** ** Arithmetic operations, on references and on values *)
Inductive operation (A : Type) :=
| Mul (a b : A) | Div (a b : A) | Add (a b : A) | Sub (a b : A) | Pow (a : A) (k : expo) | Neg (a : A).
Arguments Mul {A}. Arguments Div {A}. Arguments Add {A}. Arguments Sub {A}. Arguments Pow {A}. Arguments Neg {A}.

Section Operations.
Context {T : Type} `{Num T}.
Definition on_heap (o : operation hval) : M (T:=T) hval :=
  match o with
  | Mul a b => h_mul a b | Div a b => h_div a b | Add a b => h_add a b | Sub a b => h_sub a b
  | Pow a k => h_pow a k | Neg a => h_neg a
  end.
Definition on_values (o : operation (pyval T)) : res (pyval T) :=
  match o with
  | Mul a b => py_mul a b | Div a b => py_div a b | Add a b => py_add a b | Sub a b => py_sub a b
  | Pow a k => py_pow a k | Neg a => py_neg a
  end.
Inductive operands (h : heap) : operation hval -> operation (pyval T) -> Prop :=
| op_mul a b p q : means h a p -> means h b q -> operands h (Mul a b) (Mul p q)
| op_div a b p q : means h a p -> means h b q -> operands h (Div a b) (Div p q)
| op_add a b p q : means h a p -> means h b q -> operands h (Add a b) (Add p q)
| op_sub a b p q : means h a p -> means h b q -> operands h (Sub a b) (Sub p q)
| op_pow a k p : means h a p -> operands h (Pow a k) (Pow p k)
| op_neg a p : means h a p -> operands h (Neg a) (Neg p).

(** The heaps a program can reach: it makes units, builds MultiUnits from unit
    strings or with the default halves, calculates, converts, and changes a half
    through its owner (an operation that raises also leads to a heap). *)
Inductive reachable (tb : tables T) : heap -> Prop :=
| reach_start : reachable tb initial
| reach_unit h u : reachable tb h -> reachable tb (snd (new_unit u h))
| reach_build h c v s : reachable tb h -> reachable tb (snd (construct c v s None None h))
| reach_op h o p : reachable tb h -> operands h o p -> reachable tb (snd (on_heap o h))
| reach_multi h m target inplace : reachable tb h -> reachable tb (snd (h_multi_convert tb m target inplace h))
| reach_conv h n target inplace : reachable tb h -> reachable tb (snd (h_unit_convert tb n target inplace h))
| reach_append h m x : reachable tb h -> reachable tb (snd (append_top m x h))
| reach_combine h m : reachable tb h -> reachable tb (snd (combine_top m h)).
End Operations.

(** Operations on [m] that only change the value. *)
Inductive scaling {T : Type} (m : nat) : operation (@hval T) -> Prop :=
| sc_mul x : scaling m (Mul (HMulti m) (HNum x))
| sc_rmul x : scaling m (Mul (HNum x) (HMulti m))
| sc_div x : scaling m (Div (HMulti m) (HNum x))
| sc_rdiv x : scaling m (Div (HNum x) (HMulti m))
| sc_neg : scaling m (Neg (HMulti m))
| sc_add n : scaling m (Add (HMulti m) (HMulti n))
| sc_sub n : scaling m (Sub (HMulti m) (HMulti n)).

(** Programs for the examples: building objects from strings. *)
Definition build (s : string) (v : Q) (h : heap) : heap := snd (construct MMulti v s None None h).
Definition shop : @heap Q := build "s/m"%string 3 (build "kg*m/s^2"%string 2 initial).
