(** * Properties of objects, references and sharing (C35, C36, C64, C65, C101)

    [means], [unchanged], [independent] and the heaps a program can reach are
    those of HeapSpec. *)
From Coq Require Import Ascii String List ZArith QArith Qcanon Bool.
From Verif Require Import Py Num UnitsData UnitsStruct Units Heap HeapSpec HeapProps HeapShare HeapOwner.
Import ListNotations.
Local Open Scope string_scope.
Local Open Scope list_scope.

(** ** C35

    In every heap without dangling references and repeated list members, an
    operation leaves every object as it was, also when it raises; its outcome is
    that of the operation on values (Units.v). *)
Theorem C35_unchanged : forall (T : Type) (NT : Num T) (h : @heap T) o p, wf h -> operands h o p ->
  unchanged h (snd (on_heap o h)) /\ wf (snd (on_heap o h)) /\ agrees (snd (on_heap o h)) (fst (on_heap o h)) (on_values p).
Proof. intros T NT. exact arithmetic. Qed.
Print Assumptions C35_unchanged.
(** Those are the heaps that programs reach. *)
Theorem C35_reachable : forall (T : Type) (NT : Num T) tb (h : @heap T), reachable tb h -> wf h.
Proof. intros T NT. exact reachable_wf. Qed.
Print Assumptions C35_reachable.

(** [shop] holds 2 kg m / s^2 and 3 s / m. *)
Example C35_shop : wf shop.
Proof. apply (C35_reachable Q _ tables0). repeat apply reach_build. apply reach_start. Qed.
Example C35_shop_product :
  match on_heap (Mul (HMulti 0) (HMulti 1)) shop with
  | (Ok (HMulti k), h) =>
      den_multi h (nth k (mobjs h) (MR MMulti (0 # 1) 0 0)) = MO MMulti (6 # 1) [BU "kg" (eflt 1%Qc)] [BU "s" (eflt 1%Qc)]
      /\ (length (cells h) > length (cells shop))%nat /\ firstn (length (cells shop)) (cells h) = cells shop
  | _ => False
  end.
Proof. vm_compute. repeat split; try reflexivity. repeat constructor. Qed.

(** ** C36

    Full statement: every MultiUnit is independent of those built separately.
    It holds for objects built from unit strings. *)
Theorem C36_built_partial : forall (T : Type) (NT : Num T) (h : @heap T) c v s, wf h -> s <> "" ->
  match construct c v s None None h with
  | (Ok (HMulti m), h') => independent h h' m
  | (Ok _, _) => False
  | (Raise _, h') => h' = h
  end.
Proof. intros T NT. exact built_independent. Qed.
Print Assumptions C36_built_partial.
(** Of the MultiUnits that arithmetic returns, exactly those are dependent that
    only have another value than an operand ([scaling]): products, quotients and
    powers are independent. *)
Theorem C36_exactly : forall (T : Type) (NT : Num T) (h : @heap T), wf h -> forall o p k h', operands h o p ->
  on_heap o h = (Ok (HMulti k), h') -> (independent h h' k <-> ~ exists m, scaling m o).
Proof. intros T NT. exact exactly_scaling. Qed.
Print Assumptions C36_exactly.
(** 2 kg*m/s^2 squared, times 3 s/m, and times 5. *)
Example C36_case : wf shop /\ exists x y z,
  fst (on_heap (Pow (HMulti 0) (eint 2)) shop) = Ok (HMulti x) /\ fst (on_heap (Mul (HMulti 0) (HMulti 1)) shop) = Ok (HMulti y)
  /\ fst (on_heap (Mul (HMulti 0) (HNum 5%Q)) shop) = Ok (HMulti z).
Proof. split; [exact C35_shop|]. exists 2%nat, 2%nat, 2%nat. vm_compute. repeat split. Qed.
(** It fails for objects built without halves: they share the two default lists. *)
Theorem C36_default_refuted : forall (T : Type) (NT : Num T) (h : @heap T) c v c' v', wf h ->
  exists m h1 n h2, construct c v "" None None h = (Ok (HMulti m), h1)
    /\ construct c' v' "" None None h1 = (Ok (HMulti n), h2) /\ ~ independent h1 h2 n.
Proof. intros T NT. exact default_shared. Qed.
Print Assumptions C36_default_refuted.
(** And for every result that only has another value: it shares its lists with the operand. *)
Theorem C36_scaled_refuted : forall (T : Type) (NT : Num T) (h : @heap T) m o a, wf h -> means h (HMulti m) a -> scaling m o ->
  match on_heap o h with
  | (Ok (HMulti k), h') => ~ independent h h' k
  | (Ok (HNone), _) | (Ok HObj, _) | (Ok (HUnit _), _) | (Ok (HNum _), _) => False
  | (Raise _, h') => h' = h
  end.
Proof. intros T NT. exact scaling_shares. Qed.
Print Assumptions C36_scaled_refuted.

(** The documented call [y.combine_units(y._top_half)] for y = 2 * mu changes mu,
    5 m * m / s, into 5 m^0 * m^2 / s. *)
Example C36_combine :
  let h := build "m*m/s" 5 initial in
  match on_heap (Mul (HMulti 0) (HNum (2 # 1))) h with
  | (Ok (HMulti k), h1) =>
      let h2 := snd (combine_top k h1) in
      den_multi h (nth 0 (mobjs h) (MR MMulti (0 # 1) 0 0)) = MO MMulti (5 # 1) [BU "m" (eflt 1%Qc); BU "m" (eflt 1%Qc)] [BU "s" (eflt 1%Qc)]
      /\ den_multi h2 (nth 0 (mobjs h2) (MR MMulti (0 # 1) 0 0)) = MO MMulti (5 # 1) [BU "m" (eint 0%Z); BU "m" (eflt (qc 2))] [BU "s" (eflt 1%Qc)]
  | _ => False
  end.
Proof. vm_compute. split; reflexivity. Qed.
(** Appending to the top half of one object built without halves changes the other. *)
Example C36_append :
  let h := build "" 7 (build "" 1 initial) in
  let h2 := snd (append_top 0 (BU "m" (eint 1)) h) in
  den_multi h (nth 1 (mobjs h) (MR MMulti (0 # 1) 0 0)) = MO MMulti (7 # 1) [] []
  /\ den_multi h2 (nth 1 (mobjs h2) (MR MMulti (0 # 1) 0 0)) = MO MMulti (7 # 1) [BU "m" (eint 1)] [].
Proof. vm_compute. split; reflexivity. Qed.

(** ** C101: a change of a half shows in the objects that have the same list, and in no other

    [seen_through l f r t b]: the MultiUnit [r] with halves [t] and [b] after the
    list [l] has gone from [u] to [f u]. *)
Theorem C101_shared_whole : forall (T : Type) (NT : Num T) tb (h : @heap T), reachable tb h -> shared_whole h.
Proof. intros T NT. exact reachable_whole. Qed.
Print Assumptions C101_shared_whole.
Theorem C101_append : forall (T : Type) (NT : Num T) (h : @heap T) m a x, wf h -> nth_error (mobjs h) m = Some a ->
  exists h', append_top m x h = (Ok tt, h') /\ wf h' /\ mobjs h' = mobjs h /\ uobjs h' = uobjs h /\
    forall n r t b, nth_error (mobjs h) n = Some r -> holds h (mrt r) t -> holds h (mrb r) b ->
      means h' (HMulti n) (VMulti (seen_through (mrt a) (fun u => u ++ [x]) r t b)).
Proof. intros T NT. exact append_shows. Qed.
Print Assumptions C101_append.
Theorem C101_combine : forall (T : Type) (NT : Num T) tb (h : @heap T) m a, reachable tb h -> nth_error (mobjs h) m = Some a ->
  exists h', combine_top m h = (Ok tt, h') /\ wf h' /\ mobjs h' = mobjs h /\ uobjs h' = uobjs h /\
    forall n r t b, nth_error (mobjs h) n = Some r -> holds h (mrt r) t -> holds h (mrb r) b ->
      means h' (HMulti n) (VMulti (seen_through (mrt a) combine_units r t b)).
Proof. intros T NT. exact combine_shows. Qed.
Print Assumptions C101_combine.
Theorem C101_unseen : forall (T : Type) l f (r : @mrec T) t b, mrt r <> l -> mrb r <> l ->
  seen_through l f r t b = MO (mrc r) (mrv r) t b.
Proof. intros T. exact unseen. Qed.
Print Assumptions C101_unseen.
(** In [shop] after -x for x the first object: the result and x have the same lists, the second object has others. *)
Example C101_case : let h := snd (on_heap (Neg (HMulti 0)) shop) in reachable tables0 h /\
  exists r0 r1 r2, mobjs h = [r0; r1; r2] /\ mrt r2 = mrt r0 /\ mrb r2 = mrb r0 /\ mrt r1 <> mrt r0 /\ mrb r1 <> mrt r0 /\
    den_half h (mrt r0) = [BU "kg" (eflt 1%Qc); BU "m" (eflt 1%Qc)].
Proof.
  split; [|eexists _, _, _; vm_compute; repeat split; discriminate].
  eapply reach_op with (p := Neg (VMulti (MO MMulti (2 # 1) _ _))); [repeat apply reach_build; apply reach_start|].
  constructor. apply (means_multi shop 0 (MR MMulti (2 # 1) 2 3)); [reflexivity| |]; eexists; (split; [reflexivity|repeat constructor]).
Qed.

(** ** C64: in-place conversion changes the object converted and no other *)
Theorem C64_multi : forall (T : Type) (NT : Num T) tb (h : @heap T) m a target, wf h -> means h (HMulti m) (VMulti a) ->
  match multi_convert_to tb a target with
  | Ok b => exists h', h_multi_convert tb m target true h = (Ok HNone, h') /\ wf h' /\ means h' (HMulti m) (VMulti b)
      /\ (forall x p, x <> HMulti m -> means h x p -> means h' x p)
  | Raise e => h_multi_convert tb m target true h = (Raise e, h)
  end.
Proof. intros T NT. exact multi_convert_inplace. Qed.
Print Assumptions C64_multi.
Theorem C64_unit : forall (T : Type) (NT : Num T) tb (h : @heap T) n u target, wf h -> nth_error (uobjs h) n = Some u -> same_target u target = false ->
  match unit_convert_to tb u target with
  | Ok w => exists h', h_unit_convert tb n target true h = (Ok HNone, h') /\ wf h' /\ means h' (HUnit n) (VUnit w)
      /\ (forall x p, x <> HUnit n -> means h x p -> means h' x p)
  | Raise e => h_unit_convert tb n target true h = (Raise e, h)
  end.
Proof. intros T NT. exact unit_convert_ip. Qed.
Print Assumptions C64_unit.
(** 2 kg m / s^2 converted to g m / s^2 in place; a scaled copy made before keeps its unit. *)
Example C64_instance :
  let h := snd (on_heap (Mul (HMulti 0) (HNum (2 # 1))) shop) in
  match h_multi_convert tables0 0 "g*m/s^2" true h with
  | (Ok HNone, h2) =>
      den_multi h2 (nth 0 (mobjs h2) (MR MMulti (0 # 1) 0 0)) = MO MMulti (2000 # 1) [BU "g" (eflt 1%Qc); BU "m" (eflt 1%Qc)] [BU "s" (eflt (qc 2))]
      /\ den_multi h2 (nth 2 (mobjs h2) (MR MMulti (0 # 1) 0 0)) = MO MMulti (4 # 1) [BU "kg" (eflt 1%Qc); BU "m" (eflt 1%Qc)] [BU "s" (eflt (qc 2))]
  | _ => False
  end.
Proof. vm_compute. split; reflexivity. Qed.

(** ** C65: conversion makes a new object

    Full statement: [x.convert_to(unit)] without inplace returns a new object and
    leaves the others alone.  So it is for MultiUnits and for Units whose unit
    differs from the target. *)
Theorem C65_multi_partial : forall (T : Type) (NT : Num T) tb (h : @heap T) m a target, wf h -> means h (HMulti m) (VMulti a) ->
  match multi_convert_to tb a target with
  | Ok b => exists k h', h_multi_convert tb m target false h = (Ok (HMulti k), h') /\ wf h' /\ unchanged h h'
      /\ means h' (HMulti k) (VMulti b) /\ independent h h' k
  | Raise e => h_multi_convert tb m target false h = (Raise e, h)
  end.
Proof. intros T NT. exact multi_convert_new. Qed.
Print Assumptions C65_multi_partial.
Theorem C65_unit_partial : forall (T : Type) (NT : Num T) tb (h : @heap T) n u target, wf h -> nth_error (uobjs h) n = Some u -> same_target u target = false ->
  match unit_convert_to tb u target with
  | Ok w => exists k h', h_unit_convert tb n target false h = (Ok (HUnit k), h') /\ k <> n /\ unchanged h h' /\ means h' (HUnit k) (VUnit w)
  | Raise e => h_unit_convert tb n target false h = (Raise e, h)
  end.
Proof. intros T NT. exact unit_convert_fresh. Qed.
Print Assumptions C65_unit_partial.
(** A Unit converted to its own unit is returned itself. *)
Theorem C65_same_refuted : forall (T : Type) (NT : Num T) tb (h : @heap T) n u inplace, nth_error (uobjs h) n = Some u ->
  has_char "^"%char (un u) = false -> mem_str (un u) UNIT_COMPOSITES = false ->
  h_unit_convert tb n (un u) inplace h = (Ok (HUnit n), h).
Proof. intros T NT. exact same_unit_self. Qed.
Print Assumptions C65_same_refuted.
(** y = x.convert_to("m"), then y.convert_to("cm", inplace=True): x, 3 m, is 300 cm. *)
Example C65_instance :
  let h : @heap Q := snd (new_unit (UO Length (3 # 1) "m" (eint 1)) initial) in
  match h_unit_convert tables0 0 "m" false h with
  | (Ok (HUnit y), h1) => uobjs (snd (h_unit_convert tables0 y "cm" true h1)) = [UO Length (300 # 1) "cm" (eint 1)]
  | _ => False
  end.
Proof. vm_compute. reflexivity. Qed.
