(** C80: how decoding any hardware trace can stop. *)
Require Import NArith ZArith List Bool Lia.
Require Import Verif.Word Verif.Codec_Types Verif.Xlate_Model Verif.Htm_Model Verif.Htm_Spec Verif.Trace_Spec.
Require Import Verif.Fault_Spec Verif.Fault_Proofs Verif.Fault_Proofs2.
Require Verif.Tlb_Model Verif.Tlb_Spec Verif.Tlb_Props Verif.Bb_Model.
Import ListNotations.
Local Open Scope N_scope.

(** Whatever the bytes of the file and the old contents of memory: an assert,
    or an access outside the arrays for xlate and walk records; no other access
    outside an array, no endless loop, no second step back; an overflow only
    for files of 2^30 bytes or more. *)
Theorem C80_stops : forall qs stale junk full bytes bad e,
  Tlb_Spec.sorter qs -> (forall z, length (stale z) = 8%nat) -> (forall z, bytes_ok (stale z)) -> bytes_ok bytes ->
  htm_decode qs stale junk full bytes bad = HErr e ->
  stops full e \/ 2 ^ 30 <= N.of_nat (length bytes) + 1 /\ overflows e.
Proof. exact decode_stops. Qed.
Print Assumptions C80_stops.

(** ** All of these happen
    A stamp with reserved bits; three xlate records; a walk of 38 records
    joined to a partial one; a hypervisor with relocation; the last page of the
    address space, looked up. *)
Definition zeros (z : Z) : list N := repeat 0 8.
Definition no_rec (z : Z) : qrec :=
  mk_qrec 0 0 false 0 false 0 false 0 false 0 false 0 false false false 0 false 0 zero_radix zero_radix.
Definition how (full : bool) (words : list N) : option herr :=
  match htm_decode Tlb_Props.isort zeros no_rec full (flat_map be8 words) false with HErr e => Some e | HOk _ => None end.

Definition f_stamp : list N := [0xACEFF30000000002].
Definition f_three : list N := [0x1ABCDF00; 0x0100000000000000; 0x1ABCDF00; 0x0100000000000000; 0x1ABCDF00].
Definition f_join : list N :=
  [0x800000001ABCDF00; 0x100; 0x108; 0; 0x0100000000000000; 0x3ABCDF00; 0x4000; 0;
   0x800000001ABCDF00] ++ List.map (fun i => N.of_nat i * 8) (seq 0 37) ++ [0x0100000000000000; 0x3ABCDF00; 0x4000; 0].
Definition f_hv : list N :=
  [0x1ABCDF00; 0x8000; 0x0100000000000000; 0x3ABCDF00; 0x4000; 0x8000000; 0x600000002ABCDF00; 0xA000000000000000].
Definition f_top : list N :=
  [0x600000000ABCDEE0; 0xFFFFFFFFFFFFF001; 0x15000000; 0x600000000ABCDEC0; 0xFFFFFFFFFFFFF001].
Theorem C80_reached : forall full e, stops full e -> exists bytes,
  bytes_ok bytes /\ htm_decode Tlb_Props.isort zeros no_rec full bytes false = HErr e.
Proof.
  intros full e H.
  assert (B : forall l, bytes_ok (flat_map be8 l)).
  { intros l. apply Forall_forall. intros x Hx. apply in_flat_map in Hx as (v & _ & Hx).
    unfold be8 in Hx. apply in_map_iff in Hx as (i & <- & _). apply N.mod_lt. discriminate. }
  destruct e as [| | | |e|e|e|]; cbn in H; try contradiction H.
  - exists (flat_map be8 f_stamp). split; [apply B|]. destruct full; vm_compute; reflexivity.
  - exists (flat_map be8 f_three). split; [apply B|]. destruct full; vm_compute; reflexivity.
  - destruct e; try contradiction H. subst full. exists (flat_map be8 f_top). split; [apply B|]. vm_compute. reflexivity.
  - destruct e; try contradiction H.
    + subst full. exists (flat_map be8 f_hv). split; [apply B|]. vm_compute. reflexivity.
    + exists (flat_map be8 f_join). split; [apply B|]. destruct full; vm_compute; reflexivity.
Qed.
Print Assumptions C80_reached.
Example C80_reached_ex :
  (Tlb_Spec.sorter Tlb_Props.isort /\ (forall z, length (zeros z) = 8%nat) /\ (forall z, bytes_ok (zeros z)))
  /\ how true f_hv = Some (HXlate XAssert) /\ how false f_hv = None
  /\ how true f_top = Some (HTlb Tlb_Model.TAssert) /\ how false f_top = None
  /\ how true (removelast f_top) = None.
Proof.
  split; [split; [exact Tlb_Props.C22_sorter|split; [reflexivity|intros z; repeat constructor]]|].
  vm_compute. repeat split.
Qed.

(** The TLB alone, for any calls in any order: an assert, or more than 2^30
    calls. *)
Theorem C80_tlb : forall qs h e, Tlb_Spec.sorter qs ->
  Tlb_Model.tlb_run qs Tlb_Model.tlb_zero h = Tlb_Model.TErr e ->
  e = Tlb_Model.TAssert \/ 2 ^ 30 <= N.of_nat (length h) /\ e = Tlb_Model.TOverflow.
Proof. exact tlb_stops. Qed.
Print Assumptions C80_tlb.
Example C80_tlb_ex :
  Tlb_Model.tlb_run Tlb_Props.isort Tlb_Model.tlb_zero
    [Tlb_Model.OSet 0x5000 1 0x8000 0x1000; Tlb_Model.OSet 0x10000 1 0x90000 0x10000;
     Tlb_Model.OGet 0x5123 1; Tlb_Model.OSet 0x5800 1 0x8000 0x1001] = Tlb_Model.TErr Tlb_Model.TAssert.
Proof. vm_compute. reflexivity. Qed.
