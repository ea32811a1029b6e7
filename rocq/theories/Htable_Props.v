(** C35 and C36: the hash table. *)
Require Import NArith List Bool Permutation Lia.
Require Import Verif.Word Verif.Htable_Model Verif.Htable_Spec Verif.Htable_Proofs3.
Import ListNotations.
Local Open Scope N_scope.

(** Whatever the hash function and the history, the table holds a multiset of
    pointers: no probe is endless, nothing is accessed outside the table,
    nothing is lost when it grows, is rehashed or gives up common bits. *)
Theorem C35_history : forall rehash t os h, 1 <= t <= 63 ->
  (h = ht_init \/ exists expect, h = fst (ht_init_sized true expect)) ->
  Forall (fun o => top_is t (op_ptr o)) os -> N.of_nat (length os) <= 805306368 ->
  exists h' rs c, run_ops rehash os h = HtOk (h', rs) /\ explains os rs [] c /\ shows rehash h' c.
Proof. exact history. Qed.
Print Assumptions C35_history.

(** A table of a given size needs no allocation for that many additions. *)
Theorem C35_reserved : forall rehash t os expect h rs, 1 <= t <= 63 -> expect <= 805306368 ->
  Forall (fun o => top_is t (op_ptr o)) os -> adds os <= expect ->
  run_ops rehash os (fst (ht_init_sized true expect)) = HtOk (h, rs) ->
  forall i ok p, nth_error os i = Some (OpAdd ok p) -> nth_error rs i = Some true.
Proof. exact reserved. Qed.
Print Assumptions C35_reserved.

(** Colliding hashes, two doublings, a change of common bits that includes the
    perfect bit, deletions, a rehash of the table in place. *)
Definition ex_hash (p : N) : N := p / 16 mod 2.
Definition ex : list hop :=
  [OpAdd true 0x1010; OpAdd true 0x1020; OpAdd true 0x1031; OpDel 0x1020; OpAdd true 0x1050;
   OpDel 0x1010; OpAdd true 0x1070; OpDel 0x1099; OpDel 0x1031; OpAdd true 0x1091; OpAdd true 0x10a0;
   OpDel 0x1050; OpAdd true 0x10c0; OpAdd false 0x10b0].
Example C35_ex : match run_ops ex_hash ex ht_init with
  | HtOk (h, rs) => rs = [true; true; true; true; true; true; true; false; true; true; true; true; true; true]
      /\ iterate h = HtOk [0x10a0; 0x10c0; 0x1070; 0x1091; 0x10b0]
      /\ ht_get h 0 (fun p => 0x10a0 <? p) = HtOk (Some 0x10c0)
      /\ ht_get h 1 (N.eqb 0x1050) = HtOk None
      /\ (h_elems h, h_bits h) = (5, 3)
  | HtErr _ => False
  end.
Proof. vm_compute. repeat split; reflexivity. Qed.
Example C35_ex_top : Forall (fun o => top_is 12 (op_ptr o)) ex.
Proof. repeat constructor; vm_compute; congruence. Qed.

(** Pointers that do not share the highest bit: an element is stored as the
    mark of an empty slot. *)
Theorem C36_highest_bit_refuted : ~ forall rehash os,
  Forall (fun o => 2 <= op_ptr o < 2 ^ 64) os -> N.of_nat (length os) <= 805306368 ->
  exists h' rs c, run_ops rehash os ht_init = HtOk (h', rs) /\ explains os rs [] c /\ shows rehash h' c.
Proof.
  intro H.
  destruct (H (fun _ => 0) [OpAdd true 0x1010; OpAdd true 0x10]) as (h & rs & c & E & X & S1 & (l & S2 & S3) & _).
  { repeat constructor; vm_compute; congruence. }
  { vm_compute. discriminate. }
  assert (Y : match run_ops (fun _ => 0) [OpAdd true 0x1010; OpAdd true 0x10] ht_init with
              | HtOk (h, rs) => h_elems h = 2 /\ iterate h = HtOk [0x1010] | HtErr _ => False end)
    by (vm_compute; split; reflexivity).
  rewrite E in Y. destruct Y as [Y1 Y2]. rewrite S2 in Y2. injection Y2 as Y2. subst l.
  apply Permutation_length in S3. rewrite Y1, <- S3 in S1. discriminate S1.
Qed.
Print Assumptions C36_highest_bit_refuted.

(** The interface promises that the table is usable if the allocation of the
    reserved size failed; but a lookup then reads outside it. *)
Theorem C36_failed_init_refuted : ~ forall expect hash cmp,
  exists r, ht_get (fst (ht_init_sized false expect)) hash cmp = HtOk r.
Proof.
  intro H. destruct (H 1 1 (fun _ => true)) as (r & E).
  assert (Y : ht_get (fst (ht_init_sized false 1)) 1 (fun _ => true) = HtErr HtOob) by (vm_compute; reflexivity).
  rewrite Y in E. discriminate E.
Qed.
Print Assumptions C36_failed_init_refuted.
