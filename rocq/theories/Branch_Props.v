(** Properties C14-C17: branch words (qtlib/branch.h). *)
Require Import NArith ZArith Bool List.
Require Import Verif.Word Verif.Branch_Model Verif.Branch_Spec Verif.Branch_Proofs.
Import ListNotations.
Local Open Scope N_scope.

(** The displacement a caller asks for: the target itself for an absolute
    branch, target - address for a relative one, as a signed 64-bit number. *)
Definition requested (addr target flags : N) : Z :=
  if isa_AA flags =? 1 then s64 target
  else s64 (Z.to_N ((Z.of_N target - Z.of_N addr) mod 2 ^ 64)).

(** C14 *)
Theorem C14_create_branch_in_range : forall addr target flags,
  addr < 2 ^ 64 -> target < 2 ^ 64 ->
  (- 2 ^ 25 <= requested addr target flags < 2 ^ 25)%Z ->
  (requested addr target flags mod 4 = 0)%Z ->
  let w := create_branch addr target flags in
  w < 2 ^ 32 /\ isa_opcd w = 18 /\ isa_AA w = isa_AA flags /\ isa_LK w = isa_LK flags /\
  isa_I_disp w = requested addr target flags /\
  isa_branch_target w addr = Some target.
Proof. exact create_branch_ok. Qed.
Print Assumptions C14_create_branch_in_range.

Theorem C14_create_branch_out_of_range : forall addr target flags,
  addr < 2 ^ 64 -> target < 2 ^ 64 ->
  ~ ((- 2 ^ 25 <= requested addr target flags < 2 ^ 25)%Z /\
     (requested addr target flags mod 4 = 0)%Z) ->
  create_branch addr target flags = 0.
Proof. exact create_branch_fail. Qed.
Print Assumptions C14_create_branch_out_of_range.

(** The decoder of the C code agrees with the ISA on every word. *)
Theorem C14_iform_decode : forall w,
  branch_iform_target w = Z.to_N (isa_I_disp w mod 2 ^ 64).
Proof. exact iform_target_isa. Qed.
Print Assumptions C14_iform_decode.

Example C14_ex_backward :
  create_branch 0x10000 0xFFF0 0x1 = 0x4BFFFFF1 /\
  requested 0x10000 0xFFF0 0x1 = (-16)%Z.
Proof. split; vm_compute; reflexivity. Qed.
Example C14_ex_wrap : (* relative branch across the top of the address space *)
  create_branch 0xFFFFFFFFFFFFFFFC 0x4 0 = 0x48000008.
Proof. vm_compute; reflexivity. Qed.
Example C14_ex_out : create_branch 0 0x2000000 0 = 0.
Proof. vm_compute; reflexivity. Qed.

(** C15 *)
Theorem C15_create_cond_branch_in_range : forall addr target flags,
  addr < 2 ^ 64 -> target < 2 ^ 64 ->
  (- 2 ^ 15 <= requested addr target flags < 2 ^ 15)%Z ->
  (requested addr target flags mod 4 = 0)%Z ->
  let w := create_cond_branch addr target flags in
  w < 2 ^ 32 /\ isa_opcd w = 16 /\ isa_BO w = isa_BO flags /\ isa_BI w = isa_BI flags /\
  isa_AA w = isa_AA flags /\ isa_LK w = isa_LK flags /\
  isa_B_disp w = requested addr target flags /\
  isa_branch_target w addr = Some target.
Proof. exact create_cond_branch_ok. Qed.
Print Assumptions C15_create_cond_branch_in_range.

Theorem C15_create_cond_branch_out_of_range : forall addr target flags,
  addr < 2 ^ 64 -> target < 2 ^ 64 ->
  ~ ((- 2 ^ 15 <= requested addr target flags < 2 ^ 15)%Z /\
     (requested addr target flags mod 4 = 0)%Z) ->
  create_cond_branch addr target flags = 0.
Proof. exact create_cond_branch_fail. Qed.
Print Assumptions C15_create_cond_branch_out_of_range.

Theorem C15_bform_decode : forall w,
  branch_bform_target w = Z.to_N (isa_B_disp w mod 2 ^ 64).
Proof. exact bform_target_isa. Qed.
Print Assumptions C15_bform_decode.

Example C15_ex : (* beq (BO=12,BI=2) backwards by 0x8000 *)
  create_cond_branch 0x10000 0x8000 0x41820000 = 0x41828000.
Proof. vm_compute. reflexivity. Qed.

(** C16 *)
Theorem C16_conditional_iff : forall w, w < 2 ^ 32 ->
  (is_conditional_branch w = true <-> isa_bo_branch w /\ ~ isa_BO_always w).
Proof. exact cond_spec. Qed.
Print Assumptions C16_conditional_iff.

Theorem C16_unconditional_iff : forall w, w < 2 ^ 32 ->
  (is_unconditional_branch w = true <->
   (isa_bo_branch w /\ isa_BO_always w) \/ isa_always_branch w).
Proof. exact uncond_spec. Qed.
Print Assumptions C16_unconditional_iff.

Theorem C16_disjoint : forall w, w < 2 ^ 32 ->
  ~ (is_conditional_branch w = true /\ is_unconditional_branch w = true).
Proof.
  intros w H [A B]. pose proof (cond_uncond_disjoint w H) as D.
  rewrite A, B in D. discriminate.
Qed.
Print Assumptions C16_disjoint.

Theorem C16_branch_iff : forall w, w < 2 ^ 32 ->
  (is_branch w = true <-> isa_bo_branch w \/ isa_always_branch w).
Proof. exact is_branch_spec. Qed.
Print Assumptions C16_branch_iff.

Example C16_ex_cond : is_conditional_branch 0x4182FFF8 = true /\ (* beq *)
  is_unconditional_branch 0x4E800020 = true /\ (* blr *)
  is_branch 0x4C000064 = true /\ (* rfi *)
  is_branch 0x7C0803A6 = false. (* mtlr *)
Proof. repeat split; vm_compute; reflexivity. Qed.

(** C17 *)
Theorem C17_retarget_iform : forall w iaddr t,
  w < 2 ^ 32 -> iaddr < 2 ^ 64 -> t < 2 ^ 64 -> isa_opcd w = 18 ->
  set_branch_target w iaddr t <> 0 ->
  let w' := set_branch_target w iaddr t in
  w' < 2 ^ 32 /\ isa_branch_target w' iaddr = Some t /\
  isa_opcd w' = isa_opcd w /\ isa_AA w' = isa_AA w /\ isa_LK w' = isa_LK w.
Proof. exact set_target_iform. Qed.
Print Assumptions C17_retarget_iform.

Theorem C17_retarget_bform : forall w iaddr t,
  w < 2 ^ 32 -> iaddr < 2 ^ 64 -> t < 2 ^ 64 -> isa_opcd w = 16 ->
  set_branch_target w iaddr t <> 0 ->
  let w' := set_branch_target w iaddr t in
  w' < 2 ^ 32 /\ isa_branch_target w' iaddr = Some t /\
  isa_opcd w' = isa_opcd w /\ isa_BO w' = isa_BO w /\ isa_BI w' = isa_BI w /\
  isa_AA w' = isa_AA w /\ isa_LK w' = isa_LK w.
Proof. exact set_target_bform. Qed.
Print Assumptions C17_retarget_bform.

Theorem C17_retarget_other : forall w iaddr t,
  isa_opcd w <> 18 -> isa_opcd w <> 16 -> set_branch_target w iaddr t = w.
Proof. exact set_target_other. Qed.
Print Assumptions C17_retarget_other.

(** Retargeting succeeds exactly when the displacement is representable. *)
Theorem C17_retarget_succeeds_iff : forall w iaddr t,
  w < 2 ^ 32 -> iaddr < 2 ^ 64 -> t < 2 ^ 64 ->
  isa_opcd w = 18 \/ isa_opcd w = 16 ->
  let lim := (if (isa_opcd w =? 18)%N then 2 ^ 25 else 2 ^ 15)%Z in
  set_branch_target w iaddr t <> 0 <->
  (- lim <= requested iaddr t w < lim)%Z /\ (requested iaddr t w mod 4 = 0)%Z.
Proof. exact set_target_succeeds_iff. Qed.
Print Assumptions C17_retarget_succeeds_iff.

(** The target helper is right for relative branches at word-aligned
    addresses (bit 30, IBM numbering of the low word, clear). *)
Theorem C17_branch_target_relative : forall w pc, pc < 2 ^ 64 ->
  isa_AA w = 0 -> isa_AA pc = 0 -> isa_opcd w = 18 \/ isa_opcd w = 16 ->
  isa_branch_target w pc = Some (branch_target w pc).
Proof. exact branch_target_relative. Qed.
Print Assumptions C17_branch_target_relative.

(** ... and wrong for every absolute branch at a non-zero such address. *)
Theorem C17_branch_target_absolute_refuted : forall w pc, 0 < pc < 2 ^ 64 ->
  isa_AA w = 1 -> isa_AA pc = 0 -> isa_opcd w = 18 \/ isa_opcd w = 16 ->
  isa_branch_target w pc <> Some (branch_target w pc).
Proof. exact branch_target_absolute_wrong. Qed.
Print Assumptions C17_branch_target_absolute_refuted.

Example C17_ex_abs : (* ba 0x100 at 0x1000 *)
  isa_branch_target 0x48000102 0x1000 = Some 0x100 /\
  branch_target 0x48000102 0x1000 = 0x1100.
Proof. split; vm_compute; reflexivity. Qed.
Example C17_ex_retarget : set_branch_target 0x4182FFF9 0x1000 0x1040 = 0x41820041 /\
  set_branch_target 0x48000001 0x1000 0x0 = 0x4BFFF001.
Proof. split; vm_compute; reflexivity. Qed.
