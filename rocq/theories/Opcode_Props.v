(** C66: the opcode table, and what the decoders make of its instructions. *)
Require Import NArith List Bool String Arith.
Require Import Verif.Word Verif.Opcode_Table Verif.Stats_Model Verif.Stats_Spec Verif.Opcode_Spec.
Require Import Verif.Branch_Model Verif.Step_Model Verif.Storage_Spec Verif.Reader_Model.
Require Import Verif.Opcode_Proofs Verif.Opcode_Proofs2 Verif.Opcode_Proofs3.
Import ListNotations.
Local Notation length := List.length.
Local Open Scope N_scope.

(** Every entry is a pattern of 32 bits that fixes the primary opcode, and the
    entries are in the order of primary opcodes, as the search needs. *)
Theorem C66_table : forall e, In e opcodes ->
  oc_mask e < 2 ^ 32 /\ N.land (oc_opcode e) (oc_mask e) = oc_opcode e /\ oc_mask e / 2 ^ 26 = 63.
Proof. exact table_wf. Qed.
Print Assumptions C66_table.
Theorem C66_sorted : forall i j a b, (i < j)%nat -> nth_error opcodes i = Some a -> nth_error opcodes j = Some b ->
  oc_opcode a / 2 ^ 26 <= oc_opcode b / 2 ^ 26.
Proof. exact table_sorted. Qed.
Print Assumptions C66_sorted.
Example C66_table_ex : length opcodes = 3408%nat /\ dialect = 0x11018502909
  /\ nth_error opcodes 0 = Some (mk_opcode "attn" 0x200 0xfc0007ff 0x20000800 0x840000000)
  /\ nth_error opcodes 3407 = Some (mk_opcode "fcfidu." 0xfc00079d 0xfc1f07ff 0x30000000 0x800000000).
Proof. vm_compute. repeat split; reflexivity. Qed.

(** The statistics with this table: the count of an entry is the number of
    instructions that it is the first to match, and an instruction without
    mnemonic is unknown. *)
Theorem C66_mix : forall insns, Forall (fun i => i < 2 ^ 32) insns ->
  exists x, mix_all ppc_opcodes dialect (mix_init ppc_opcodes) insns = Some x
  /\ (forall k, (k < length opcodes)%nat -> nth_error (x_count x) k =
        Some (N.of_nat (length (filter (fun w => match first_hit dialect (removelast ppc_opcodes) w with
                                                 | Some j => Nat.eqb k j | None => false end) insns)) mod 2 ^ 64))
  /\ x_unknown x = N.of_nat (length (filter (fun w => match mnemonic w with
                                                      | Some _ => false | None => true end) insns)) mod 2 ^ 64.
Proof. exact mix_real. Qed.
Print Assumptions C66_mix.
(** add, addi, li, ld, std, mulld, cmpwi, bl, blr, stdu, an illegal word *)
Example C66_mix_ex : List.map mnemonic
  [0x7c632214; 0x38840001; 0x38600000; 0xe8630008; 0xf8010010; 0x7c6419d2; 0x2c030000; 0x48000101; 0x4e800020;
   0xf821ff91; 0x00000000] =
  [Some "add"; Some "addi"; Some "li"; Some "ld"; Some "std"; Some "mulld"; Some "cmpwi"; Some "bl"; Some "blr";
   Some "stdu"; None]%string.
Proof. vm_compute. reflexivity. Qed.

(** branch.h takes a counted instruction for a branch exactly if its mnemonic
    is one, and for a conditional or unconditional one as the mnemonic says. *)
Theorem C66_branches : forall w n, w < 2 ^ 32 -> mnemonic w = Some n ->
  (Branch_Model.is_branch w = true <->
   In n (general_branches ++ conditional_branches ++ unconditional_branches ++ system_branches)).
Proof. exact branches_agree. Qed.
Print Assumptions C66_branches.
Theorem C66_conditions : forall w n, w < 2 ^ 32 -> mnemonic w = Some n ->
  (In n conditional_branches -> is_conditional_branch w = true)
  /\ (In n (unconditional_branches ++ system_branches) -> is_unconditional_branch w = true).
Proof. exact conditions_agree. Qed.
Print Assumptions C66_conditions.
(** beqlr, bctr, hrfid, isync; bclr with the condition as an operand *)
Example C66_branches_ex :
  List.map (fun w => (mnemonic w, is_conditional_branch w, is_unconditional_branch w))
    [0x4d820020; 0x4e800420; 0x4c000224; 0x4c00012c; 0x4e9f0020] =
  [(Some "beqlr", true, false); (Some "bctr", false, true); (Some "hrfid", false, true);
   (Some "isync", false, false); (Some "bclr-", false, true)]%string.
Proof. vm_compute. reflexivity. Qed.
(** Not so for the returns from event-based branches and to the ultravisor. *)
Theorem C66_returns_refuted : exists w n, In n other_returns /\ mnemonic w = Some n /\ Branch_Model.is_branch w = false.
Proof. exists 0x4c000124, "rfebb"%string. vm_compute. repeat split. left. reflexivity. Qed.
Print Assumptions C66_returns_refuted.

(** A branch to a register with reserved bits set has no mnemonic. *)
Theorem C66_register_branches : forall w n, w < 2 ^ 32 -> mnemonic w = Some n -> bits w 0 6 = 19 ->
  In (bits w 21 10) [16; 528; 560] -> bits w 16 3 = 0.
Proof. exact register_branches. Qed.
Print Assumptions C66_register_branches.
(** bclr with every condition operand and hint; bclr, bcctr and bctar with a reserved bit *)
Example C66_register_branches_ex :
  List.map mnemonic [0x4d831820; 0x4e80a020; 0x4e808420; 0x4c004460] =
  [Some "bclr"; None; None; None]%string.
Proof. vm_compute. reflexivity. Qed.

(** The single stepper knows the instructions with reservations, and the
    reader the invalidations of translations. *)
Theorem C66_reservations : forall w n, w < 2 ^ 32 -> mnemonic w = Some n ->
  (is_larx w = true <-> In n load_reserve) /\ (is_stcx w = true <-> In n store_conditional).
Proof. exact reserve_agree. Qed.
Print Assumptions C66_reservations.
Example C66_reservations_ex :
  List.map (fun w => (mnemonic w, is_larx w, is_stcx w)) [0x7c601828; 0x7c6018a9; 0x7ca0192d; 0x7ca0192c; 0x7c60182e] =
  [(Some "lwarx", true, false); (Some "ldarx", true, false); (Some "stwcx.", false, true); (None, false, false);
   (Some "lwzx", false, false)]%string.
Proof. vm_compute. reflexivity. Qed.
Theorem C66_tlbie : forall w n lpid g, w < 2 ^ 32 -> mnemonic w = Some n ->
  (n <> "tlbie"%string -> n <> "tlbiel"%string -> annotate_tlbie lpid w g = ROk zero_tlbie)
  /\ (forall t, n = "tlbie"%string \/ n = "tlbiel"%string -> annotate_tlbie lpid w g = ROk t ->
      t_tlbie t = true /\ t_local t = String.eqb n "tlbiel").
Proof. exact tlb_agree. Qed.
Print Assumptions C66_tlbie.
Example C66_tlbie_ex : List.map mnemonic [0x7c012264; 0x7c012224; 0x7c0004ac] =
  [Some "tlbie"; Some "tlbiel"; Some "hwsync"]%string.
Proof. vm_compute. reflexivity. Qed.

(** The instructions of C20 that access storage have that mnemonic. *)
Theorem C66_storage : forall w n, w < 2 ^ 32 -> mnemonic w = Some n ->
  match decode w with
  | Some i => n = i_name i \/ In (n, i_name i) storage_aliases
  | None => n = "lfdp"%string \/ ~ In n (List.map i_name isa_table ++ List.map fst storage_aliases)
  end.
Proof. exact storage_agree. Qed.
Print Assumptions C66_storage.
(** ld, lwzux, stxvd2x, dcbzl, lxv; addi *)
Example C66_storage_ex :
  List.map (fun w => (mnemonic w, option_map i_name (decode w)))
    [0xe8630008; 0x7c64286e; 0x7c002798; 0x7c2027ec; 0xf4010011; 0x38840001] =
  [(Some "ld", Some "ld"); (Some "lwzux", Some "lwzux"); (Some "stxvd2x", Some "stxvd2x"); (Some "dcbzl", Some "dcbz");
   (Some "lxv", Some "lxv"); (Some "addi", None)]%string.
Proof. vm_compute. reflexivity. Qed.
(** The mask of lfdp leaves out the extended opcode. *)
Theorem C66_lfdp_refuted : exists w, mnemonic w = Some "lfdp"%string /\ decode w = None.
Proof. exists 0xe4000001. vm_compute. split; reflexivity. Qed.
Print Assumptions C66_lfdp_refuted.

(** Operands are not looked at: where a mnemonic stands for an instruction
    with certain operands, all of that instruction's words are counted under
    it, and none under the instruction's own name. *)
Theorem C66_names : forall w n, w < 2 ^ 32 -> In n never_counted -> mnemonic w <> Some n.
Proof. exact never. Qed.
Print Assumptions C66_names.
(** or r3,r4,r5; nor r3,r4,r5; cror 0,1,2; mfspr r3,1 (XER) is right;
    mfspr r3,287 (PVR); beq; xxpermdi 1,2,3,1 *)
Example C66_names_ex : List.map mnemonic
  [0x7c832b78; 0x7c8328f8; 0x4c011382; 0x7c6102a6; 0x7c7f42a6; 0x41820010; 0xf0221950] =
  [Some "mr"; Some "not"; Some "crmove"; Some "mfxer"; Some "mfsprg"; Some "beq-"; Some "xxspltd"]%string.
Proof. vm_compute. reflexivity. Qed.

(** Entries that POWER9 no longer has are counted under. *)
Theorem C66_deprecated_refuted : exists w k e, first_hit dialect (removelast ppc_opcodes) w = Some k
  /\ nth_error opcodes k = Some e /\ N.land (oc_deprecated e) dialect <> 0.
Proof.
  exists 0x40000000, 1059%nat, (mk_opcode "bdnzf-" 0x40000000 0xffc00003 33 36540778496).
  vm_compute. repeat split; discriminate.
Qed.
Print Assumptions C66_deprecated_refuted.

(** The last entry is not searched. *)
Theorem C66_last_refuted : exists e w, In e opcodes /\ N.land (oc_flags e) dialect <> 0
  /\ N.land w (oc_mask e) = oc_opcode e /\ mnemonic w = None.
Proof.
  exists (mk_opcode "fcfidu." 0xfc00079d 0xfc1f07ff 0x30000000 0x800000000), 0xfc00079d.
  split; [|vm_compute; repeat split; discriminate].
  apply (nth_error_In opcodes 3407). vm_compute. reflexivity.
Qed.
Print Assumptions C66_last_refuted.

(** A mnemonic has not one line in the report: the two hints of a taken branch
    are counted apart under the same name. *)
Theorem C66_lines_refuted : exists n w1 w2 k1 k2, mnemonic w1 = Some n /\ mnemonic w2 = Some n
  /\ first_hit dialect (removelast ppc_opcodes) w1 = Some k1
  /\ first_hit dialect (removelast ppc_opcodes) w2 = Some k2 /\ k1 <> k2.
Proof.
  exists "beqlr+"%string, 0x4da20020, 0x4de20020, 1303%nat, 1323%nat.
  vm_compute. repeat split. discriminate.
Qed.
Print Assumptions C66_lines_refuted.

(** The instruction taken for a context switch, a read of EBBRR according to
    the comment, reads VRSAVE; the one taken for mftb, a read of the time
    base, is counted as a read of SPRG. *)
Theorem C66_patterns : forall w, w < 2 ^ 32 ->
  (N.land w 0xfe1fffff = 0x7c0042a6 -> mnemonic w = Some "mfvrsave"%string)
  /\ (N.land w 0xfc1fffff = 0x7c0c42a6 -> mnemonic w = Some "mfsprg"%string).
Proof. intros w Hw. exact (conj (vrsave w Hw) (timebase w Hw)). Qed.
Print Assumptions C66_patterns.
(** and with the upper registers it is not counted *)
Theorem C66_context_switch_refuted : exists w, mnemonic w = Some "mfvrsave"%string
  /\ N.land w 0xfe1fffff <> 0x7c0042a6.
Proof. exists 0x7fe042a6. vm_compute. split; [reflexivity|discriminate]. Qed.
Print Assumptions C66_context_switch_refuted.
