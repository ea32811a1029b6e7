(** C29 and C31: bit fields and instruction words of hardware traces. *)
Require Import NArith ZArith List Bool.
Require Import Verif.Word Verif.HtmBits_Model Verif.HtmBits_Spec Verif.HtmBits_Proofs.
Import ListNotations.
Local Open Scope N_scope.

(** ** C29 *)
(** Every outcome of the two extraction functions. *)
Theorem C29_fields : forall w v s e, w = 32 \/ w = 64 ->
  match bits_w w v s e with
  | FOk r => (0 <= s <= e)%Z /\ (e < Z.of_N w)%Z /\ (0 < s \/ e < Z.of_N w - 1)%Z
             /\ r = field w v (Z.to_N s) (Z.to_N e)
  | FErr FShift => s = 0%Z /\ e = (Z.of_N w - 1)%Z
  | FErr FAssert => ~ (0 <= s <= e /\ e < Z.of_N w)%Z
  end.
Proof. exact fields_outcomes. Qed.
Print Assumptions C29_fields.
(** The bits of a field are those of the word, numbered from the left. *)
Theorem C29_numbering : forall w v s e k, s <= e -> e < w -> k <= e - s ->
  ibm_bit (e - s + 1) (field w v s e) k = ibm_bit w v (s + k).
Proof. exact field_numbering. Qed.
Print Assumptions C29_numbering.
Theorem C29_bit : forall v b,
  htm_bit v b = if ((0 <=? b) && (b <=? 63))%Z then BitOk (ibm_bit 64 v (Z.to_N b)) else BitErr FAssert.
Proof. exact htm_bit_spec. Qed.
Print Assumptions C29_bit.
(** The calls with constant bounds, as the decoder makes them, succeed. *)
Theorem C29_constant_fields : forall v s e, s <= e -> e <= 63 -> 0 < s \/ e < 63 ->
  htm_bits v (Z.of_N s) (Z.of_N e) = FOk (bits v s e) /\ bits v s e < 2 ^ (e - s + 1)
  /\ (e - s < 32 -> htm_uint32 (bits v s e) = FOk (bits v s e)).
Proof. exact constant_fields. Qed.
Print Assumptions C29_constant_fields.
Example C29_ex :
  htm_bits 0x123456789abcdef0 4 15 = FOk 0x234 /\ htm_bits_32 0x89abcdef 28 31 = FOk 15
  /\ htm_bits 1 0 63 = FErr FShift /\ htm_bits 1 5 4 = FErr FAssert
  /\ htm_bit 0x8000000000000000 0 = BitOk true /\ htm_bit 1 62 = BitOk false.
Proof. repeat split. Qed.

(** ** C31 *)
(** POWER10: relative and absolute branches. *)
Theorem C31_p10_branch : forall x0 x13 x14 li lk iea, li < 2 ^ 24 ->
  (iea < 2 ^ 64 -> iea mod 4 = 0 -> ~ looks_isel (p10_i_rel x0 x13 x14 li lk iea) ->
   insn_word insn_demunge_p10 true (p10_i_rel x0 x13 x14 li lk iea) iea = Some (iform li false lk))
  /\ (~ looks_isel (p10_i_abs x0 x13 x14 li lk) ->
      insn_word insn_demunge_p10 true (p10_i_abs x0 x13 x14 li lk) iea = Some (iform li true lk)).
Proof. exact p10_i_word. Qed.
Print Assumptions C31_p10_branch.
(** Conditional branches; the absolute ones for the first four condition fields. *)
Theorem C31_p10_conditional : forall x0 x9 x14 bo bi bd lk iea, bo < 2 ^ 5 -> bi < 2 ^ 5 -> bd < 2 ^ 14 ->
  (iea < 2 ^ 64 -> iea mod 4 = 0 -> ~ looks_isel (p10_b_rel x0 x9 x14 bo bi bd lk iea) ->
   insn_word insn_demunge_p10 true (p10_b_rel x0 x9 x14 bo bi bd lk iea) iea = Some (bform bo bi bd false lk))
  /\ (bi < 2 ^ 4 -> ~ looks_isel (p10_b_abs x0 x9 x14 bo bi bd lk) ->
      insn_word insn_demunge_p10 true (p10_b_abs x0 x9 x14 bo bi bd lk) iea = Some (bform bo bi bd true lk)).
Proof. exact p10_b_word. Qed.
Print Assumptions C31_p10_conditional.
(** Branches to a register. *)
Theorem C31_p10_register : forall x0 x23 x4 x9 x14 x19 x23_31 type bo bi bh lk tar iea,
  x23 < 2 ^ 2 -> x19 < 2 ^ 1 -> x23_31 < 2 ^ 9 -> bo < 2 ^ 5 -> bi < 2 ^ 5 -> bh < 2 ^ 2 ->
  type = 2 \/ type = 3 ->
  let v := p10_xl x0 x23 x4 x9 x14 x19 x23_31 type bo bi bh lk tar in
  (type = 3 -> ~ In (field 32 v 0 5) [17; 19; 31]) -> ~ looks_isel v ->
  insn_word insn_demunge_p10 true v iea = Some (xlform (xl_op type tar) (kept_bo bo) bi bh lk).
Proof. exact p10_xl_word. Qed.
Print Assumptions C31_p10_register.
(** System instructions, marked with type 3 in the otherwise clear bits 11 to 14. *)
Theorem C31_p10_system : forall hi lo j iea, hi < 2 ^ 11 -> lo < 2 ^ 17 -> j < 2 ^ 2 ->
  let w := hi * 2 ^ 21 + lo in
  let v := w + (3 * 4 + j) * 2 ^ 17 in
  system_word w -> ~ looks_isel v -> insn_word insn_demunge_p10 true v iea = Some w.
Proof. exact p10_system_word. Qed.
Print Assumptions C31_p10_system.

(** POWER8 and POWER9. *)
Theorem C31_p8_branch : forall x0 x31 li lk iea, li < 2 ^ 24 ->
  (iea < 2 ^ 64 -> iea mod 4 = 0 -> ~ looks_isel (p8_i_rel x0 x31 li lk iea) ->
   insn_word insn_demunge true (p8_i_rel x0 x31 li lk iea) iea = Some (iform li false lk))
  /\ (~ looks_isel (p8_i x0 lk 2 li x31) ->
      insn_word insn_demunge true (p8_i x0 lk 2 li x31) iea = Some (iform li true lk)).
Proof. exact p8_i_word. Qed.
Print Assumptions C31_p8_branch.
Theorem C31_p8_conditional : forall x0 x30 x31 type bo bi bd lk iea,
  p8_b_type type x30 -> bo < 2 ^ 5 -> bi < 2 ^ 5 -> bd < 2 ^ 14 ->
  (iea < 2 ^ 64 -> iea mod 4 = 0 -> ~ looks_isel (p8_b_rel x0 x30 x31 type bo bi bd lk iea) ->
   insn_word insn_demunge true (p8_b_rel x0 x30 x31 type bo bi bd lk iea) iea = Some (bform bo bi bd false lk))
  /\ (~ looks_isel (p8_b_abs x0 x30 x31 type bo bi bd lk) ->
      insn_word insn_demunge true (p8_b_abs x0 x30 x31 type bo bi bd lk) iea = Some (bform bo bi bd true lk)).
Proof. exact p8_b_word. Qed.
Print Assumptions C31_p8_conditional.
Theorem C31_p8_register : forall x0 type m x6 x17 tar bo bi bh x21 lk iea,
  type = 2 \/ type = 3 -> m < 2 ^ 2 -> x6 < 2 ^ 1 -> bo < 2 ^ 5 -> bi < 2 ^ 5 -> bh < 2 ^ 2 -> x21 < 2 ^ 11 ->
  let v := p8_xl x0 type m x6 x17 tar bo bi bh x21 lk in
  ~ looks_isel v -> insn_word insn_demunge true v iea = Some (xlform (xl_op type tar) bo bi bh lk).
Proof. exact p8_xl_word. Qed.
Print Assumptions C31_p8_register.
(** Words of other instructions are kept, but for reserved bits of bclr, bcctr
    and bctar. *)
Theorem C31_other : forall demunge w iea,
  insn_word demunge false w iea
  = Some (if (field 32 w 0 5 =? 19) && (field 32 w 26 30 =? 16) then N.ldiff w 0xe000 else w).
Proof. exact plain_word. Qed.
Print Assumptions C31_other.

(** b .+0x2000000-4 across a region boundary, bne backwards, blr, sc *)
Example C31_ex :
  insn_word insn_demunge_p10 true (p10_i_rel false true false 0x7fffff true 0x13fffff0) 0x13fffff0
    = Some 0x49fffffd
  /\ insn_word insn_demunge_p10 true (p10_b_rel true false true 4 2 0x3ffc false 0x10000) 0x10000
    = Some 0x4082fff0
  /\ insn_word insn_demunge_p10 true (p10_xl false 1 false true false 1 5 2 20 0 0 false false) 0 = Some 0x4e800020
  /\ insn_word insn_demunge_p10 true (0x44000002 + 15 * 2 ^ 17) 0 = Some 0x44000002
  /\ insn_word insn_demunge true (p8_i_rel true false 0x7fffff true 0x13fffff0) 0x13fffff0 = Some 0x49fffffd
  /\ insn_word insn_demunge true (p8_b_rel false false true 0 4 2 0x3ffc false 0x10000) 0x10000 = Some 0x4082fff0
  /\ insn_word insn_demunge true (p8_xl true 3 2 1 true true 20 0 0 77 true) 0 = Some 0x4e800461.
Proof. repeat split. Qed.

(** A recoded call can look like isel; it is then not expanded. *)
Theorem C31_isel_refuted : exists li iea, li < 2 ^ 24 /\ iea < 2 ^ 64 /\ iea mod 4 = 0 /\
  let v := p10_i_rel false false false li true iea in
  insn_word insn_demunge_p10 true v iea = Some v /\ v <> iform li false true.
Proof. exists 0xbfffde, 0x8000100. vm_compute. repeat split; discriminate. Qed.
Print Assumptions C31_isel_refuted.
(** An absolute conditional branch on one of the other condition fields: the
    top bit of BI ends up in BO. *)
Theorem C31_p10_absolute_condition_refuted :
  insn_word insn_demunge_p10 true (p10_b_abs false false false 12 18 16 false) 0
    = Some (bform 13 2 16 true false)
  /\ bform 13 2 16 true false <> bform 12 18 16 true false.
Proof. split; [reflexivity|discriminate]. Qed.
Print Assumptions C31_p10_absolute_condition_refuted.
(** bctrl with clear filler bits has the primary opcode of sc and is left
    alone; with bit 4 set that of XL-form instructions, which gives 0. *)
Theorem C31_p10_bctrl_refuted :
  let v := p10_xl false 0 false false false 0 0 3 20 0 0 true false in
  let v' := p10_xl false 0 true false false 0 0 3 20 0 0 true false in
  xlform 528 20 0 0 true = 0x4e800421
  /\ insn_word insn_demunge_p10 true v 0 = Some 0x45000000
  /\ insn_word insn_demunge_p10 true v' 0 = Some 0.
Proof. repeat split. Qed.
Print Assumptions C31_p10_bctrl_refuted.
