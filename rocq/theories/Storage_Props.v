Require Import NArith ZArith List String.
Require Import Verif.Storage_Model Verif.Storage_Spec Verif.Storage_Proofs.
Import ListNotations.
Local Open Scope N_scope.

(** C42: for every word and register file the decoder answers as the table. *)
Theorem C42_isa : forall w gprs,
  (forall r, gprs r < 2 ^ 64) -> is_storage_insn w gprs = isa_answer w gprs.
Proof. exact storage_isa. Qed.
Print Assumptions C42_isa.

(** The table is a decoding: a word is at most one instruction. *)
Theorem C42_table : forall w i,
  decode w = Some i <-> In i isa_table /\ matches w i = true.
Proof. exact decode_unique. Qed.
Print Assumptions C42_table.

(** Whether it is an access does not depend on the registers: the answer is
    the same when the register file is not given. *)
Theorem C42_word_only : forall w gprs gprs',
  (forall r, gprs r < 2 ^ 64) -> (forall r, gprs' r < 2 ^ 64) ->
  same_kind (is_storage_insn w gprs) (is_storage_insn w gprs').
Proof. exact kind_word. Qed.
Print Assumptions C42_word_only.

(** Version 3.1 accesses are not seen: paired vector accesses (primary opcode
    6) and every prefixed access (primary opcode 1). *)
Theorem C42_v31_refuted : forall w gprs,
  bits w 0 6 = 1 \/ bits w 0 6 = 6 -> is_storage_insn w gprs = SNo.
Proof. exact v31_no. Qed.
Print Assumptions C42_v31_refuted.

Definition regs (r : N) : N :=
  nth (N.to_nat r) [7; 4096; 8193; 18446744073709551608; 3 * 2 ^ 56; 255 * 2 ^ 56] 0.
(* lwz r3,-4(r1) *)
Example C42_ex_d : is_storage_insn 0x8061FFFC regs = SYes 4092 4.
Proof. vm_compute. reflexivity. Qed.
(* ld r3,-8(0): r0 is not read *)
Example C42_ex_r0 : is_storage_insn 0xE860FFF8 regs = SYes 18446744073709551608 8.
Proof. vm_compute. reflexivity. Qed.
(* lvx v0,r1,r2: aligned *)
Example C42_ex_lvx : is_storage_insn 0x7C0110CE regs = SYes 12288 16.
Proof. vm_compute. reflexivity. Qed.
(* ldx r5,r2,r3: the sum wraps *)
Example C42_ex_wrap : is_storage_insn 0x7CA2182A regs = SYes 8185 8.
Proof. vm_compute. reflexivity. Qed.
(* lxvl vs0,r1,r4 and r5: three bytes, capped at sixteen *)
Example C42_ex_lxvl :
  is_storage_insn 0x7C01221A regs = SYes 4096 3 /\ is_storage_insn 0x7C012A1A regs = SYes 4096 16.
Proof. vm_compute. split; reflexivity. Qed.
(* lmw r29,16(r1) *)
Example C42_ex_lmw : is_storage_insn 0xBBA10010 regs = SYes 4112 12.
Proof. vm_compute. reflexivity. Qed.
(* stxv vs0,-16(r2); stxsd v0,-4(r2): same primary opcode, different forms *)
Example C42_ex_61 :
  is_storage_insn 0xF402FFF5 regs = SYes 8177 16 /\ is_storage_insn 0xF402FFFE regs = SYes 8189 8.
Proof. vm_compute. split; reflexivity. Qed.
(* lswi aborts; add is no access *)
Example C42_ex_other :
  is_storage_insn 0x7C6104AA regs = SAbort /\ is_storage_insn 0x7C632214 regs = SNo.
Proof. vm_compute. split; reflexivity. Qed.
