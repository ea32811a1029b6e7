(** Model of qtlib/branch.h.  Instruction words are [N] (uint32_t), addresses
    [N] (uint64_t / unsigned long, LP64). *)
Require Import NArith ZArith Bool.
Require Import Verif.Word.
Local Open Scope N_scope.

(* qtlib/branch.h:15-17 *)
Definition OPCODE (insn : N) : N := N.shiftr insn 26.
Definition SUB_OPCODE (insn : N) : N := N.land (N.shiftr insn 1) 0x3ff.
Definition BO (insn : N) : N := N.land (N.shiftr insn 21) 0x1f.

(* qtlib/branch.h:19 *)
Definition BRANCH_ABSOLUTE : N := 2.

(* qtlib/branch.h:24-27 *)
Definition branch_conditional_is_conditional (insn : N) : bool :=
  negb (N.land (BO insn) 0x14 =? 0x14).

(* qtlib/branch.h:29-50 *)
Definition is_conditional_branch (insn : N) : bool :=
  let opcode := OPCODE insn in
  if (opcode =? 16) && branch_conditional_is_conditional insn then true
  else if opcode =? 19 then
    let sub_opcode := SUB_OPCODE insn in
    if (sub_opcode =? 16) || (sub_opcode =? 528) || (sub_opcode =? 560)
    then branch_conditional_is_conditional insn
    else false
  else false.

(* qtlib/branch.h:52-84 *)
Definition is_unconditional_branch (insn : N) : bool :=
  let opcode := N.shiftr insn (32 - 6) in
  if (opcode =? 16) && negb (branch_conditional_is_conditional insn) then true
  else if (opcode =? 17) || (opcode =? 18) then true
  else if opcode =? 19 then
    let sub_opcode := SUB_OPCODE insn in
    if (sub_opcode =? 16) || (sub_opcode =? 528) || (sub_opcode =? 560)
    then negb (branch_conditional_is_conditional insn)
    else (sub_opcode =? 50) || (sub_opcode =? 18) || (sub_opcode =? 274)
         || (sub_opcode =? 82)
  else false.

(* qtlib/branch.h:86-92 *)
Definition is_branch (insn : N) : bool :=
  is_conditional_branch insn || is_unconditional_branch insn.

(* qtlib/branch.h:94-114; the C parameter is [long]: here the 64-bit pattern,
   compared through its signed reading. *)
Definition is_offset_in_branch_range (offset : N) : bool :=
  (Z.leb (-0x2000000) (s64 offset)) && (Z.leb (s64 offset) 0x1fffffc)
  && (N.land offset 0x3 =? 0).

(* qtlib/branch.h:122-124 (also 142-144): [long offset], wrapping. *)
Definition branch_offset (addr target flags : N) : N :=
  if N.land flags BRANCH_ABSOLUTE =? 0 then sub64 target addr else u64 target.

(* qtlib/branch.h:116-134 *)
Definition create_branch (addr target flags : N) : N :=
  let offset := branch_offset addr target flags in
  if is_offset_in_branch_range offset
  then N.lor (N.lor 0x48000000 (N.land flags 0x3)) (N.land offset 0x03FFFFFC)
  else 0.

(* qtlib/branch.h:136-154 *)
Definition create_cond_branch (addr target flags : N) : N :=
  let offset := branch_offset addr target flags in
  if (Z.ltb (s64 offset) (-0x8000)) || (Z.ltb 0x7FFF (s64 offset))
     || negb (N.land offset 0x3 =? 0)
  then 0
  else N.lor (N.lor 0x40000000 (N.land flags 0x3FF0003)) (N.land offset 0xFFFC).

(* qtlib/branch.h:156-169 *)
Definition branch_opcode (instr : N) : N := N.land (N.shiftr instr 26) 0x3F.
Definition instr_is_branch_iform (instr : N) : bool := branch_opcode instr =? 18.
Definition instr_is_branch_bform (instr : N) : bool := branch_opcode instr =? 16.

(* qtlib/branch.h:171-182; result is the unsigned long conversion. *)
Definition branch_iform_target (instr : N) : N :=
  let imm := N.land instr 0x3FFFFFC in
  if N.land imm 0x2000000 =? 0 then imm else sub64 imm 0x4000000.

(* qtlib/branch.h:184-195 *)
Definition branch_bform_target (instr : N) : N :=
  let imm := N.land instr 0xFFFC in
  if N.land imm 0x8000 =? 0 then imm else sub64 imm 0x10000.

(* qtlib/branch.h:197-205 *)
Definition has_branch_target (instr : N) : bool :=
  instr_is_branch_iform instr || instr_is_branch_bform instr.

(* qtlib/branch.h:207-212; the parameter is [unsigned int], so a 64-bit
   argument is truncated (irrelevant to bit 1). *)
Definition is_branch_absolute (instr : N) : bool :=
  negb (N.land (u32 instr) BRANCH_ABSOLUTE =? 0).

(* qtlib/branch.h:214-228; note line 222 tests [pc], not [instr]. *)
Definition branch_target (instr pc : N) : N :=
  if has_branch_target instr then
    let addr := if instr_is_branch_iform instr then branch_iform_target instr
                else branch_bform_target instr in
    if is_branch_absolute pc then addr else add64 addr pc
  else 0.

(* qtlib/branch.h:230-238 *)
Definition set_branch_target (insn iaddr btarget : N) : N :=
  if instr_is_branch_iform insn then create_branch iaddr btarget insn
  else if instr_is_branch_bform insn then create_cond_branch iaddr btarget insn
  else insn.
