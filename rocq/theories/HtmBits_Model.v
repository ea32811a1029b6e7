(** Model of the bit-field helpers and of the instruction recoding of
    htm/htm.c. *)
Require Import NArith ZArith List Bool.
Require Import Verif.Word.
Import ListNotations.
Local Open Scope N_scope.

Inductive bitserr :=
| FAssert     (** assert() fails *)
| FShift.     (** shift by the width of the type: undefined *)
Inductive fres := FOk (v : N) | FErr (e : bitserr).

(** ~(MAX << nbits) << (w - 1 - end), in w bits *)
Definition mask_of (w : N) (nbits sh : N) : N :=
  (N.lxor ((2 ^ w - 1) * 2 ^ nbits mod 2 ^ w) (2 ^ w - 1)) * 2 ^ sh mod 2 ^ w.
Definition extract (w value nbits sh : N) : N :=
  N.shiftr (N.land value (mask_of w nbits sh)) sh.

(* htm/htm.c:57-70 and 73-86: the same code for w = 32 and w = 64; the bounds
   are ints *)
Definition bits_w (w : N) (value : N) (start end_ : Z) : fres :=
  let last := Z.of_N (w - 1) in
  if negb ((0 <=? start) && (start <=? last) && (0 <=? end_) && (end_ <=? last)
           && (start <=? end_))%Z then FErr FAssert
  else
    let nbits := Z.to_N (end_ - start + 1) in
    if nbits =? w then FErr FShift
    else FOk (extract w value nbits (Z.to_N (last - end_))).
Definition htm_bits_32 := bits_w 32.
Definition htm_bits := bits_w 64.
(* htm/htm.c:49-54 *)
Definition htm_uint32 (v : N) : fres := if v <? w32 then FOk v else FErr FAssert.
(* htm/htm.c:88-95 *)
Inductive bres := BitOk (b : bool) | BitErr (e : bitserr).
Definition htm_bit (value : N) (bit : Z) : bres :=
  match htm_bits value bit bit with
  | FErr e => BitErr e
  | FOk v => match htm_uint32 v with FErr e => BitErr e | FOk v => BitOk (v =? 1) end
  end.

(** The decoder calls these with constant bounds, narrower than the word, and
    htm_uint32 on fields of at most 32 bits (C29_constant_fields). *)
Definition bits (v s e : N) : N := extract 64 v (e - s + 1) (63 - e).
Definition bits32 (v s e : N) : N := extract 32 v (e - s + 1) (31 - e).
Definition bit (v b : N) : bool := bits v b b =? 1.

(** ** POWER10 *)
(* htm/htm.c:796-799 *)
Definition MAJOR_OPCODE (i : N) : N := N.land (N.shiftr i 26) 0x3f.
Definition MINOR_OPCODE (i : N) : N := N.land (N.shiftr i 1) 0x1f.

Definition lors (l : list N) : N := fold_left N.lor l 0.
(** A region base: ((iea >> sh) + k) << sh, in 64 bits, for the msb modes. *)
Definition region (mode sh iea : N) : N :=
  let msb := N.shiftr iea sh in
  match mode with
  | 0 => msb * 2 ^ sh mod w64
  | 1 => add64 msb 1 * 2 ^ sh mod w64
  | 3 => sub64 msb 1 * 2 ^ sh mod w64
  | _ => 0
  end.
(** BO << PPC32_BIT(10), BI << PPC32_BIT(15), BH << PPC32_BIT(20), in 32 bits *)
Definition bo_at (bo : N) : N := u32 (bo * 2 ^ 21).
Definition bi_at (bi : N) : N := u32 (bi * 2 ^ 16).
Definition bh_at (bh : N) : N := u32 (bh * 2 ^ 11).

(* htm/htm.c:805-943 *)
Definition insn_recode_p10 (opcode iea : N) : N :=
  let mode := bits32 opcode 2 3 in
  let type := bits32 opcode 11 12 in
  let lk := bits32 opcode 1 1 in
  let bo4 := bits32 opcode 5 8 * 2 in
  let bi := N.lor (bits32 opcode 10 10 * 16) (bits32 opcode 15 18) in
  let bh := bits32 opcode 21 22 in
  let hinted := if N.land bo4 2 =? 0 then bo4 else N.lor bo4 (bits32 opcode 13 13) in
  match type with
  | 0 =>
      let low := u32 (N.lor (u32 (bits32 opcode 4 10 * 2 ^ 17)) (bits32 opcode 15 31) * 4) in
      if mode =? 2 then u32 (lors [0x48000000; low; 2; lk])
      else
        let target := N.lor (region mode 26 iea) low in
        let disp := sub64 target iea in
        u32 (lors [0x48000000; N.land disp 0x03fffffc; lk])
  | 1 =>
      let low := u32 (N.lor (u32 (bits32 opcode 4 4 * 2 ^ 13)) (bits32 opcode 19 31) * 4) in
      let bo := N.lor bo4 (bits32 opcode 13 13) in
      if mode =? 2 then
        let bi5 := N.lor (bits32 opcode 10 10 * 32) (bits32 opcode 15 18) in
        u32 (lors [0x40000000; 2; low; bo_at bo; bi_at bi5; lk])
      else
        let target := N.lor (region mode 16 iea) low in
        let disp := sub64 target iea in
        u32 (lors [0x40000000; N.land disp 0xfffc; bo_at bo; bi_at bi; lk])
  | 2 => lors [0x4c000020; bo_at hinted; bi_at bi; bh_at bh; lk]
  | _ =>
      let clear := N.ldiff opcode 0x1e0000 in
      let major := MAJOR_OPCODE opcode in
      if major =? 17 then clear
      else if major =? 19 then
        if existsb (N.eqb (MINOR_OPCODE opcode)) [82; 18; 274; 370; 146] then clear else 0
      else if major =? 31 then clear
      else
        let r := lors [0x4c000420; bo_at hinted; bi_at bi; bh_at bh; lk] in
        if N.land opcode (2 ^ 11) =? 0 then r else N.lor r 0x40
  end.

(** ** Earlier processors *)
(* htm/htm.c:945-1060, called with predecode 0x100 only; the branch type is
   two bits wide, the default case cannot occur *)
Definition insn_recode (opcode iea : N) : N :=
  let type0 := N.land (N.shiftr opcode 28) 3 in
  let mode := N.land (N.shiftr opcode 26) 3 in
  let type := if (type0 =? 0) && (N.land opcode 2 =? 0) then 1 else type0 in
  let op1 := if type =? 0 then opcode
             else lors [N.land opcode 0xfc007fff; N.land (u32 (opcode * 2)) 0x03ff0000;
                        N.land (N.shiftr opcode 10) 0x8000] in
  let lk := N.shiftr (N.land op1 0x40000000) 30 in
  let op := N.lor (N.land op1 0xbffffffe) lk in
  match type with
  | 0 =>
      if mode =? 2 then lors [0x48000000; N.land op 0x03ffffff; 2]
      else
        let target := N.lor (N.land op 0x03fffffc) (region mode 26 iea) in
        let disp := sub64 target iea in
        lors [0x48000000; N.land disp 0x03fffffc; N.land op 1]
  | 1 =>
      if mode =? 2 then N.lor 0x40000002 (N.land op 0x03ffffff)
      else
        let target := N.lor (N.land op 0xfffc) (region mode 16 iea) in
        let disp := sub64 target iea in
        lors [0x40000000; N.land disp 0xfffc; N.land op 0x03ff0001]
  | 2 => N.lor 0x4c000020 (N.land op 0x03fff801)
  | _ =>
      let r := N.lor 0x4c000420 (N.land op 0x03fff801) in
      if N.land op 0x2000 =? 0 then r else N.lor r 0x40
  end.

(* htm/htm.c:1062-1086: [None] is the result -1 *)
Definition insn_demunge (opcode iea : N) : option N :=
  let r := insn_recode opcode iea in if r =? 0xffffffff then None else Some r.
Definition insn_demunge_p10 (opcode iea : N) : option N :=
  let r := insn_recode_p10 opcode iea in if r =? 0xffffffff then None else Some r.

(* htm/htm.c:1088-1090 *)
Definition IS_ISEL (i : N) : bool := (MAJOR_OPCODE i =? 31) && (MINOR_OPCODE i =? 15).
Definition IS_BLR (i : N) : bool := (MAJOR_OPCODE i =? 19) && (MINOR_OPCODE i =? 16).
Definition IS_BCTR (i : N) : bool := (MAJOR_OPCODE i =? 19) && (MINOR_OPCODE i =? 528).
(* htm/htm.c:1319-1330 and 1804-1815: the instruction word of a record *)
Definition insn_word (demunge : N -> N -> option N) (branch : bool) (opcode iea : N) : option N :=
  match (if branch && negb (IS_ISEL opcode) then demunge opcode iea else Some opcode) with
  | None => None
  | Some i => Some (if IS_BLR i || IS_BCTR i then N.ldiff i 0xe000 else i)
  end.
(* htm/htm.c:1100-1117 and its uses: one of the listed types *)
Definition is_system_branch (i : N) : bool :=
  (i =? 0x4c0000a4) || (i =? 0x4c000024) || (i =? 0x4c000224) || (i =? 0x44000002)
  || (i =? 0x44000022) || (N.land i 0xFFFFF001 =? 0x44000001).
(* htm/htm.c:1120-1130; assert(1) does nothing *)
Definition pagesize_to_shift (size : N) : N :=
  if size =? 4096 then 12 else if size =? 65536 then 16 else if size =? 16777216 then 24 else 0.
