(** Storage-access instructions of the Power ISA, version 3.0B. *)
Require Import NArith ZArith List Bool String.
Require Import Verif.Storage_Model.
Import ListNotations.
Local Open Scope N_scope.

(** Bits [from..from+len-1] of a word, bit 0 being the most significant. *)
Definition bits (w from len : N) : N := w / 2 ^ (32 - from - len) mod 2 ^ len.
(** A field of [len] bits as a two's complement number *)
Definition exts (v len : N) : Z :=
  if v <? 2 ^ (len - 1) then Z.of_N v else (Z.of_N v - 2 ^ Z.of_N len)%Z.

Inductive ext := NoExt | Xo10 (v : N) | Xo2 (v : N) | Xo3 (v : N).
Inductive form := FX | FXaligned (n : N) | FD | FDS | FDQ | FLength.
Inductive bytes_of := Bytes (n : N) | Multiple | InRB | Unsupported.
Record isa := mk_isa { i_name : string; i_op : N; i_ext : ext; i_form : form; i_bytes : bytes_of }.

Definition x (xo : N) (name : string) (n : N) := mk_isa name 31 (Xo10 xo) FX (Bytes n).
Definition xa (xo : N) (name : string) (n : N) := mk_isa name 31 (Xo10 xo) (FXaligned n) (Bytes n).
Definition d (op : N) (name : string) (n : N) := mk_isa name op NoExt FD (Bytes n).
Definition ds (op xo : N) (name : string) (n : N) := mk_isa name op (Xo2 xo) FDS (Bytes n).

Local Open Scope string_scope.
(** Book I chapters 3, 4, 6 and 7, Book II chapter 4, Book III: loads, stores
    and cache instructions with an operand in storage. *)
Definition isa_table : list isa := [
  (* fixed point *)
  d 34 "lbz" 1; d 35 "lbzu" 1; x 87 "lbzx" 1; x 119 "lbzux" 1;
  d 40 "lhz" 2; d 41 "lhzu" 2; x 279 "lhzx" 2; x 311 "lhzux" 2;
  d 42 "lha" 2; d 43 "lhau" 2; x 343 "lhax" 2; x 375 "lhaux" 2;
  d 32 "lwz" 4; d 33 "lwzu" 4; x 23 "lwzx" 4; x 55 "lwzux" 4;
  ds 58 2 "lwa" 4; x 341 "lwax" 4; x 373 "lwaux" 4;
  ds 58 0 "ld" 8; ds 58 1 "ldu" 8; x 21 "ldx" 8; x 53 "ldux" 8; x 309 "ldmx" 8;
  d 38 "stb" 1; d 39 "stbu" 1; x 215 "stbx" 1; x 247 "stbux" 1;
  d 44 "sth" 2; d 45 "sthu" 2; x 407 "sthx" 2; x 439 "sthux" 2;
  d 36 "stw" 4; d 37 "stwu" 4; x 151 "stwx" 4; x 183 "stwux" 4;
  ds 62 0 "std" 8; ds 62 1 "stdu" 8; x 149 "stdx" 8; x 181 "stdux" 8;
  mk_isa "lq" 56 NoExt FDQ (Bytes 16); ds 62 2 "stq" 16;
  x 790 "lhbrx" 2; x 534 "lwbrx" 4; x 532 "ldbrx" 8;
  x 918 "sthbrx" 2; x 662 "stwbrx" 4; x 660 "stdbrx" 8;
  mk_isa "lmw" 46 NoExt FD Multiple; mk_isa "stmw" 47 NoExt FD Multiple;
  mk_isa "lswi" 31 (Xo10 597) FX Unsupported; mk_isa "lswx" 31 (Xo10 533) FX Unsupported;
  mk_isa "stswi" 31 (Xo10 725) FX Unsupported; mk_isa "stswx" 31 (Xo10 661) FX Unsupported;
  (* cache-inhibited *)
  x 853 "lbzcix" 1; x 821 "lhzcix" 2; x 789 "lwzcix" 4; x 885 "ldcix" 8;
  x 981 "stbcix" 1; x 949 "sthcix" 2; x 917 "stwcix" 4; x 1013 "stdcix" 8;
  (* atomic *)
  x 52 "lbarx" 1; x 116 "lharx" 2; x 20 "lwarx" 4; x 84 "ldarx" 8; x 276 "lqarx" 16;
  x 694 "stbcx." 1; x 726 "sthcx." 2; x 150 "stwcx." 4; x 214 "stdcx." 8; x 182 "stqcx." 16;
  mk_isa "lwat" 31 (Xo10 582) FX Unsupported; mk_isa "ldat" 31 (Xo10 614) FX Unsupported;
  mk_isa "stwat" 31 (Xo10 710) FX Unsupported; mk_isa "stdat" 31 (Xo10 742) FX Unsupported;
  (* floating point *)
  d 48 "lfs" 4; d 49 "lfsu" 4; x 535 "lfsx" 4; x 567 "lfsux" 4;
  d 50 "lfd" 8; d 51 "lfdu" 8; x 599 "lfdx" 8; x 631 "lfdux" 8;
  x 855 "lfiwax" 4; x 887 "lfiwzx" 4;
  d 52 "stfs" 4; d 53 "stfsu" 4; x 663 "stfsx" 4; x 695 "stfsux" 4;
  d 54 "stfd" 8; d 55 "stfdu" 8; x 727 "stfdx" 8; x 759 "stfdux" 8; x 983 "stfiwx" 4;
  ds 57 0 "lfdp" 16; x 791 "lfdpx" 16; ds 61 0 "stfdp" 16; x 919 "stfdpx" 16;
  (* vector: the low bits of the address are ignored *)
  x 7 "lvebx" 1; xa 39 "lvehx" 2; xa 71 "lvewx" 4; xa 103 "lvx" 16; xa 359 "lvxl" 16;
  x 135 "stvebx" 1; xa 167 "stvehx" 2; xa 199 "stvewx" 4; xa 231 "stvx" 16; xa 487 "stvxl" 16;
  (* vector-scalar *)
  ds 57 2 "lxsd" 8; ds 57 3 "lxssp" 4; ds 61 2 "stxsd" 8; ds 61 3 "stxssp" 4;
  mk_isa "lxv" 61 (Xo3 1) FDQ (Bytes 16); mk_isa "stxv" 61 (Xo3 5) FDQ (Bytes 16);
  x 588 "lxsdx" 8; x 524 "lxsspx" 4; x 781 "lxsibzx" 1; x 813 "lxsihzx" 2; x 12 "lxsiwzx" 4; x 76 "lxsiwax" 4;
  x 716 "stxsdx" 8; x 652 "stxsspx" 4; x 909 "stxsibx" 1; x 941 "stxsihx" 2; x 140 "stxsiwx" 4;
  x 268 "lxvx" 16; x 396 "stxvx" 16; x 332 "lxvdsx" 8; x 364 "lxvwsx" 4;
  x 876 "lxvb16x" 16; x 812 "lxvh8x" 16; x 780 "lxvw4x" 16; x 844 "lxvd2x" 16;
  x 1004 "stxvb16x" 16; x 940 "stxvh8x" 16; x 908 "stxvw4x" 16; x 972 "stxvd2x" 16;
  mk_isa "lxvl" 31 (Xo10 269) FLength InRB; mk_isa "lxvll" 31 (Xo10 301) FLength InRB;
  mk_isa "stxvl" 31 (Xo10 397) FLength InRB; mk_isa "stxvll" 31 (Xo10 429) FLength InRB;
  (* cache blocks of 128 bytes *)
  xa 22 "icbt" 128; xa 982 "icbi" 128; xa 278 "dcbt" 128; xa 246 "dcbtst" 128;
  xa 54 "dcbst" 128; xa 86 "dcbf" 128; xa 1014 "dcbz" 128;
  x 774 "copy" 128; x 902 "paste." 128 ].
Local Close Scope string_scope.

Definition matches (w : N) (i : isa) : bool :=
  (bits w 0 6 =? i_op i) &&
  match i_ext i with
  | NoExt => true
  | Xo10 v => bits w 21 10 =? v
  | Xo2 v => bits w 30 2 =? v
  | Xo3 v => bits w 29 3 =? v
  end.
(** The instruction of a word *)
Definition decode (w : N) : option isa := find (matches w) isa_table.

Section EA.
  Variable w : N.
  Variable gpr : N -> N.
  Definition ra0 : Z := if bits w 11 5 =? 0 then 0%Z else Z.of_N (gpr (bits w 11 5)).
  Definition word64 (z : Z) : N := Z.to_N (z mod 2 ^ 64).
  Definition effective_address (f : form) : N :=
    match f with
    | FX => word64 (ra0 + Z.of_N (gpr (bits w 16 5)))
    | FXaligned n => word64 (ra0 + Z.of_N (gpr (bits w 16 5))) / n * n
    | FD => word64 (ra0 + exts (bits w 16 16) 16)
    | FDS => word64 (ra0 + 4 * exts (bits w 16 14) 14)
    | FDQ => word64 (ra0 + 16 * exts (bits w 16 12) 12)
    | FLength => word64 ra0
    end.
  Definition bytes_accessed (b : bytes_of) : option N :=
    match b with
    | Bytes n => Some n
    | Multiple => Some (4 * (32 - bits w 6 5))
    | InRB => Some (N.min 16 (gpr (bits w 16 5) / 2 ^ 56))
    | Unsupported => None
    end.
  (** What the decoder has to answer *)
  Definition isa_answer : sres :=
    match decode w with
    | None => SNo
    | Some i =>
        match bytes_accessed (i_bytes i) with
        | None => SAbort
        | Some n => SYes (effective_address (i_form i)) n
        end
    end.
End EA.
