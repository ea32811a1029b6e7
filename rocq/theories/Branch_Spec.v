(** What the Power ISA says about branch instruction words (independent of
    the model).  Fields use IBM bit numbering: bit 0 is the most significant
    bit of the 32-bit word. *)
Require Import NArith ZArith Bool List.
Import ListNotations.
Local Open Scope N_scope.

(** Field [i..j] of a 32-bit word. *)
Definition fld (w i j : N) : N := (w / 2 ^ (31 - j)) mod 2 ^ (j - i + 1).

(** Sign extension of a k-bit number. *)
Definition sext (k x : N) : Z :=
  if x <? 2 ^ (k - 1) then Z.of_N x else (Z.of_N x - 2 ^ Z.of_N k)%Z.

Definition isa_opcd (w : N) : N := fld w 0 5.
Definition isa_BO (w : N) : N := fld w 6 10.
Definition isa_BI (w : N) : N := fld w 11 15.
Definition isa_XO (w : N) : N := fld w 21 30.
Definition isa_AA (w : N) : N := fld w 30 30.
Definition isa_LK (w : N) : N := fld w 31 31.

(** Displacements: LI||0b00 and BD||0b00, sign extended. *)
Definition isa_I_disp (w : N) : Z := (4 * sext 24 (fld w 6 29))%Z.
Definition isa_B_disp (w : N) : Z := (4 * sext 14 (fld w 16 29))%Z.

(** Target of a branch at [cia] with displacement [d]: modulo 2^64. *)
Definition isa_target (w cia : N) (d : Z) : N :=
  Z.to_N ((if isa_AA w =? 1 then d else Z.of_N cia + d) mod 2 ^ 64).

(** Target of an I-form or B-form branch word. *)
Definition isa_branch_target (w cia : N) : option N :=
  if isa_opcd w =? 18 then Some (isa_target w cia (isa_I_disp w))
  else if isa_opcd w =? 16 then Some (isa_target w cia (isa_B_disp w))
  else None.

(** BO = 1z1zz: branch always. *)
Definition isa_BO_always (w : N) : Prop :=
  N.testbit (isa_BO w) 4 = true /\ N.testbit (isa_BO w) 2 = true.

(** The branch instructions with a BO field: bc, bclr, bcctr, bctar. *)
Definition isa_bo_branch (w : N) : Prop :=
  isa_opcd w = 16 \/ (isa_opcd w = 19 /\ In (isa_XO w) [16; 528; 560]).

(** Instructions that always transfer control: b, sc/scv, rfi, rfid, hrfid,
    rfscv. *)
Definition isa_always_branch (w : N) : Prop :=
  isa_opcd w = 18 \/ isa_opcd w = 17 \/
  (isa_opcd w = 19 /\ In (isa_XO w) [50; 18; 274; 82]).
