(** Bit numbering and the instruction words of hardware traces. *)
Require Import NArith ZArith List Bool.
Import ListNotations.
Local Open Scope N_scope.

(** IBM numbering of a word of [w] bits: bit 0 is the most significant. *)
Definition ibm_bit (w v k : N) : bool := N.testbit v (w - 1 - k).
(** The number made of bits [s] to [e]. *)
Definition field (w v s e : N) : N := v / 2 ^ (w - 1 - e) mod 2 ^ (e - s + 1).

(** ** Branch instructions *)
Definition b1 (b : bool) : N := if b then 1 else 0.
Definition iform (li : N) (aa lk : bool) : N := 18 * 2 ^ 26 + li * 4 + b1 aa * 2 + b1 lk.
Definition bform (bo bi bd : N) (aa lk : bool) : N :=
  16 * 2 ^ 26 + bo * 2 ^ 21 + bi * 2 ^ 16 + bd * 4 + b1 aa * 2 + b1 lk.
(** bclr 16, bcctr 528, bctar 560 *)
Definition xlform (xo bo bi bh : N) (lk : bool) : N :=
  19 * 2 ^ 26 + bo * 2 ^ 21 + bi * 2 ^ 16 + bh * 2 ^ 11 + xo * 2 + b1 lk.

(** Target of a relative branch with an [n] bit displacement, the low two bits
    of which are zero. *)
Definition sext (n x : N) : Z :=
  if x <? 2 ^ (n - 1) then Z.of_N x else (Z.of_N x - 2 ^ Z.of_N n)%Z.
Definition target (n disp iea : N) : N := Z.to_N ((Z.of_N iea + sext n disp) mod 2 ^ 64).
(** Where the target is: in the instruction's region of 2^n bytes (0), the next
    (1), the previous (3). *)
Definition mode (n t iea : N) : N :=
  if t / 2 ^ n =? iea / 2 ^ n then 0
  else if t / 2 ^ n =? (iea / 2 ^ n + 1) mod 2 ^ (64 - n) then 1 else 3.

(** ** Recoded words, POWER10
    The arguments [x..] are bits without meaning. *)
Definition p10_i (x0 : bool) (lk : bool) (mode hi7 : N) (x13 x14 : bool) (lo17 : N) : N :=
  b1 x0 * 2 ^ 31 + b1 lk * 2 ^ 30 + mode * 2 ^ 28 + hi7 * 2 ^ 21 + 0 * 2 ^ 19
  + b1 x13 * 2 ^ 18 + b1 x14 * 2 ^ 17 + lo17.
Definition p10_i_rel (x0 x13 x14 : bool) (li : N) (lk : bool) (iea : N) : N :=
  let t := target 26 (li * 4) iea in
  p10_i x0 lk (mode 26 t iea) (t / 2 ^ 19 mod 2 ^ 7) x13 x14 (t / 4 mod 2 ^ 17).
Definition p10_i_abs (x0 x13 x14 : bool) (li : N) (lk : bool) : N :=
  p10_i x0 lk 2 (li / 2 ^ 17) x13 x14 (li mod 2 ^ 17).
Definition p10_b (x0 lk : bool) (mode t14 bo : N) (x9 : bool) (bi type : N) (x14 : bool)
    (low : N) : N :=
  b1 x0 * 2 ^ 31 + b1 lk * 2 ^ 30 + mode * 2 ^ 28 + t14 * 2 ^ 27 + bo / 2 * 2 ^ 23
  + b1 x9 * 2 ^ 22 + bi / 16 * 2 ^ 21 + type * 2 ^ 19 + bo mod 2 * 2 ^ 18 + b1 x14 * 2 ^ 17
  + bi mod 16 * 2 ^ 13 + low.
Definition p10_b_rel (x0 x9 x14 : bool) (bo bi bd : N) (lk : bool) (iea : N) : N :=
  let t := target 16 (bd * 4) iea in
  p10_b x0 lk (mode 16 t iea) (t / 2 ^ 15 mod 2) bo x9 bi 1 x14 (t / 4 mod 2 ^ 13).
Definition p10_b_abs (x0 x9 x14 : bool) (bo bi bd : N) (lk : bool) : N :=
  p10_b x0 lk 2 (bd / 2 ^ 13) bo x9 bi 1 x14 (bd mod 2 ^ 13).
(** bclr (type 2), bcctr and bctar (type 3; bit 20 tells them apart) *)
Definition p10_xl (x0 : bool) (x23 : N) (x4 x9 x14 : bool) (x19 x23_31 : N) (type : N)
    (bo bi bh : N) (lk tar : bool) : N :=
  p10_b x0 lk x23 (b1 x4) bo x9 bi type x14 (x19 * 2 ^ 12 + b1 tar * 2 ^ 11 + bh * 2 ^ 9 + x23_31).
(** BO4 is a hint that only counts with BO3. *)
Definition kept_bo (bo : N) : N := if N.odd (bo / 2) then bo else bo / 2 * 2.

(** ** Recoded words, POWER8 and POWER9 *)
Definition p8_i (x0 lk : bool) (mode low24 : N) (x31 : bool) : N :=
  b1 x0 * 2 ^ 31 + b1 lk * 2 ^ 30 + 0 * 2 ^ 28 + mode * 2 ^ 26 + low24 * 4 + 2 + b1 x31.
Definition p8_i_rel (x0 x31 : bool) (li : N) (lk : bool) (iea : N) : N :=
  let t := target 26 (li * 4) iea in p8_i x0 lk (mode 26 t iea) (t / 4 mod 2 ^ 24) x31.
Definition p8_b (x0 lk : bool) (type mode top bo bi low13 : N) (x30 x31 : bool) : N :=
  b1 x0 * 2 ^ 31 + b1 lk * 2 ^ 30 + type * 2 ^ 28 + mode * 2 ^ 26 + top * 2 ^ 25
  + bo * 2 ^ 20 + bi * 2 ^ 15 + low13 * 4 + b1 x30 * 2 + b1 x31.
(** Both ways of marking a B-form word. *)
Definition p8_b_type (type : N) (x30 : bool) : Prop := type = 0 /\ x30 = false \/ type = 1.
Definition p8_b_rel (x0 x30 x31 : bool) (type bo bi bd : N) (lk : bool) (iea : N) : N :=
  let t := target 16 (bd * 4) iea in
  p8_b x0 lk type (mode 16 t iea) (t / 2 ^ 15 mod 2) bo bi (t / 4 mod 2 ^ 13) x30 x31.
Definition p8_b_abs (x0 x30 x31 : bool) (type bo bi bd : N) (lk : bool) : N :=
  p8_b x0 lk type 2 (bd / 2 ^ 13) bo bi (bd mod 2 ^ 13) x30 x31.
(** bclr (type 2), bcctr and bctar (type 3; bit 18 tells them apart) *)
Definition p8_xl (x0 : bool) (type mode : N) (x6 : N) (x17 tar : bool)
    (bo bi bh x21 : N) (lk : bool) : N :=
  b1 x0 * 2 ^ 31 + b1 lk * 2 ^ 30 + type * 2 ^ 28 + mode * 2 ^ 26 + x6 * 2 ^ 25
  + bo * 2 ^ 20 + bi * 2 ^ 15 + b1 x17 * 2 ^ 14 + b1 tar * 2 ^ 13 + bh * 2 ^ 11 + x21.

(** A recoded word that has the opcodes of isel. *)
Definition looks_isel (v : N) : Prop := field 32 v 0 5 = 31 /\ field 32 v 26 30 = 15.
(** The extended opcode that goes with a recoded XL-form word. *)
Definition xl_op (type : N) (tar : bool) : N := if type =? 2 then 16 else if tar then 560 else 528.
(** sc, scv, mtmsr(d); rfid, rfscv, hrfid, urfid, stop *)
Definition system_word (w : N) : Prop :=
  field 32 w 0 5 = 17 \/ field 32 w 0 5 = 31 \/ field 32 w 0 5 = 19 /\ field 32 w 26 30 = 18.
