(** Machine-word helpers shared by all models: widths, wrap-around, bit
    fields as div/mod.  No property-specific content. *)
Require Import NArith ZArith List Lia Bool.
Require Import ZifyBool ZifyN ZifyNat.
Import ListNotations.
Local Open Scope N_scope.

Definition w8  : N := 256.
Definition w16 : N := 65536.
Definition w32 : N := 4294967296.
Definition w64 : N := 18446744073709551616.

(** C conversion of an unsigned quantity to uint8/16/32/64. *)
Definition u8  (x : N) : N := x mod w8.
Definition u16 (x : N) : N := x mod w16.
Definition u32 (x : N) : N := x mod w32.
Definition u64 (x : N) : N := x mod w64.

(** 64-bit unsigned addition and subtraction. *)
Definition add64 (a b : N) : N := (a + b) mod w64.
Definition sub64 (a b : N) : N := (a + w64 - b mod w64) mod w64.

(** Two's complement reading of a 64-bit (32-bit) word. *)
Definition s64 (x : N) : Z :=
  if x mod w64 <? 9223372036854775808 then Z.of_N (x mod w64)
  else (Z.of_N (x mod w64) - 18446744073709551616)%Z.
Definition s32 (x : N) : Z :=
  if x mod w32 <? 2147483648 then Z.of_N (x mod w32)
  else (Z.of_N (x mod w32) - 4294967296)%Z.
(** Conversion of a signed value to uint64. *)
Definition z64 (z : Z) : N := Z.to_N (z mod 18446744073709551616).

Lemma w64_pow : w64 = 2 ^ 64. Proof. reflexivity. Qed.
Lemma w32_pow : w32 = 2 ^ 32. Proof. reflexivity. Qed.
Lemma w16_pow : w16 = 2 ^ 16. Proof. reflexivity. Qed.
Lemma w8_pow : w8 = 2 ^ 8. Proof. reflexivity. Qed.

(** [land] with a field mask is a div/mod. *)
Lemma land_ones_mod : forall x k, N.land x (N.ones k) = x mod 2 ^ k.
Proof. intros; apply N.land_ones. Qed.

Lemma land_field : forall x lo w,
  N.land x (N.shiftl (N.ones w) lo) = ((x / 2 ^ lo) mod 2 ^ w) * 2 ^ lo.
Proof.
  intros x lo w.
  rewrite <- N.shiftr_div_pow2, <- N.land_ones, <- N.shiftl_mul_pow2.
  apply N.bits_inj; intro i.
  rewrite N.land_spec.
  destruct (N.le_gt_cases lo i) as [H|H].
  - rewrite !N.shiftl_spec_high by (try lia).
    rewrite N.land_spec, N.shiftr_spec by lia.
    now replace (i - lo + lo) with i by lia.
  - rewrite !N.shiftl_spec_low by lia. now rewrite andb_false_r.
Qed.

Lemma lor_disjoint_add : forall a b k, b < 2 ^ k ->
  N.lor (a * 2 ^ k) b = a * 2 ^ k + b.
Proof.
  intros a b k H.
  rewrite <- N.shiftl_mul_pow2.
  rewrite N.add_nocarry_lxor.
  - rewrite N.lxor_lor; auto.
    apply N.bits_inj; intro i. rewrite N.land_spec, N.bits_0.
    destruct (N.le_gt_cases k i).
      assert (N.testbit b i = false) as ->; [|apply andb_false_r].
      destruct (N.eq_dec b 0); [subst; apply N.bits_0|].
      apply N.bits_above_log2. apply N.log2_lt_pow2; [lia|].
      apply N.lt_le_trans with (2 ^ k); auto. apply N.pow_le_mono_r; lia.
    + rewrite N.shiftl_spec_low by lia. reflexivity.
  - apply N.bits_inj; intro i. rewrite N.land_spec, N.bits_0.
    destruct (N.le_gt_cases k i).
    + assert (N.testbit b i = false) as ->; [|apply andb_false_r].
      destruct (N.eq_dec b 0); [subst; apply N.bits_0|].
      apply N.bits_above_log2. apply N.log2_lt_pow2; [lia|].
      apply N.lt_le_trans with (2 ^ k); auto. apply N.pow_le_mono_r; lia.
    + rewrite N.shiftl_spec_low by lia. reflexivity.
Qed.

Lemma testbit_above : forall b k i, b < 2 ^ k -> k <= i -> N.testbit b i = false.
Proof.
  intros b k i H Hi.
  destruct (N.eq_dec b 0); [subst; apply N.bits_0|].
  apply N.bits_above_log2. apply N.log2_lt_pow2; [lia|].
  apply N.lt_le_trans with (2 ^ k); auto. apply N.pow_le_mono_r; lia.
Qed.

(** Disjoint [lor] from a zero [land]. *)
Lemma lor_land0_add : forall a b, N.land a b = 0 -> N.lor a b = a + b.
Proof.
  intros. rewrite N.add_nocarry_lxor by auto. now rewrite N.lxor_lor.
Qed.

Lemma testbit_div_mod : forall x i, N.testbit x i = (x / 2 ^ i mod 2 =? 1).
Proof.
  intros. rewrite <- N.shiftr_div_pow2.
  rewrite <- (N.add_0_l i) at 1.
  rewrite <- N.shiftr_spec by lia. rewrite N.bit0_odd, <- N.bit0_mod, N.bit0_odd.
  destruct (N.odd _); reflexivity.
Qed.

Lemma land_lt_pow2 : forall a b k, b < 2 ^ k -> N.land a b < 2 ^ k.
Proof.
  intros. apply N.le_lt_trans with b; auto.
  apply N.ldiff_le. apply N.bits_inj; intro i.
  rewrite N.ldiff_spec, N.land_spec, N.bits_0.
  destruct (N.testbit a i), (N.testbit b i); reflexivity.
Qed.

Lemma lor_lt_pow2 : forall a b k, a < 2 ^ k -> b < 2 ^ k -> N.lor a b < 2 ^ k.
Proof.
  intros a b k Ha Hb.
  destruct (N.eq_dec (N.lor a b) 0) as [->|Hz].
  - apply N.neq_0_lt_0. now apply N.pow_nonzero.
  - apply N.log2_lt_pow2; [lia|]. rewrite N.log2_lor.
    destruct (N.eq_dec a 0), (N.eq_dec b 0); subst; cbn [N.log2 N.max].
    + now rewrite N.lor_0_l in Hz.
    + rewrite N.max_r by apply N.le_0_l. apply N.log2_lt_pow2; lia.
    + rewrite N.max_l by apply N.le_0_l. apply N.log2_lt_pow2; lia.
    + apply N.max_lub_lt; apply N.log2_lt_pow2; lia.
Qed.

(** Finite enumeration of bits: a number below 2^k is determined by its low k
    bits.  Used to discharge fixed-width facts by testing bits. *)
Lemma bits_inj_below : forall a b k, a < 2 ^ k -> b < 2 ^ k ->
  (forall i, i < k -> N.testbit a i = N.testbit b i) -> a = b.
Proof.
  intros a b k Ha Hb H. apply N.bits_inj; intro i.
  destruct (N.lt_ge_cases i k); auto.
  now rewrite !(testbit_above _ k).
Qed.

Lemma lor_disj : forall k p a b, p = 2 ^ k -> b < p -> N.lor (a * p) b = a * p + b.
Proof. intros; subst; now apply lor_disjoint_add. Qed.
