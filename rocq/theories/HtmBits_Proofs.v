(** Proofs for C29 and C31. *)
Require Import NArith ZArith List Bool Lia.
Require Import ZifyBool ZifyN ZifyNat.
Require Import Verif.Word Verif.HtmBits_Model Verif.HtmBits_Spec.
Import ListNotations.
Local Open Scope N_scope.

(** ** Bit fields *)
Lemma mask_of_eq : forall w n sh, n + sh <= w ->
  mask_of w n sh = N.shiftl (N.ones n) sh.
Proof.
  intros w n sh H. unfold mask_of.
  assert (P : 2 ^ w = 2 ^ (w - n) * 2 ^ n) by (rewrite <- N.pow_add_r; f_equal; lia).
  assert (Q : (2 ^ w - 1) * 2 ^ n mod 2 ^ w = (2 ^ (w - n) - 1) * 2 ^ n).
  { assert (0 < 2 ^ (w - n)) by (apply N.neq_0_lt_0, N.pow_nonzero; lia).
    assert (0 < 2 ^ n) by (apply N.neq_0_lt_0, N.pow_nonzero; lia).
    rewrite P at 2. rewrite N.mul_mod_distr_r by lia. f_equal.
    rewrite P.
    replace (2 ^ (w - n) * 2 ^ n - 1) with ((2 ^ n - 1) * 2 ^ (w - n) + (2 ^ (w - n) - 1)) by nia.
    rewrite N.add_comm, N.mod_add by lia. apply N.mod_small. lia. }
  rewrite Q. clear Q.
  assert (E : forall k, 2 ^ k - 1 = N.ones k) by (intros; unfold N.ones; rewrite N.shiftl_1_l; lia).
  rewrite !E, <- !N.shiftl_mul_pow2.
  assert (X : N.lxor (N.shiftl (N.ones (w - n)) n) (N.ones w) = N.ones n).
  { apply N.bits_inj; intro i. rewrite N.lxor_spec.
    destruct (N.ltb_spec i n) as [L|L].
    - rewrite N.shiftl_spec_low, !N.ones_spec_low by lia. reflexivity.
    - rewrite N.shiftl_spec_high', (N.ones_spec_high n) by lia.
      destruct (N.ltb_spec i w).
      + rewrite !N.ones_spec_low by lia. reflexivity.
      + rewrite !N.ones_spec_high by lia. reflexivity. }
  rewrite X. apply N.mod_small.
  rewrite N.shiftl_mul_pow2, N.ones_equiv.
  apply N.lt_le_trans with (2 ^ n * 2 ^ sh).
  - apply N.mul_lt_mono_pos_r; [apply N.neq_0_lt_0, N.pow_nonzero; lia|].
    assert (0 < 2 ^ n) by (apply N.neq_0_lt_0, N.pow_nonzero; lia). lia.
  - rewrite <- N.pow_add_r. apply N.pow_le_mono_r; lia.
Qed.

Lemma extract_eq : forall w v n sh, n + sh <= w -> extract w v n sh = v / 2 ^ sh mod 2 ^ n.
Proof.
  intros. unfold extract. rewrite mask_of_eq by assumption. rewrite land_field.
  rewrite N.shiftr_div_pow2. apply N.div_mul. apply N.pow_nonzero; lia.
Qed.

Lemma bits_field : forall v s e, s <= e -> e <= 63 -> bits v s e = field 64 v s e.
Proof. intros. unfold bits, field. rewrite extract_eq by lia. reflexivity. Qed.
Lemma bits32_field : forall v s e, s <= e -> e <= 31 -> bits32 v s e = field 32 v s e.
Proof. intros. unfold bits32, field. rewrite extract_eq by lia. reflexivity. Qed.

Lemma bits_w_spec : forall w v s e, 0 < w ->
  match bits_w w v s e with
  | FOk r => (0 <= s <= e)%Z /\ (e < Z.of_N w)%Z /\ (0 < s \/ e < Z.of_N w - 1)%Z
             /\ r = field w v (Z.to_N s) (Z.to_N e)
  | FErr FShift => s = 0%Z /\ e = (Z.of_N w - 1)%Z
  | FErr FAssert => ~ (0 <= s <= e /\ e < Z.of_N w)%Z
  end.
Proof.
  intros w v s e Hw. unfold bits_w.
  destruct (_ && _)%Z eqn:B.
  - cbn [negb]. destruct (_ =? w) eqn:E.
    + lia.
    + repeat split; try lia. unfold field.
      rewrite extract_eq by lia.
      replace (Z.to_N (Z.of_N (w - 1) - e)) with (w - 1 - Z.to_N e) by lia.
      replace (Z.to_N (e - s + 1)) with (Z.to_N e - Z.to_N s + 1) by lia. reflexivity.
  - cbn [negb]. intro. lia.
Qed.

Lemma field_testbit : forall w v s e i, s <= e -> e < w ->
  N.testbit (field w v s e) i = (i <=? e - s) && ibm_bit w v (e - i).
Proof.
  intros w v s e i H1 H2. unfold field, ibm_bit.
  destruct (N.leb_spec i (e - s)) as [L|L].
  - rewrite N.mod_pow2_bits_low by lia.
    rewrite <- N.shiftr_div_pow2, N.shiftr_spec by lia. cbn [andb]. f_equal. lia.
  - rewrite N.mod_pow2_bits_high by lia. reflexivity.
Qed.

Lemma bit_spec : forall v b, (b <= 63) -> bit v b = ibm_bit 64 v b.
Proof.
  intros v b H. unfold bit. rewrite bits_field by lia. unfold field, ibm_bit.
  rewrite testbit_div_mod. replace (b - b + 1) with 1 by lia. reflexivity.
Qed.

Lemma htm_bit_spec : forall v b,
  htm_bit v b = if ((0 <=? b) && (b <=? 63))%Z then BitOk (ibm_bit 64 v (Z.to_N b)) else BitErr FAssert.
Proof.
  intros v b. unfold htm_bit, htm_bits.
  pose proof (bits_w_spec 64 v b b ltac:(lia)) as H.
  destruct (bits_w 64 v b b) as [r|[]].
  - destruct H as (H1 & H2 & _ & ->).
    assert (L : field 64 v (Z.to_N b) (Z.to_N b) < 2).
    { unfold field. replace (Z.to_N b - Z.to_N b + 1) with 1 by lia.
      apply N.mod_lt. discriminate. }
    unfold htm_uint32. destruct (N.ltb_spec (field 64 v (Z.to_N b) (Z.to_N b)) w32).
    + destruct (_ && _)%Z eqn:E; [|lia]. f_equal.
      rewrite <- bit_spec by lia. unfold bit. rewrite bits_field by lia. reflexivity.
    + unfold w32 in *. lia.
  - destruct (_ && _)%Z eqn:E; [lia|reflexivity].
  - lia.
Qed.

Lemma constant_fields : forall v s e, s <= e -> e <= 63 -> 0 < s \/ e < 63 ->
  htm_bits v (Z.of_N s) (Z.of_N e) = FOk (bits v s e) /\ bits v s e < 2 ^ (e - s + 1)
  /\ (e - s < 32 -> htm_uint32 (bits v s e) = FOk (bits v s e)).
Proof.
  intros v s e H1 H2 H3.
  assert (L : bits v s e < 2 ^ (e - s + 1)).
  { rewrite bits_field by lia. apply N.mod_lt. apply N.pow_nonzero. lia. }
  repeat split.
  - pose proof (bits_w_spec 64 v (Z.of_N s) (Z.of_N e) ltac:(lia)) as H. unfold htm_bits.
    destruct (bits_w 64 v (Z.of_N s) (Z.of_N e)) as [r|[]]; [|lia|lia].
    destruct H as (_ & _ & _ & ->). rewrite !N2Z.id, bits_field by lia. reflexivity.
  - exact L.
  - intros D. unfold htm_uint32.
    assert (2 ^ (e - s + 1) <= 2 ^ 32) by (apply N.pow_le_mono_r; lia).
    destruct (N.ltb_spec (bits v s e) w32); [reflexivity|]. unfold w32 in *. lia.
Qed.

(** ** Recoding *)
Lemma lor_add : forall k a b, a mod 2 ^ k = 0 -> b < 2 ^ k -> N.lor a b = a + b.
Proof.
  intros k a b Ha Hb.
  assert (N0 : 2 ^ k <> 0) by (apply N.pow_nonzero; lia).
  rewrite (N.div_mod' a (2 ^ k)), Ha, N.add_0_r, N.mul_comm. now apply lor_disjoint_add.
Qed.
Lemma land_mask4 : forall x n, N.land x (N.shiftl (N.ones n) 2) = x / 4 mod 2 ^ n * 4.
Proof. intros. rewrite land_field. reflexivity. Qed.

Ltac fields := rewrite !bits32_field by lia; unfold field; cbn [N.sub N.add Pos.sub Pos.add].

Lemma b1_lt : forall b, b1 b < 2. Proof. intros []; cbn; lia. Qed.

(** Digits of a number given by its parts. *)
Lemma part : forall v hi f lo a n, v = (hi * 2 ^ n + f) * 2 ^ a + lo -> f < 2 ^ n -> lo < 2 ^ a ->
  v / 2 ^ a mod 2 ^ n = f.
Proof.
  intros v hi f lo a n -> Hf Hlo.
  rewrite N.div_add_l by (apply N.pow_nonzero; lia).
  rewrite (N.div_small lo) by assumption. rewrite N.add_0_r.
  rewrite N.add_comm, N.mod_add by (apply N.pow_nonzero; lia). now apply N.mod_small.
Qed.

(** A quotient and remainder, as facts about fresh variables. *)
Lemma zsplit : forall x b, (0 < b)%Z -> exists q r, (x = q * b + r /\ 0 <= r < b /\ x mod b = r /\ x / b = q)%Z.
Proof.
  intros x b Hb. exists (x / b)%Z, (x mod b)%Z.
  split; [|split; [apply Z.mod_pos_bound; assumption|split; reflexivity]].
  rewrite Z.mul_comm. apply Z.div_mod. intro E; rewrite E in Hb; discriminate.
Qed.
Lemma zquot : forall q b r : Z, (0 <= r < b -> (q * b + r) / b = q)%Z.
Proof. intros. symmetry. apply Z.div_unique with r; [left; assumption|apply f_equal2; [apply Z.mul_comm|reflexivity]]. Qed.
Lemma zrem : forall q b r : Z, (0 <= r < b -> (q * b + r) mod b = r)%Z.
Proof. intros. symmetry. apply Z.mod_unique with q; [left; assumption|apply f_equal2; [apply Z.mul_comm|reflexivity]]. Qed.
Lemma zrem2 : forall q m b r : Z, (0 < m -> 0 <= r < b -> (q * b + r) mod (m * b) = q mod m * b + r)%Z.
Proof.
  intros q m b r Hm Hr. destruct (zsplit q m Hm) as [k [x [E [Hx [-> _]]]]].
  symmetry. apply Z.mod_unique with k; [left; nia|]. subst q. ring.
Qed.
(** Neighbours modulo [m]. *)
Lemma znext : forall R m, (0 <= R < m -> 4 <= m -> (R + 1) mod m = if R =? m - 1 then 0 else R + 1)%Z.
Proof.
  intros R m H H4. destruct (Z.eqb_spec R (m - 1)).
  - replace (R + 1)%Z with (1 * m + 0)%Z by lia. apply zrem. lia.
  - apply Z.mod_small. lia.
Qed.
Lemma zprev : forall R m, (0 <= R < m -> 4 <= m -> (R - 1) mod m = if R =? 0 then m - 1 else R - 1)%Z.
Proof.
  intros R m H H4. destruct (Z.eqb_spec R 0).
  - replace (R - 1)%Z with ((-1) * m + (m - 1))%Z by lia. apply zrem. lia.
  - apply Z.mod_small. lia.
Qed.

(** The same in integers: [R * B + O] the instruction, [s] the displacement. *)
Lemma zone : forall B M R O s : Z,
  (0 < B -> 4 <= M -> 0 <= R < M -> 0 <= O < B -> - B <= 2 * s < B ->
   exists R' low,
     (R * B + O + s) mod (M * B) = R' * B + low /\ 0 <= R' < M /\ 0 <= low < B
     /\ (R' * B + low - (R * B + O)) mod B = s mod B
     /\ (R' = R \/ R' <> R /\ R' = (R + 1) mod M
        \/ R' <> R /\ R' <> (R + 1) mod M /\ R' = (R - 1) mod M))%Z.
Proof.
  intros B M R O s HB HM HR HO Hs.
  assert (Q : exists q low, (O + s = q * B + low /\ 0 <= low < B /\ (q = -1 \/ q = 0 \/ q = 1))%Z).
  { assert (C : (O + s < 0 \/ 0 <= O + s < B \/ B <= O + s)%Z) by lia.
    destruct C as [C|[C|C]].
    - exists (-1)%Z, (O + s + B)%Z. lia.
    - exists 0%Z, (O + s)%Z. lia.
    - exists 1%Z, (O + s - B)%Z. lia. }
  destruct Q as [q [low [E [Hl Hq]]]].
  exists ((R + q) mod M)%Z, low.
  assert (HR' : (0 <= (R + q) mod M < M)%Z) by (apply Z.mod_pos_bound; lia).
  split; [|split; [assumption|split; [assumption|split]]].
  - replace (R * B + O + s)%Z with ((R + q) * B + low)%Z by lia. apply zrem2; lia.
  - set (r := ((R + q) mod M)%Z). clearbody r.
    replace (r * B + low - (R * B + O))%Z with (s + (r - R - q) * B)%Z by lia.
    apply Z_mod_plus_full.
  - destruct Hq as [Hq|[Hq|Hq]]; subst q.
    + right. right. change (R + -1)%Z with (R - 1)%Z. rewrite znext, zprev by assumption.
      destruct (Z.eqb_spec R 0), (Z.eqb_spec R (M - 1)); lia.
    + left. rewrite Z.add_0_r. apply Z.mod_small. assumption.
    + right. left. rewrite znext by assumption.
      destruct (Z.eqb_spec R (M - 1)); lia.
Qed.

Lemma of_N_if : forall (b : bool) x y, Z.of_N (if b then x else y) = if b then Z.of_N x else Z.of_N y.
Proof. intros []; reflexivity. Qed.

Lemma region_eq : forall sh R O, 1 <= sh <= 62 -> O < 2 ^ sh -> R < 2 ^ (64 - sh) ->
  let B := 2 ^ sh in let M := 2 ^ (64 - sh) in
  region 0 sh (R * B + O) = R * B
  /\ region 1 sh (R * B + O) = (R + 1) mod M * B
  /\ region 3 sh (R * B + O) = Z.to_N ((Z.of_N R - 1) mod Z.of_N M) * B.
Proof.
  intros sh R O Hsh HO HR B M.
  assert (BM : 2 ^ 64 = M * B) by (unfold M, B; rewrite <- N.pow_add_r; f_equal; lia).
  assert (HB : 2 <= B) by (unfold B; change 2 with (2 ^ 1) at 1; apply N.pow_le_mono_r; lia).
  assert (HM : 4 <= M) by (unfold M; change 4 with (2 ^ 2); apply N.pow_le_mono_r; lia).
  assert (MB : forall x, x * B mod w64 = x mod M * B).
  { intros. change w64 with (2 ^ 64). rewrite BM. apply N.mul_mod_distr_r; lia. }
  assert (SR : N.shiftr (R * B + O) sh = R).
  { rewrite N.shiftr_div_pow2. fold B. rewrite N.div_add_l by lia.
    rewrite N.div_small by exact HO. apply N.add_0_r. }
  unfold region. rewrite SR. fold B.
  fold M in HR. fold B in HO. clearbody M B.
  split; [|split].
  - rewrite MB, N.mod_small by assumption. reflexivity.
  - rewrite MB. f_equal. unfold add64. change w64 with (2 ^ 64).
    rewrite (N.mod_small (R + 1) (2 ^ 64)); [reflexivity|]. rewrite BM. nia.
  - rewrite MB. f_equal. unfold sub64. change w64 with (2 ^ 64).
    change (1 mod 2 ^ 64) with 1. rewrite BM.
    destruct (N.eq_dec R 0) as [->|NZ].
    + rewrite (N.mod_small (0 + M * B - 1)) by nia.
      replace (0 + M * B - 1) with ((B - 1) * M + (M - 1)) by nia.
      rewrite N.add_comm, N.mod_add, N.mod_small by lia.
      rewrite zprev by lia. cbn. lia.
    + replace (R + M * B - 1) with ((R - 1) + 1 * (M * B)) by lia.
      rewrite N.mod_add by nia. rewrite (N.mod_small _ (M * B)) by nia.
      rewrite N.mod_small by lia.
      rewrite zprev by lia. destruct (Z.eqb_spec (Z.of_N R) 0); lia.
Qed.

Lemma region_target : forall sh iea d, 1 <= sh <= 62 -> d < 2 ^ sh -> iea < 2 ^ 64 ->
  let t := target sh d iea in
  t < 2 ^ 64 /\ mode sh t iea < 4 /\ mode sh t iea <> 2
  /\ region (mode sh t iea) sh iea = t / 2 ^ sh * 2 ^ sh
  /\ sub64 t iea mod 2 ^ sh = d.
Proof.
  intros sh iea d Hsh Hd Hi t.
  set (B := 2 ^ sh) in *. set (M := 2 ^ (64 - sh)).
  assert (BM : 2 ^ 64 = M * B) by (unfold M, B; rewrite <- N.pow_add_r; f_equal; lia).
  assert (HB : 2 * 2 ^ (sh - 1) = B)
    by (unfold B; rewrite <- N.pow_succ_r by lia; f_equal; lia).
  assert (HM : 4 <= M) by (unfold M; change 4 with (2 ^ 2); apply N.pow_le_mono_r; lia).
  assert (HB0 : 0 < 2 ^ (sh - 1)) by (apply N.neq_0_lt_0, N.pow_nonzero; lia).
  assert (ZB : (2 ^ Z.of_N sh = Z.of_N B)%Z) by (unfold B; rewrite N2Z.inj_pow; reflexivity).
  assert (Hs : (- Z.of_N B <= 2 * sext sh d < Z.of_N B)%Z /\ (sext sh d mod Z.of_N B = Z.of_N d)%Z).
  { unfold sext. rewrite ZB. destruct (N.ltb_spec d (2 ^ (sh - 1))).
    - split; [lia|]. apply Z.mod_small. lia.
    - split; [lia|]. rewrite <- (Z_mod_plus_full _ 1). rewrite Z.mod_small; lia. }
  unfold t, target. set (s := sext sh d) in *. clearbody s. clear t. destruct Hs as [Hs1 Hs2].
  assert (EI : exists R O, iea = R * B + O /\ O < B /\ R < M).
  { exists (iea / B), (iea mod B). split; [|split].
    - rewrite N.mul_comm. apply N.div_mod. lia.
    - apply N.mod_lt. lia.
    - apply N.div_lt_upper_bound; [lia|]. rewrite N.mul_comm, <- BM. assumption. }
  destruct EI as [R [O [EI [HO HR]]]]. subst iea.
  destruct (region_eq sh R O Hsh HO HR) as [G0 [G1 G3]]. fold B M in G0, G1, G3.
  destruct (zone (Z.of_N B) (Z.of_N M) (Z.of_N R) (Z.of_N O) s) as [r [l [E [Hr [Hl [D C]]]]]];
    [clear - HB HB0; lia | clear - HM; lia | clear - HR; lia | clear - HO; lia | assumption |].
  change (2 ^ 64)%Z with (Z.of_N (2 ^ 64)). rewrite BM, N2Z.inj_mul, N2Z.inj_add, N2Z.inj_mul, E.
  assert (exists R', r = Z.of_N R' /\ R' < M) as [R' [-> HR']] by (exists (Z.to_N r); clear - Hr; lia).
  assert (exists L, l = Z.of_N L /\ L < B) as [L [-> HL]] by (exists (Z.to_N l); clear - Hl; lia).
  clear Hr Hl E.
  assert (HBp : 0 < B) by (clear - HB HB0; lia).
  rewrite <- N2Z.inj_mul, <- N2Z.inj_add, N2Z.id.
  assert (TD : forall x y, y < B -> (x * B + y) / B = x).
  { clear - HBp. intros x y Hy. rewrite N.div_add_l by lia. rewrite N.div_small by assumption. lia. }
  unfold mode. fold B M. rewrite !TD by assumption.
  split; [clear - HL HR' HBp; nia|].
  assert (SB : sub64 (R' * B + L) (R * B + O) mod B = d).
  { clear - BM Hi HR HO HR' HL HBp HM D Hs2. apply N2Z.inj. unfold sub64. change w64 with (2 ^ 64).
    rewrite (N.mod_small (R * B + O)) by assumption.
    rewrite BM, (N.mul_comm M B).
    assert (LE : R * B + O <= R' * B + L + B * M) by (rewrite BM in Hi; clear - Hi; lia).
    rewrite N.mod_mul_r by (clear - HBp HM; lia).
    rewrite (N.mul_comm B (_ mod _)), N.mod_add, N.mod_mod by (clear - HBp; lia).
    rewrite N2Z.inj_mod, N2Z.inj_sub by exact LE.
    rewrite <- Hs2, <- D.
    rewrite <- (Z_mod_plus_full (_ - (_ + _)) (Z.of_N M)). f_equal. clear. lia. }
  destruct C as [C|[[C1 C2]|[C1 [C2 C3]]]].
  - assert (R' = R) by (clear - C; lia). subst R'. rewrite N.eqb_refl.
    split; [reflexivity|split; [discriminate|split; assumption]].
  - destruct (N.eqb_spec R' R) as [X|_]; [clear - C1 X; lia|].
    assert (E : R' = (R + 1) mod M)
      by (apply N2Z.inj; rewrite C2, N2Z.inj_mod; f_equal; clear; lia).
    rewrite <- E, N.eqb_refl.
    split; [reflexivity|split; [discriminate|split; [|assumption]]].
    rewrite G1, <- E. reflexivity.
  - destruct (N.eqb_spec R' R) as [X|_]; [clear - C1 X; lia|].
    assert (E : R' <> (R + 1) mod M).
    { intros E. apply C2. rewrite E, N2Z.inj_mod. f_equal. clear; lia. }
    apply N.eqb_neq in E. rewrite E.
    split; [reflexivity|split; [discriminate|split; [|assumption]]].
    rewrite G3, <- C3, N2Z.id. reflexivity.
Qed.

Lemma pow_split : forall a b, 2 ^ (a + b) = 2 ^ a * 2 ^ b.
Proof. intros. apply N.pow_add_r. Qed.

(** A multiple of four of [sh] bits, by its upper bits. *)
Lemma div_mod_4 : forall t sh, 2 <= sh -> t mod 4 = 0 -> t / 4 mod 2 ^ (sh - 2) * 4 = t mod 2 ^ sh.
Proof.
  intros t sh Hsh H.
  assert (P : 2 ^ sh = 4 * 2 ^ (sh - 2)) by (change 4 with (2 ^ 2); rewrite <- N.pow_add_r; f_equal; lia).
  assert (N0 : 2 ^ (sh - 2) <> 0) by (apply N.pow_nonzero; discriminate).
  rewrite P, N.mod_mul_r by (try assumption; discriminate). rewrite H, N.add_0_l. apply N.mul_comm.
Qed.

Lemma target_aligned : forall sh x iea, 2 <= sh -> iea mod 4 = 0 -> target sh (x * 4) iea mod 4 = 0.
Proof.
  intros sh x iea Hsh Hi.
  assert (P : (2 ^ Z.of_N sh = 2 ^ Z.of_N (sh - 2) * 4)%Z).
  { change 4%Z with (2 ^ 2)%Z. rewrite <- Z.pow_add_r by lia. f_equal. lia. }
  assert (Hs : exists k, sext sh (x * 4) = (k * 4)%Z).
  { unfold sext. destruct (_ <? _).
    - exists (Z.of_N x). lia.
    - exists (Z.of_N x - 2 ^ Z.of_N (sh - 2))%Z. rewrite P. lia. }
  destruct Hs as [k Hk]. unfold target. rewrite Hk.
  assert (exists j, iea = j * 4) as [j ->].
  { exists (iea / 4). rewrite (N.div_mod' iea 4) at 1. rewrite Hi. lia. }
  apply N2Z.inj. rewrite N2Z.inj_mod, Z2N.id by (apply Z.mod_pos_bound; reflexivity).
  change (2 ^ 64)%Z with (4 * 2 ^ 62)%Z. rewrite Z.rem_mul_r by lia.
  replace (Z.of_N (j * 4) + k * 4)%Z with (0 + (Z.of_N j + k) * 4)%Z by lia.
  rewrite Z_mod_plus_full. change (0 mod 4)%Z with 0%Z. rewrite Z.add_0_l, Z.mul_comm.
  apply Z.mod_mul. discriminate.
Qed.

Lemma disp_back : forall sh x iea, 2 <= sh <= 62 -> x < 2 ^ (sh - 2) -> iea < 2 ^ 64 -> iea mod 4 = 0 ->
  let t := target sh (x * 4) iea in
  mode sh t iea < 4 /\ mode sh t iea <> 2
  /\ N.lor (region (mode sh t iea) sh iea) (t mod 2 ^ sh) = t
  /\ N.land (sub64 t iea) (N.shiftl (N.ones (sh - 2)) 2) = x * 4
  /\ t mod 4 = 0 /\ t < 2 ^ 64.
Proof.
  intros sh x iea Hsh Hx Hi Ha t.
  assert (P : 2 ^ sh = 4 * 2 ^ (sh - 2)) by (change 4 with (2 ^ 2); rewrite <- N.pow_add_r; f_equal; lia).
  assert (N0 : 2 ^ (sh - 2) <> 0) by (apply N.pow_nonzero; discriminate).
  destruct (region_target sh iea (x * 4)) as [T1 [T2 [T3 [T4 T5]]]]; [lia|rewrite P; lia|assumption|].
  fold t in T1, T2, T3, T4, T5.
  split; [assumption|split; [assumption|split; [|split; [|split; [|assumption]]]]].
  - rewrite T4, lor_disjoint_add by (apply N.mod_lt; rewrite P; lia).
    rewrite N.mul_comm. symmetry. apply N.div_mod. rewrite P. lia.
  - rewrite land_mask4.
    set (y := sub64 t iea) in *. clearbody y.
    rewrite P, N.mod_mul_r in T5 by (try assumption; discriminate).
    assert (y mod 4 < 4) by (apply N.mod_lt; discriminate).
    clear - T5 H. set (q := y / 4 mod _) in *. clearbody q. set (r := y mod 4) in *. clearbody r. lia.
  - apply target_aligned; [lia|assumption].
Qed.

(** Words as lists of fields, most significant first: width and value. *)
Fixpoint wid (l : list (N * N)) : N := match l with [] => 0 | (w, _) :: l => w + wid l end.
Fixpoint pack (l : list (N * N)) : N := match l with [] => 0 | (w, x) :: l => x * 2 ^ wid l + pack l end.
Definition fits (l : list (N * N)) : Prop := Forall (fun f => snd f < 2 ^ fst f) l.

Lemma pack_lt : forall l, fits l -> pack l < 2 ^ wid l.
Proof.
  induction 1 as [|[w x] l H F IH]; cbn [pack wid fst snd] in *; [reflexivity|].
  rewrite pow_split. nia.
Qed.
Lemma pack_nth : forall l n w x, fits l -> nth_error l n = Some (w, x) ->
  pack l / 2 ^ wid (skipn (S n) l) mod 2 ^ w = x.
Proof.
  intros l n w x F. revert n. induction F as [|[w0 x0] l H F IH]; intros [|n] E; cbn [nth_error] in E; try discriminate.
  - assert (w0 = w /\ x0 = x) as [-> ->] by (split; congruence).
    cbn [skipn pack wid fst snd] in *.
    assert (N0 : 2 ^ wid l <> 0) by (apply N.pow_nonzero; discriminate).
    rewrite N.div_add_l, (N.div_small (pack l)) by (try assumption; now apply pack_lt).
    rewrite N.add_0_r. now apply N.mod_small.
  - change (skipn (S (S n)) ((w0, x0) :: l)) with (skipn (S n) l).
    rewrite <- (IH n E). cbn [pack].
    set (k := wid (skipn (S n) l)).
    assert (W : exists j, wid l = j + w + k).
    { unfold k. clear - E. revert n E. induction l as [|[a b] l IH]; intros [|n] E; cbn [nth_error] in E; try discriminate.
      - exists 0. cbn. assert (a = w) by congruence. subst. lia.
      - destruct (IH n E) as [j Hj]. exists (a + j). cbn [wid]. rewrite Hj.
        change (skipn (S (S n)) ((a, b) :: l)) with (skipn (S n) l). lia. }
    destruct W as [j ->].
    assert (N0 : 2 ^ k <> 0) by (apply N.pow_nonzero; discriminate).
    assert (N1 : 2 ^ w <> 0) by (apply N.pow_nonzero; discriminate).
    rewrite !pow_split.
    replace (x0 * (2 ^ j * 2 ^ w * 2 ^ k) + pack l) with (x0 * 2 ^ j * 2 ^ w * 2 ^ k + pack l) by (clear; lia).
    rewrite N.div_add_l by assumption.
    rewrite N.add_comm. rewrite N.mod_add by assumption. reflexivity.
Qed.
Lemma pack_bits : forall l n s e w x, fits l -> nth_error l n = Some (w, x) ->
  wid (skipn (S n) l) = 31 - e -> e - s + 1 = w -> s <= e -> e <= 31 ->
  bits32 (pack l) s e = x.
Proof.
  intros l n s e w x F E W D H1 H2. rewrite bits32_field by assumption. unfold field.
  change (32 - 1 - e) with (31 - e). rewrite D, <- W. now apply pack_nth.
Qed.

Lemma testbit_two : forall a b k i, b < 2 ^ k ->
  N.testbit (a * 2 ^ k + b) i = if i <? k then N.testbit b i else N.testbit a (i - k).
Proof.
  intros a b k i Hb. rewrite <- lor_disjoint_add by assumption.
  rewrite <- N.shiftl_mul_pow2, N.lor_spec.
  destruct (N.ltb_spec i k).
  - rewrite N.shiftl_spec_low by assumption. reflexivity.
  - rewrite N.shiftl_spec_high' by assumption. rewrite (testbit_above b k i) by assumption. apply orb_false_r.
Qed.
Lemma lor_two : forall a b c d k, b < 2 ^ k -> d < 2 ^ k ->
  N.lor (a * 2 ^ k + b) (c * 2 ^ k + d) = N.lor a c * 2 ^ k + N.lor b d.
Proof.
  intros a b c d k Hb Hd. apply N.bits_inj. intros i.
  rewrite N.lor_spec, !testbit_two by (try assumption; now apply lor_lt_pow2).
  destruct (_ <? _); now rewrite N.lor_spec.
Qed.
Lemma land_two : forall a b c d k, b < 2 ^ k -> d < 2 ^ k ->
  N.land (a * 2 ^ k + b) (c * 2 ^ k + d) = N.land a c * 2 ^ k + N.land b d.
Proof.
  intros a b c d k Hb Hd. apply N.bits_inj. intros i.
  rewrite N.land_spec, !testbit_two by (try assumption; now apply land_lt_pow2).
  destruct (_ <? _); now rewrite N.land_spec.
Qed.
Fixpoint zipf (f : N -> N -> N) (l m : list (N * N)) : list (N * N) :=
  match l, m with
  | (w, x) :: l, (_, y) :: m => (w, f x y) :: zipf f l m
  | _, _ => []
  end.
Lemma zipf_wid : forall f l m, map fst l = map fst m -> wid (zipf f l m) = wid l.
Proof.
  induction l as [|[w x] l IH]; intros [|[v y] m] E; try discriminate; [reflexivity|].
  cbn [map fst] in E. cbn [zipf wid]. rewrite IH by congruence. reflexivity.
Qed.
Lemma wid_same : forall l m, map fst l = map fst m -> wid l = wid m.
Proof.
  induction l as [|[w x] l IH]; intros [|[v y] m] E; try discriminate; [reflexivity|].
  cbn [map fst] in E. cbn [wid]. rewrite (IH m) by congruence. f_equal. congruence.
Qed.
Lemma pack_lor : forall l m, map fst l = map fst m -> fits l -> fits m ->
  N.lor (pack l) (pack m) = pack (zipf N.lor l m).
Proof.
  intros l m E F. revert m E. induction F as [|[w x] l H F IH]; intros [|[v y] m] E G; try discriminate; [reflexivity|].
  inversion G as [|? ? G1 G2]; subst. cbn [map fst] in E. assert (E' : map fst l = map fst m) by congruence.
  cbn [pack zipf]. rewrite zipf_wid by exact E'. rewrite <- (wid_same l m E').
  rewrite lor_two; [|now apply pack_lt|rewrite (wid_same l m E'); now apply pack_lt].
  rewrite IH by assumption. reflexivity.
Qed.
Lemma pack_land : forall l m, map fst l = map fst m -> fits l -> fits m ->
  N.land (pack l) (pack m) = pack (zipf N.land l m).
Proof.
  intros l m E F. revert m E. induction F as [|[w x] l H F IH]; intros [|[v y] m] E G; try discriminate; [reflexivity|].
  inversion G as [|? ? G1 G2]; subst. cbn [map fst] in E. assert (E' : map fst l = map fst m) by congruence.
  cbn [pack zipf]. rewrite zipf_wid by exact E'. rewrite <- (wid_same l m E').
  rewrite land_two; [|now apply pack_lt|rewrite (wid_same l m E'); now apply pack_lt].
  rewrite IH by assumption. reflexivity.
Qed.

Lemma div_lt : forall a b c, 0 < b -> a < b * c -> a / b < c.
Proof. intros. apply N.div_lt_upper_bound; lia. Qed.
Lemma u32_small : forall x, x < 2 ^ 32 -> u32 x = x.
Proof. intros. unfold u32. now apply N.mod_small. Qed.
Lemma b1_pow : forall b, b1 b < 2 ^ 1. Proof. intros []; reflexivity. Qed.
Ltac fit := repeat (apply Forall_cons; [cbn [fst snd]; first [assumption | reflexivity | apply b1_pow | idtac]|]); [..|apply Forall_nil].

Section P10.
  Variables (x0 x13 x14 lk : bool) (m hi lo iea : N).
  Hypotheses (Hm : m < 2 ^ 2) (Hhi : hi < 2 ^ 7) (Hlo : lo < 2 ^ 17).
  Let li := [(1, b1 x0); (1, b1 lk); (2, m); (7, hi); (2, 0); (1, b1 x13); (1, b1 x14); (17, lo)].
  Lemma p10_i_fields : let v := p10_i x0 lk m hi x13 x14 lo in
    bits32 v 2 3 = m /\ bits32 v 11 12 = 0 /\ bits32 v 1 1 = b1 lk
    /\ bits32 v 4 10 = hi /\ bits32 v 15 31 = lo.
  Proof.
    intros v.
    assert (E : v = pack li) by (unfold v, p10_i, li; cbn [pack wid]; clear; lia).
    assert (F : fits li) by (unfold li; fit).
    rewrite E. clearbody v. clear E.
    repeat split.
    - apply (pack_bits li 2 2 3 2 m F); reflexivity || discriminate.
    - apply (pack_bits li 4 11 12 2 0 F); reflexivity || discriminate.
    - apply (pack_bits li 1 1 1 1 (b1 lk) F); reflexivity || discriminate.
    - apply (pack_bits li 3 4 10 7 hi F); reflexivity || discriminate.
    - apply (pack_bits li 7 15 31 17 lo F); reflexivity || discriminate.
  Qed.
End P10.

Lemma u32_mul4 : forall x, x < 2 ^ 30 -> u32 (x * 4) = x * 4.
Proof. intros x H. apply u32_small. change (2 ^ 32) with (2 ^ 30 * 4). lia. Qed.

(** The low part of an I-form target, from its two pieces. *)
Lemma i_low : forall hi lo, hi < 2 ^ 7 -> lo < 2 ^ 17 ->
  u32 (N.lor (u32 (hi * 2 ^ 17)) lo * 4) = (hi * 2 ^ 17 + lo) * 4.
Proof.
  intros hi lo H1 H2. assert (hi * 2 ^ 17 < 2 ^ 24) by (clear - H1; lia).
  rewrite (u32_small (hi * 2 ^ 17)) by (clear - H1; lia).
  rewrite lor_disjoint_add by assumption. apply u32_mul4. clear - H1 H2; lia.
Qed.
Lemma two_parts : forall t a b, t / 2 ^ b / 2 ^ a mod 2 ^ 1 * 2 ^ a + t / 2 ^ b mod 2 ^ a = t / 2 ^ b mod 2 ^ (a + 1).
Proof.
  intros t a b. set (y := t / 2 ^ b). rewrite pow_split.
  rewrite N.mod_mul_r by (apply N.pow_nonzero; discriminate). lia.
Qed.
Lemma parts_join : forall y a b, y / 2 ^ a mod 2 ^ b * 2 ^ a + y mod 2 ^ a = y mod 2 ^ (a + b).
Proof.
  intros y a b. rewrite pow_split.
  rewrite N.mod_mul_r by (apply N.pow_nonzero; discriminate). lia.
Qed.

Theorem p10_i_rel_back : forall x0 x13 x14 li lk iea,
  li < 2 ^ 24 -> iea < 2 ^ 64 -> iea mod 4 = 0 ->
  insn_recode_p10 (p10_i_rel x0 x13 x14 li lk iea) iea = iform li false lk.
Proof.
  intros x0 x13 x14 li lk iea Hl Hi Ha.
  destruct (disp_back 26 li iea) as [M1 [M2 [L [D [T4 TB]]]]];
    [split; discriminate|exact Hl|exact Hi|exact Ha|].
  unfold p10_i_rel. set (t := target 26 (li * 4) iea) in *. set (m := mode 26 t iea) in *.
  clearbody m t.
  assert (Hh : t / 2 ^ 19 mod 2 ^ 7 < 2 ^ 7) by (apply N.mod_lt; discriminate).
  assert (Ho : t / 4 mod 2 ^ 17 < 2 ^ 17) by (apply N.mod_lt; discriminate).
  destruct (p10_i_fields x0 x13 x14 lk m _ _ M1 Hh Ho) as [E1 [E2 [E3 [E4 E5]]]].
  unfold insn_recode_p10. rewrite E1, E2, E3, E4, E5. cbv zeta.
  apply N.eqb_neq in M2. rewrite M2. cbv iota beta.
  rewrite i_low by assumption.
  replace (t / 2 ^ 19) with (t / 4 / 2 ^ 17) by (rewrite N.div_div by discriminate; reflexivity).
  rewrite parts_join. change (17 + 7) with (26 - 2). rewrite div_mod_4 by (discriminate || assumption).
  rewrite L. change 0x03fffffc with (N.shiftl (N.ones (26 - 2)) 2). rewrite D.
  unfold lors. cbn [fold_left]. rewrite N.lor_0_l.
  rewrite (lor_add 26 0x48000000 (li * 4)) by (reflexivity || (clear - Hl; lia)).
  assert (B : 0x48000000 + li * 4 = (0x12000000 + li) * 2 ^ 2) by (clear; lia).
  rewrite B, lor_disjoint_add by (destruct lk; reflexivity).
  rewrite u32_small; unfold iform; pose proof (b1_pow lk) as K; clear - Hl K; cbn [b1]; lia.
Qed.

Theorem p10_i_abs_back : forall x0 x13 x14 li lk iea, li < 2 ^ 24 ->
  insn_recode_p10 (p10_i_abs x0 x13 x14 li lk) iea = iform li true lk.
Proof.
  intros x0 x13 x14 li lk iea Hl.
  assert (Hh : li / 2 ^ 17 < 2 ^ 7) by (apply div_lt; [reflexivity|exact Hl]).
  assert (Ho : li mod 2 ^ 17 < 2 ^ 17) by (apply N.mod_lt; discriminate).
  destruct (p10_i_fields x0 x13 x14 lk 2 _ _ eq_refl Hh Ho) as [E1 [E2 [E3 [E4 E5]]]].
  unfold insn_recode_p10, p10_i_abs. rewrite E1, E2, E3, E4, E5. cbv zeta.
  change (2 =? 2) with true. cbv iota beta.
  rewrite i_low by assumption.
  rewrite (N.mul_comm (li / 2 ^ 17)), <- N.div_mod by discriminate.
  unfold lors. cbn [fold_left]. rewrite N.lor_0_l.
  rewrite (lor_add 26 0x48000000 (li * 4)) by (reflexivity || (clear - Hl; lia)).
  assert (B : 0x48000000 + li * 4 = (0x12000000 + li) * 2 ^ 2) by (clear; lia).
  rewrite B, lor_disjoint_add by reflexivity.
  replace ((0x12000000 + li) * 2 ^ 2 + 2) with ((0x24000000 + 2 * li + 1) * 2 ^ 1) by (clear; lia).
  rewrite lor_disjoint_add by apply b1_pow.
  rewrite u32_small; unfold iform; pose proof (b1_pow lk) as K; clear - Hl K; cbn [b1]; lia.
Qed.

Section P10B.
  Variables (x0 lk x9 x14 : bool) (m t14 bo bi type low : N).
  Hypotheses (Hm : m < 2 ^ 2) (Ht : t14 < 2 ^ 1) (Hbo : bo < 2 ^ 5) (Hbi : bi < 2 ^ 5)
    (Hty : type < 2 ^ 2) (Hlow : low < 2 ^ 13).
  Let l := [(1, b1 x0); (1, b1 lk); (2, m); (1, t14); (4, bo / 2); (1, b1 x9); (1, bi / 16);
            (2, type); (1, bo mod 2); (1, b1 x14); (4, bi mod 16); (13, low)].
  Lemma p10_b_pack : fits l /\ p10_b x0 lk m t14 bo x9 bi type x14 low = pack l.
  Proof.
    split.
    - unfold l. fit.
      + apply div_lt; [reflexivity|exact Hbo].
      + apply div_lt; [reflexivity|exact Hbi].
      + apply N.mod_lt. discriminate.
      + apply N.mod_lt. discriminate.
    - unfold p10_b, l; cbn [pack wid].
      set (a := bo / 2). set (b := bo mod 2). set (c := bi / 16). set (d := bi mod 16).
      clearbody a b c d. clear. lia.
  Qed.
  Lemma p10_b_fields : let v := p10_b x0 lk m t14 bo x9 bi type x14 low in
    bits32 v 2 3 = m /\ bits32 v 11 12 = type /\ bits32 v 1 1 = b1 lk /\ bits32 v 4 4 = t14
    /\ bits32 v 5 8 = bo / 2 /\ bits32 v 10 10 = bi / 16 /\ bits32 v 13 13 = bo mod 2
    /\ bits32 v 15 18 = bi mod 16 /\ bits32 v 19 31 = low.
  Proof.
    destruct p10_b_pack as [F E]. rewrite E. cbv zeta. clear E.
    split; [apply (pack_bits l 2 2 3 2 _ F); reflexivity || discriminate|].
    split; [apply (pack_bits l 7 11 12 2 _ F); reflexivity || discriminate|].
    split; [apply (pack_bits l 1 1 1 1 _ F); reflexivity || discriminate|].
    split; [apply (pack_bits l 3 4 4 1 _ F); reflexivity || discriminate|].
    split; [apply (pack_bits l 4 5 8 4 _ F); reflexivity || discriminate|].
    split; [apply (pack_bits l 6 10 10 1 _ F); reflexivity || discriminate|].
    split; [apply (pack_bits l 8 13 13 1 _ F); reflexivity || discriminate|].
    split; [apply (pack_bits l 10 15 18 4 _ F); reflexivity || discriminate|].
    apply (pack_bits l 11 19 31 13 _ F); reflexivity || discriminate.
  Qed.
End P10B.

Lemma bo_join : forall bo, N.lor (bo / 2 * 2) (bo mod 2) = bo.
Proof.
  intros. change (bo / 2 * 2) with (bo / 2 * 2 ^ 1).
  rewrite lor_disjoint_add by (apply N.mod_lt; discriminate).
  rewrite N.mul_comm. symmetry. apply N.div_mod. discriminate.
Qed.
Lemma bi_join : forall bi, N.lor (bi / 16 * 16) (bi mod 16) = bi.
Proof.
  intros. change (bi / 16 * 16) with (bi / 16 * 2 ^ 4).
  rewrite lor_disjoint_add by (apply N.mod_lt; discriminate).
  rewrite N.mul_comm. symmetry. apply N.div_mod. discriminate.
Qed.
Lemma b_low : forall hi lo, hi < 2 ^ 1 -> lo < 2 ^ 13 ->
  u32 (N.lor (u32 (hi * 2 ^ 13)) lo * 4) = (hi * 2 ^ 13 + lo) * 4.
Proof.
  intros hi lo H1 H2.
  rewrite (u32_small (hi * 2 ^ 13)) by (clear - H1; lia).
  rewrite lor_disjoint_add by assumption. apply u32_mul4. clear - H1 H2; lia.
Qed.

(** The B-form word from its parts, however ordered. *)
Definition blay (a bo bi bd aa lk : N) := [(6, a); (5, bo); (5, bi); (14, bd); (1, aa); (1, lk)].
Lemma bform_pack : forall bo bi bd aa lk, bform bo bi bd aa lk = pack (blay 16 bo bi bd (b1 aa) (b1 lk)).
Proof. intros. unfold bform, blay. cbn [pack wid]. clear. lia. Qed.
Lemma bo_pack : forall bo, bo < 2 ^ 5 -> bo_at bo = pack (blay 0 bo 0 0 0 0).
Proof. intros bo H. unfold bo_at, blay. rewrite u32_small by (clear - H; lia). cbn [pack wid]. clear; lia. Qed.
Lemma bi_pack : forall bi, bi < 2 ^ 5 -> bi_at bi = pack (blay 0 0 bi 0 0 0).
Proof. intros bi H. unfold bi_at, blay. rewrite u32_small by (clear - H; lia). cbn [pack wid]. clear; lia. Qed.
Ltac pk := rewrite pack_lor; [cbn [zipf blay]; rewrite ?N.lor_0_l, ?N.lor_0_r|reflexivity|unfold blay; fit|unfold blay; fit].

Lemma b_assemble : forall bo bi bd lk, bo < 2 ^ 5 -> bi < 2 ^ 5 -> bd < 2 ^ 14 -> forall aa,
  u32 (lors [pack (blay 16 0 0 0 0 0); pack (blay 0 0 0 bd 0 0); bo_at bo; bi_at bi;
             pack (blay 0 0 0 0 (b1 aa) 0); b1 lk]) = bform bo bi bd aa lk.
Proof.
  intros bo bi bd lk H1 H2 H3 aa. rewrite bo_pack, bi_pack by assumption.
  replace (b1 lk) with (pack (blay 0 0 0 0 0 (b1 lk))) at 1 by (unfold blay; cbn [pack wid]; clear; lia).
  unfold lors. cbn [fold_left]. rewrite N.lor_0_l.
  pk. pk. pk. pk. pk. rewrite bform_pack.
  apply u32_small.
  apply (pack_lt (blay 16 bo bi bd (b1 aa) (b1 lk))). unfold blay; fit.
Qed.

Theorem p10_b_rel_back : forall x0 x9 x14 bo bi bd lk iea,
  bo < 2 ^ 5 -> bi < 2 ^ 5 -> bd < 2 ^ 14 -> iea < 2 ^ 64 -> iea mod 4 = 0 ->
  insn_recode_p10 (p10_b_rel x0 x9 x14 bo bi bd lk iea) iea = bform bo bi bd false lk.
Proof.
  intros x0 x9 x14 bo bi bd lk iea Hbo Hbi Hbd Hi Ha.
  destruct (disp_back 16 bd iea) as [M1 [M2 [L [D [T4 TB]]]]];
    [split; discriminate|exact Hbd|exact Hi|exact Ha|].
  unfold p10_b_rel. set (t := target 16 (bd * 4) iea) in *. set (m := mode 16 t iea) in *.
  clearbody m t.
  assert (Hh : t / 2 ^ 15 mod 2 < 2 ^ 1) by (apply N.mod_lt; discriminate).
  assert (Ho : t / 4 mod 2 ^ 13 < 2 ^ 13) by (apply N.mod_lt; discriminate).
  destruct (p10_b_fields x0 lk x9 x14 m _ bo bi 1 _ M1 Hh Hbo Hbi eq_refl Ho)
    as [E1 [E2 [E3 [E4 [E5 [E6 [E7 [E8 E9]]]]]]]].
  unfold insn_recode_p10. rewrite E1, E2, E3, E4, E5, E6, E7, E8, E9. cbv zeta.
  apply N.eqb_neq in M2. rewrite M2. cbv iota beta.
  rewrite b_low by assumption.
  replace (t / 2 ^ 15) with (t / 4 / 2 ^ 13) by (rewrite N.div_div by discriminate; reflexivity).
  change (t / 4 / 2 ^ 13 mod 2) with (t / 4 / 2 ^ 13 mod 2 ^ 1).
  rewrite parts_join. change (13 + 1) with (16 - 2). rewrite div_mod_4 by (discriminate || assumption).
  rewrite L. change 0xfffc with (N.shiftl (N.ones (16 - 2)) 2). rewrite D, bo_join, bi_join.
  rewrite <- (b_assemble bo bi bd lk Hbo Hbi Hbd false).
  f_equal. unfold lors. cbn [fold_left b1].
  replace (bd * 4) with (pack (blay 0 0 0 bd 0 0)) by (unfold blay; cbn [pack wid]; clear; lia).
  change (pack (blay 0 0 0 0 0 0)) with 0. rewrite N.lor_0_r. reflexivity.
Qed.

(** The absolute B-form needs a condition bit below 16. *)
Theorem p10_b_abs_back : forall x0 x9 x14 bo bi bd lk iea,
  bo < 2 ^ 5 -> bi < 2 ^ 4 -> bd < 2 ^ 14 ->
  insn_recode_p10 (p10_b_abs x0 x9 x14 bo bi bd lk) iea = bform bo bi bd true lk.
Proof.
  intros x0 x9 x14 bo bi bd lk iea Hbo Hbi Hbd.
  assert (Hh : bd / 2 ^ 13 < 2 ^ 1) by (apply div_lt; [reflexivity|exact Hbd]).
  assert (Ho : bd mod 2 ^ 13 < 2 ^ 13) by (apply N.mod_lt; discriminate).
  assert (Hbi5 : bi < 2 ^ 5) by (clear - Hbi; lia).
  destruct (p10_b_fields x0 lk x9 x14 2 _ bo bi 1 _ eq_refl Hh Hbo Hbi5 eq_refl Ho)
    as [E1 [E2 [E3 [E4 [E5 [E6 [E7 [E8 E9]]]]]]]].
  unfold insn_recode_p10, p10_b_abs. rewrite E1, E2, E3, E4, E5, E6, E7, E8, E9. cbv zeta.
  change (2 =? 2) with true. cbv iota beta.
  rewrite b_low by assumption.
  rewrite (N.mul_comm (bd / 2 ^ 13)), <- N.div_mod by discriminate.
  rewrite bo_join, (N.div_small bi) by assumption. rewrite N.mod_small by assumption.
  rewrite N.mul_0_l, N.lor_0_l.
  rewrite <- (b_assemble bo bi bd lk Hbo Hbi5 Hbd true).
  f_equal. unfold lors. cbn [fold_left b1].
  replace (bd * 4) with (pack (blay 0 0 0 bd 0 0)) by (unfold blay; cbn [pack wid]; clear; lia).
  change (pack (blay 16 0 0 0 0 0)) with 0x40000000. change (pack (blay 0 0 0 0 1 0)) with 2.
  clear. rewrite !N.lor_0_l. rewrite <- !N.lor_assoc. f_equal.
  rewrite (N.lor_comm 2). rewrite <- !N.lor_assoc. f_equal. f_equal. rewrite (N.lor_comm (b1 lk)). reflexivity.
Qed.

(** The XL-form word from its parts. *)
Definition xlay (a bo bi r bh xo lk : N) := [(6, a); (5, bo); (5, bi); (3, r); (2, bh); (10, xo); (1, lk)].
Lemma xl_pack : forall xo bo bi bh lk, xlform xo bo bi bh lk = pack (xlay 19 bo bi 0 bh xo (b1 lk)).
Proof. intros. unfold xlform, xlay. cbn [pack wid]. clear. lia. Qed.
Lemma bo_xpack : forall bo, bo < 2 ^ 5 -> bo_at bo = pack (xlay 0 bo 0 0 0 0 0).
Proof. intros bo H. unfold bo_at, xlay. rewrite u32_small by (clear - H; lia). cbn [pack wid]. clear; lia. Qed.
Lemma bi_xpack : forall bi, bi < 2 ^ 5 -> bi_at bi = pack (xlay 0 0 bi 0 0 0 0).
Proof. intros bi H. unfold bi_at, xlay. rewrite u32_small by (clear - H; lia). cbn [pack wid]. clear; lia. Qed.
Lemma bh_xpack : forall bh, bh < 2 ^ 2 -> bh_at bh = pack (xlay 0 0 0 0 bh 0 0).
Proof. intros bh H. unfold bh_at, xlay. rewrite u32_small by (clear - H; lia). cbn [pack wid]. clear; lia. Qed.
Ltac pkx := rewrite pack_lor; [cbn [zipf xlay]; rewrite ?N.lor_0_l, ?N.lor_0_r|reflexivity|unfold xlay; fit|unfold xlay; fit].

Lemma xl_assemble : forall xo bo bi bh lk, xo < 2 ^ 10 -> bo < 2 ^ 5 -> bi < 2 ^ 5 -> bh < 2 ^ 2 ->
  lors [pack (xlay 19 0 0 0 0 xo 0); bo_at bo; bi_at bi; bh_at bh; b1 lk] = xlform xo bo bi bh lk.
Proof.
  intros xo bo bi bh lk H0 H1 H2 H3. rewrite bo_xpack, bi_xpack, bh_xpack by assumption.
  replace (b1 lk) with (pack (xlay 0 0 0 0 0 0 (b1 lk))) at 1 by (unfold xlay; cbn [pack wid]; clear; lia).
  unfold lors. cbn [fold_left]. rewrite N.lor_0_l.
  pkx. pkx. pkx. pkx. rewrite xl_pack. reflexivity.
Qed.

Lemma hint_eq : forall bo, bo < 2 ^ 5 ->
  (if N.land (bo / 2 * 2) 2 =? 0 then bo / 2 * 2 else N.lor (bo / 2 * 2) (bo mod 2)) = kept_bo bo.
Proof.
  intros bo H. unfold kept_bo. rewrite bo_join.
  replace (N.land (bo / 2 * 2) 2) with (b1 (N.odd (bo / 2)) * 2); [destruct (N.odd (bo / 2)); reflexivity|].
  set (q := bo / 2). clearbody q. apply N.bits_inj. intros i.
  rewrite N.land_spec. change 2 with (2 ^ 1) at 1 2. rewrite N.mul_comm, (N.mul_comm q).
  rewrite <- !(N.mul_comm (2 ^ 1)), <- !N.shiftl_mul_pow2 || idtac.
  destruct (N.eq_dec i 1) as [->|Hi].
  - destruct (N.odd q) eqn:O; destruct q as [|[q|q|]]; try discriminate; reflexivity.
  - replace (N.testbit 2 i) with false.
    + rewrite andb_false_r. destruct (N.odd q); cbn [b1].
      * change (2 ^ 1 * 1) with 2. destruct i as [|[i|i|]]; try reflexivity. contradiction.
      * apply N.bits_0.
    + destruct i as [|[i|i|]]; try reflexivity. contradiction.
Qed.
Lemma kept_lt : forall bo, bo < 2 ^ 5 -> kept_bo bo < 2 ^ 5.
Proof.
  intros bo H. unfold kept_bo. destruct (N.odd (bo / 2)); [assumption|].
  rewrite N.mul_comm. pose proof (N.mul_div_le bo 2 ltac:(discriminate)) as G.
  set (q := 2 * (bo / 2)) in *. clearbody q. clear - G H. lia.
Qed.

Section P10XL.
  Variables (x0 lk x4 x9 x14 tar : bool) (x23 x19 x23_31 bo bi bh type : N).
  Hypotheses (Hx23 : x23 < 2 ^ 2) (Hx19 : x19 < 2 ^ 1) (Hx31 : x23_31 < 2 ^ 9)
    (Hbo : bo < 2 ^ 5) (Hbi : bi < 2 ^ 5) (Hbh : bh < 2 ^ 2) (Hty : type < 2 ^ 2).
  Let v := p10_xl x0 x23 x4 x9 x14 x19 x23_31 type bo bi bh lk tar.
  Let l := [(1, b1 x0); (1, b1 lk); (2, x23); (1, b1 x4); (4, bo / 2); (1, b1 x9); (1, bi / 16);
            (2, type); (1, bo mod 2); (1, b1 x14); (4, bi mod 16); (1, x19); (1, b1 tar); (2, bh); (9, x23_31)].
  Lemma p10_xl_pack : fits l /\ v = pack l.
  Proof.
    split.
    - unfold l. fit.
      + apply div_lt; [reflexivity|exact Hbo].
      + apply div_lt; [reflexivity|exact Hbi].
      + apply N.mod_lt. discriminate.
      + apply N.mod_lt. discriminate.
    - unfold v, p10_xl, p10_b, l; cbn [pack wid].
      set (a := bo / 2). set (b := bo mod 2). set (c := bi / 16). set (d := bi mod 16).
      clearbody a b c d. clear. lia.
  Qed.
  Lemma p10_xl_fields : bits32 v 2 3 = x23 /\ bits32 v 11 12 = type /\ bits32 v 1 1 = b1 lk
    /\ bits32 v 5 8 = bo / 2 /\ bits32 v 10 10 = bi / 16 /\ bits32 v 13 13 = bo mod 2
    /\ bits32 v 15 18 = bi mod 16 /\ bits32 v 21 22 = bh /\ N.testbit v 11 = tar /\ v < 2 ^ 32.
  Proof.
    destruct p10_xl_pack as [F E]. rewrite E. clearbody v. clear E.
    split; [apply (pack_bits l 2 2 3 2 _ F); reflexivity || discriminate|].
    split; [apply (pack_bits l 7 11 12 2 _ F); reflexivity || discriminate|].
    split; [apply (pack_bits l 1 1 1 1 _ F); reflexivity || discriminate|].
    split; [apply (pack_bits l 4 5 8 4 _ F); reflexivity || discriminate|].
    split; [apply (pack_bits l 6 10 10 1 _ F); reflexivity || discriminate|].
    split; [apply (pack_bits l 8 13 13 1 _ F); reflexivity || discriminate|].
    split; [apply (pack_bits l 10 15 18 4 _ F); reflexivity || discriminate|].
    split; [apply (pack_bits l 13 21 22 2 _ F); reflexivity || discriminate|].
    split; [|apply (pack_lt l F)].
    rewrite testbit_div_mod. change 11 with (wid (skipn 13 l)).
    change 2 with (2 ^ 1) at 2. rewrite (pack_nth l 12 1 (b1 tar) F eq_refl).
    destruct tar; reflexivity.
  Qed.
End P10XL.

Lemma land_pow_bit : forall v k, (N.land v (2 ^ k) =? 0) = negb (N.testbit v k).
Proof.
  intros v k. destruct (N.testbit v k) eqn:E.
  - apply N.eqb_neq. intros Z.
    assert (T : N.testbit (N.land v (2 ^ k)) k = false) by (rewrite Z; apply N.bits_0).
    rewrite N.land_spec, E, N.pow2_bits_true in T. discriminate.
  - apply N.eqb_eq. apply N.bits_inj. intros i. rewrite N.bits_0, N.land_spec.
    destruct (N.eq_dec k i) as [->|Hi]; [rewrite E; reflexivity|].
    rewrite N.pow2_bits_false by assumption. apply andb_false_r.
Qed.


Theorem p10_xl_back : forall x0 x23 x4 x9 x14 x19 x23_31 type bo bi bh lk tar iea,
  x23 < 2 ^ 2 -> x19 < 2 ^ 1 -> x23_31 < 2 ^ 9 -> bo < 2 ^ 5 -> bi < 2 ^ 5 -> bh < 2 ^ 2 ->
  type = 2 \/ type = 3 ->
  let v := p10_xl x0 x23 x4 x9 x14 x19 x23_31 type bo bi bh lk tar in
  (type = 3 -> ~ In (MAJOR_OPCODE v) [17; 19; 31]) ->
  insn_recode_p10 v iea = xlform (xl_op type tar) (kept_bo bo) bi bh lk.
Proof.
  intros x0 x23 x4 x9 x14 x19 x23_31 type bo bi bh lk tar iea H1 H2 H3 Hbo Hbi Hbh Ht v HM.
  assert (Ht2 : type < 2 ^ 2) by (destruct Ht; subst; reflexivity).
  destruct (p10_xl_fields x0 lk x4 x9 x14 tar x23 x19 x23_31 bo bi bh type H1 H2 H3 Hbo Hbi Hbh Ht2)
    as [E1 [E2 [E3 [E4 [E5 [E6 [E7 [E8 [E9 _]]]]]]]]].
  fold v in E1, E2, E3, E4, E5, E6, E7, E8, E9.
  assert (KL := kept_lt bo Hbo).
  unfold insn_recode_p10. rewrite E1, E2, E3, E4, E5, E6, E7, E8. cbv zeta.
  rewrite hint_eq, bi_join by assumption.
  destruct Ht as [-> | ->]; cbv iota beta.
  - change (xl_op 2 tar) with 16. rewrite <- xl_assemble by (assumption || reflexivity). reflexivity.
  - specialize (HM eq_refl). cbn [In] in HM.
    destruct (N.eqb_spec (MAJOR_OPCODE v) 17) as [Q|_]; [exfalso; apply HM; left; congruence|].
    destruct (N.eqb_spec (MAJOR_OPCODE v) 19) as [Q|_]; [exfalso; apply HM; right; left; congruence|].
    destruct (N.eqb_spec (MAJOR_OPCODE v) 31) as [Q|_]; [exfalso; apply HM; right; right; left; congruence|].
    rewrite land_pow_bit, E9.
    change 0x4c000420 with (pack (xlay 19 0 0 0 0 528 0)).
    rewrite xl_assemble by (assumption || reflexivity).
    change (xl_op 3 tar) with (if tar then 560 else 528).
    destruct tar; cbn [negb]; [|reflexivity].
    rewrite !xl_pack. change 0x40 with (pack (xlay 0 0 0 0 0 32 0)). pkx. reflexivity.
Qed.

(** System calls and returns, moves to the machine state register. *)
Definition slay (a b c d : N) := [(11, a); (2, b); (2, c); (17, d)].
Theorem p10_system_back : forall hi lo j iea, hi < 2 ^ 11 -> lo < 2 ^ 17 -> j < 2 ^ 2 ->
  let w := hi * 2 ^ 21 + lo in
  In (MAJOR_OPCODE w) [17; 31] \/ MAJOR_OPCODE w = 19 /\ In (MINOR_OPCODE w) [82; 18; 274; 370; 146] ->
  insn_recode_p10 (w + (3 * 4 + j) * 2 ^ 17) iea = w.
Proof.
  intros hi lo j iea Hh Hl Hj w HM.
  set (v := w + (3 * 4 + j) * 2 ^ 17).
  assert (E : v = pack (slay hi 3 j lo)) by (unfold v, w, slay; cbn [pack wid]; clear; lia).
  assert (W : w = pack (slay hi 0 0 lo)) by (unfold w, slay; cbn [pack wid]; clear; lia).
  assert (F : fits (slay hi 3 j lo)) by (unfold slay; fit).
  assert (G : fits (slay hi 0 0 lo)) by (unfold slay; fit).
  assert (E2 : bits32 v 11 12 = 3) by (rewrite E; apply (pack_bits _ 1 11 12 2 _ F); reflexivity || discriminate).
  assert (C : N.ldiff v 0x1e0000 = w).
  { rewrite E, W. change 0x1e0000 with (pack (slay 0 3 3 0)).
    apply N.bits_inj. intros i. rewrite N.ldiff_spec.
    unfold slay, pack, wid. change (2 + (2 + (17 + 0))) with 21. change (2 + (17 + 0)) with 19.
    change (17 + 0) with 17. change (2 ^ 0) with 1. rewrite !N.mul_1_r, !N.add_0_r.
    assert (forall a b, a < 2 ^ 2 -> b < 2 ^ 17 -> a * 2 ^ 17 + b < 2 ^ 19) as B1 by (clear; intros; lia).
    assert (forall a b, a < 2 ^ 2 -> b < 2 ^ 19 -> a * 2 ^ 19 + b < 2 ^ 21) as B2 by (clear; intros; lia).
    rewrite !testbit_two by (first [assumption | reflexivity | apply B1; (assumption || reflexivity)
      | apply B2; [reflexivity|apply B1; (assumption || reflexivity)]]).
    destruct (N.ltb_spec i 21); [destruct (N.ltb_spec i 19); [destruct (N.ltb_spec i 17)|]|].
    - rewrite <- N.shiftl_mul_pow2, N.shiftl_spec_low by assumption. apply andb_true_r.
    - rewrite <- N.shiftl_mul_pow2, N.shiftl_spec_high' by assumption.
      rewrite N.bits_0. destruct (N.ltb_spec (i - 17) 2) as [Q|Q].
      + assert (i - 17 = 0 \/ i - 17 = 1) as [-> | ->] by (clear - Q; lia); apply andb_false_r.
      + rewrite (testbit_above j 2) by assumption. reflexivity.
    - rewrite N.bits_0.
      assert (i - 19 = 0 \/ i - 19 = 1) as [-> | ->] by (clear - H H0; lia); reflexivity.
    - rewrite N.bits_0. apply andb_true_r. }
  assert (MJ : MAJOR_OPCODE v = MAJOR_OPCODE w).
  { unfold MAJOR_OPCODE. rewrite !N.shiftr_div_pow2. f_equal. unfold v, w.
    change (2 ^ 26) with (2 ^ 21 * 2 ^ 5). rewrite <- !N.div_div by discriminate.
    f_equal. rewrite N.div_add_l by discriminate. rewrite <- N.add_assoc, N.div_add_l by discriminate.
    f_equal. rewrite !N.div_small; [reflexivity|clear - Hl; lia|clear - Hl Hj; lia]. }
  assert (MN : MINOR_OPCODE v = MINOR_OPCODE w).
  { unfold MINOR_OPCODE. change 31 with (N.ones 5). rewrite !land_ones_mod, !N.shiftr_div_pow2.
    unfold v. set (k := 3 * 4 + j).
    replace (w + k * 2 ^ 17) with (k * 2 ^ 11 * 2 ^ 5 * 2 ^ 1 + w) by (clear; lia).
    rewrite N.div_add_l by discriminate. rewrite N.add_comm, N.mod_add by discriminate. reflexivity. }
  unfold insn_recode_p10. rewrite E2. cbv zeta iota beta. rewrite MJ, MN, C.
  destruct HM as [HM|[HM HN]].
  - cbn [In] in HM. destruct HM as [<- | [<- | []]]; reflexivity.
  - rewrite HM. change (19 =? 17) with false. change (19 =? 19) with true. cbv iota.
    replace (existsb (N.eqb (MINOR_OPCODE w)) [82; 18; 274; 370; 146]) with true; [reflexivity|].
    symmetry. apply existsb_exists. exists (MINOR_OPCODE w). split; [assumption|apply N.eqb_refl].
Qed.

(** ** Earlier processors *)
Lemma pack_field : forall l n w x k, fits l -> nth_error l n = Some (w, x) -> wid (skipn (S n) l) = k ->
  N.land (N.shiftr (pack l) k) (N.ones w) = x.
Proof. intros l n w x k F E <-. rewrite land_ones_mod, N.shiftr_div_pow2. now apply pack_nth. Qed.
Lemma land_full : forall x k m, m = N.ones k -> x < 2 ^ k -> N.land x m = x.
Proof. intros x k m -> H. rewrite land_ones_mod. now apply N.mod_small. Qed.

Section P8.
  Variables (x0 lk : bool).
  (** The word after the link bit is moved to its place. *)
  Lemma p8_op : forall type m y z, type < 2 ^ 2 -> m < 2 ^ 2 -> y < 2 ^ 25 -> z < 2 ^ 1 ->
    let op1 := pack [(1, b1 x0); (1, b1 lk); (2, type); (2, m); (25, y); (1, z)] in
    N.shiftr (N.land op1 0x40000000) 30 = b1 lk
    /\ N.lor (N.land op1 0xbffffffe) (b1 lk)
       = pack [(1, b1 x0); (1, 0); (2, type); (2, m); (25, y); (1, b1 lk)].
  Proof.
    intros type m y z H1 H2 H3 H4 op1.
    assert (F : fits [(1, b1 x0); (1, b1 lk); (2, type); (2, m); (25, y); (1, z)]) by fit.
    split.
    - change 0x40000000 with (N.shiftl (N.ones 1) 30). rewrite land_field.
      rewrite N.shiftr_div_pow2, N.div_mul by discriminate.
      apply (pack_nth _ 1 1 (b1 lk) F eq_refl).
    - change 0xbffffffe with (pack [(1, 1); (1, 0); (2, 3); (2, 3); (25, 33554431); (1, 0)]).
      unfold op1. rewrite pack_land by (reflexivity || assumption || fit). cbn [zipf].
      rewrite !N.land_0_r. rewrite (land_full (b1 x0) 1 1 eq_refl) by apply b1_pow.
      rewrite (land_full type 2 3 eq_refl), (land_full m 2 3 eq_refl), (land_full y 25 33554431 eq_refl) by assumption.
      replace (b1 lk) with (pack [(1, 0); (1, 0); (2, 0); (2, 0); (25, 0); (1, b1 lk)]) at 1
        by (cbn [pack wid]; clear; lia).
      rewrite pack_lor by (reflexivity || fit). cbn [zipf]. rewrite !N.lor_0_r, N.lor_0_l. reflexivity.
  Qed.

  (** The fields of the other forms moved up by one bit. *)
  Lemma p8_move : forall type m top bb r, type < 2 ^ 2 -> m < 2 ^ 2 -> top < 2 ^ 1 -> bb < 2 ^ 10 -> r < 2 ^ 15 ->
    let v := pack [(1, b1 x0); (1, b1 lk); (2, type); (2, m); (1, top); (10, bb); (15, r)] in
    lors [N.land v 0xfc007fff; N.land (u32 (v * 2)) 0x03ff0000; N.land (N.shiftr v 10) 0x8000]
    = pack [(1, b1 x0); (1, b1 lk); (2, type); (2, m); (10, bb); (1, top); (15, r)].
  Proof.
    intros type m top bb r H1 H2 H3 H4 H5 v.
    assert (F : fits [(1, b1 x0); (1, b1 lk); (2, type); (2, m); (1, top); (10, bb); (15, r)]) by fit.
    assert (A : N.land v 0xfc007fff
      = pack [(1, b1 x0); (1, b1 lk); (2, type); (2, m); (10, 0); (1, 0); (15, r)]).
    { change 0xfc007fff with (pack [(1, 1); (1, 1); (2, 3); (2, 3); (1, 0); (10, 0); (15, 32767)]).
      unfold v. rewrite pack_land by (reflexivity || assumption || fit). cbn [zipf].
      rewrite !N.land_0_r. rewrite (land_full (b1 x0) 1 1 eq_refl), (land_full (b1 lk) 1 1 eq_refl) by apply b1_pow.
      rewrite (land_full type 2 3 eq_refl), (land_full m 2 3 eq_refl), (land_full r 15 32767 eq_refl) by assumption.
      cbn [pack wid]. clear. lia. }
    assert (B : N.land (u32 (v * 2)) 0x03ff0000
      = pack [(1, 0); (1, 0); (2, 0); (2, 0); (10, bb); (1, 0); (15, 0)]).
    { change 0x03ff0000 with (N.shiftl (N.ones 10) 16). rewrite land_field.
      assert (E : u32 (v * 2) / 2 ^ 16 mod 2 ^ 10 = bb).
      { unfold u32, w32. change 4294967296 with (2 ^ 31 * 2). rewrite N.mul_mod_distr_r by discriminate.
        change (2 ^ 16) with (2 * 2 ^ 15). rewrite <- N.div_div, N.div_mul by discriminate.
        rewrite <- (pack_nth _ 5 10 bb F eq_refl). fold v.
        change (wid (skipn 6 _)) with 15. cbn [skipn wid].
        change (2 ^ 31) with (2 ^ 15 * (2 ^ 10 * 2 ^ 6)). rewrite N.mod_mul_r by discriminate.
        rewrite (N.mul_comm (2 ^ 15)), N.div_add by discriminate.
        rewrite (N.div_small (v mod 2 ^ 15)) by (apply N.mod_lt; discriminate). rewrite N.add_0_l.
        rewrite N.mod_mul_r by discriminate. rewrite (N.mul_comm (2 ^ 10)), N.mod_add by discriminate.
        rewrite N.mod_mod by discriminate. reflexivity. }
      rewrite E. cbn [pack wid]. clear. lia. }
    assert (C : N.land (N.shiftr v 10) 0x8000
      = pack [(1, 0); (1, 0); (2, 0); (2, 0); (10, 0); (1, top); (15, 0)]).
    { change 0x8000 with (N.shiftl (N.ones 1) 15). rewrite land_field, N.shiftr_div_pow2.
      rewrite N.div_div by discriminate. change (2 ^ 10 * 2 ^ 15) with (2 ^ 25).
      pose proof (pack_nth _ 4 1 top F eq_refl) as T. fold v in T. cbn [skipn wid] in T.
      change (10 + (15 + 0)) with 25 in T. rewrite T. cbn [pack wid]. clear. lia. }
    rewrite A, B, C. unfold lors. cbn [fold_left]. rewrite N.lor_0_l.
    rewrite pack_lor by (reflexivity || fit). cbn [zipf]. rewrite !N.lor_0_r, !N.lor_0_l.
    rewrite pack_lor by (reflexivity || fit). cbn [zipf]. rewrite !N.lor_0_r, !N.lor_0_l. reflexivity.
  Qed.

  (** I-form *)
  Lemma p8_i_pack : forall m low x31, m < 2 ^ 2 -> low < 2 ^ 24 ->
    p8_i x0 lk m low x31 = pack [(1, b1 x0); (1, b1 lk); (2, 0); (2, m); (25, low * 2 + 1); (1, b1 x31)].
  Proof. intros. unfold p8_i. cbn [pack wid]. clear. lia. Qed.
  Lemma p8_i_recode : forall m low x31 iea, m < 2 ^ 2 -> low < 2 ^ 24 ->
    insn_recode (p8_i x0 lk m low x31) iea
    = if m =? 2 then iform low true lk
      else lors [0x48000000; N.land (sub64 (N.lor (low * 4) (region m 26 iea)) iea) 0x03fffffc; b1 lk].
  Proof.
    intros m low x31 iea Hm Hl. rewrite p8_i_pack by assumption.
    set (v := pack _).
    assert (F : fits [(1, b1 x0); (1, b1 lk); (2, 0); (2, m); (25, low * 2 + 1); (1, b1 x31)])
      by (fit; clear - Hl; lia).
    assert (T : N.land (N.shiftr v 28) 3 = 0) by (apply (pack_field _ 2 2 0 28 F eq_refl eq_refl)).
    assert (M : N.land (N.shiftr v 26) 3 = m) by (apply (pack_field _ 3 2 m 26 F eq_refl eq_refl)).
    assert (B : (N.land v 2 =? 0) = false).
    { change 2 with (2 ^ 1) at 1. rewrite land_pow_bit, testbit_div_mod.
      replace (v / 2 ^ 1 mod 2) with 1; [reflexivity|].
      pose proof (pack_nth _ 4 25 _ F eq_refl) as Q. fold v in Q. cbn [skipn wid] in Q.
      change (1 + 0) with 1 in Q. set (u := v / 2 ^ 1) in *. clearbody u.
      change (2 ^ 25) with (2 * 2 ^ 24) in Q. rewrite N.mod_mul_r in Q by discriminate.
      set (a := u mod 2) in *. set (b := (u / 2) mod 2 ^ 24) in *.
      assert (a < 2) by (apply N.mod_lt; discriminate). clearbody a b. clear - Q H. lia. }
    unfold insn_recode. rewrite T, M, B. change (0 =? 0) with true. cbn [andb]. cbv zeta.
    change (0 =? 0) with true. cbv iota.
    destruct (p8_op 0 m (low * 2 + 1) (b1 x31)) as [L O];
      [reflexivity|assumption|clear - Hl; lia|apply b1_pow|]. fold v in L, O.
    rewrite L, O. clear L O T M B.
    assert (G : fits [(6, b1 x0 * 32 + m); (24, low); (1, 1); (1, b1 lk)]).
    { fit. destruct x0; clear - Hm; cbn [b1]; lia. }
    assert (P : pack [(1, b1 x0); (1, 0); (2, 0); (2, m); (25, low * 2 + 1); (1, b1 lk)]
      = pack [(6, b1 x0 * 32 + m); (24, low); (1, 1); (1, b1 lk)]) by (cbn [pack wid]; clear; lia).
    rewrite P. clear P v F.
    destruct (m =? 2).
    - change 0x03ffffff with (pack [(6, 0); (24, 16777215); (1, 1); (1, 1)]).
      rewrite pack_land by (reflexivity || assumption || fit). cbn [zipf].
      rewrite N.land_0_r, (land_full low 24 16777215 eq_refl), (land_full (b1 lk) 1 1 eq_refl) by (assumption || apply b1_pow).
      unfold lors. cbn [fold_left]. rewrite N.lor_0_l.
      change 0x48000000 with (pack [(6, 18); (24, 0); (1, 0); (1, 0)]).
      rewrite pack_lor by (reflexivity || fit). cbn [zipf].
      change (N.land 1 1) with 1. change (N.lor 0 1) with 1. rewrite !N.lor_0_l, !N.lor_0_r.
      change 2 with (pack [(6, 0); (24, 0); (1, 1); (1, 0)]).
      rewrite pack_lor by (reflexivity || fit). cbn [zipf]. rewrite !N.lor_0_r.
      unfold iform. cbn [pack wid b1]. change (N.lor 1 1) with 1. clear. lia.
    - replace (N.land (pack [(6, b1 x0 * 32 + m); (24, low); (1, 1); (1, b1 lk)]) 0x03fffffc) with (low * 4).
      replace (N.land (pack [(6, b1 x0 * 32 + m); (24, low); (1, 1); (1, b1 lk)]) 1) with (b1 lk).
      reflexivity.
      + match goal with |- context [N.land ?x 1] => change (N.land x 1) with (N.land x (pack [(6, 0); (24, 0); (1, 0); (1, 1)])) end.
        rewrite pack_land by (reflexivity || assumption || fit). cbn [zipf]. rewrite !N.land_0_r.
        rewrite (land_full (b1 lk) 1 1 eq_refl) by apply b1_pow. cbn [pack wid]. clear. lia.
      + change 0x03fffffc with (pack [(6, 0); (24, 16777215); (1, 0); (1, 0)]).
        rewrite pack_land by (reflexivity || assumption || fit). cbn [zipf]. rewrite !N.land_0_r.
        rewrite (land_full low 24 16777215 eq_refl) by assumption. cbn [pack wid]. clear. lia.
  Qed.

  (** B-form *)
  Lemma p8_b_pack : forall type m top bo bi low x30 x31,
    p8_b x0 lk type m top bo bi low x30 x31
    = pack [(1, b1 x0); (1, b1 lk); (2, type); (2, m); (1, top); (10, bo * 32 + bi);
            (15, low * 4 + b1 x30 * 2 + b1 x31)].
  Proof. intros. unfold p8_b. cbn [pack wid]. clear. lia. Qed.
  Lemma p8_b_recode : forall type m top bo bi low x30 x31 iea,
    p8_b_type type x30 -> m < 2 ^ 2 -> top < 2 ^ 1 -> bo < 2 ^ 5 -> bi < 2 ^ 5 -> low < 2 ^ 13 ->
    insn_recode (p8_b x0 lk type m top bo bi low x30 x31) iea
    = if m =? 2 then bform bo bi (top * 2 ^ 13 + low) true lk
      else lors [0x40000000;
                 N.land (sub64 (N.lor ((top * 2 ^ 13 + low) * 4) (region m 16 iea)) iea) 0xfffc;
                 pack (blay 0 bo bi 0 0 (b1 lk))].
  Proof.
    intros type m top bo bi low x30 x31 iea Ht Hm Htop Hbo Hbi Hl. rewrite p8_b_pack.
    set (bb := bo * 32 + bi). set (r := low * 4 + b1 x30 * 2 + b1 x31).
    assert (Hbb : bb < 2 ^ 10) by (unfold bb; clear - Hbo Hbi; lia).
    assert (Hr : r < 2 ^ 15) by (unfold r; destruct x30, x31; clear - Hl; cbn [b1]; lia).
    assert (Ht2 : type < 2 ^ 2) by (destruct Ht as [[-> _] | ->]; reflexivity).
    set (v := pack _).
    assert (F : fits [(1, b1 x0); (1, b1 lk); (2, type); (2, m); (1, top); (10, bb); (15, r)]) by fit.
    assert (T : N.land (N.shiftr v 28) 3 = type) by (apply (pack_field _ 2 2 _ 28 F eq_refl eq_refl)).
    assert (M : N.land (N.shiftr v 26) 3 = m) by (apply (pack_field _ 3 2 m 26 F eq_refl eq_refl)).
    assert (B : N.testbit v 1 = x30).
    { assert (E : v = pack [(1, b1 x0); (1, b1 lk); (2, type); (2, m); (1, top); (10, bb); (13, low); (1, b1 x30); (1, b1 x31)])
        by (unfold v, r; cbn [pack wid]; clear; lia).
      assert (F' : fits [(1, b1 x0); (1, b1 lk); (2, type); (2, m); (1, top); (10, bb); (13, low); (1, b1 x30); (1, b1 x31)]) by fit.
      rewrite testbit_div_mod, E.
      pose proof (pack_nth _ 7 1 _ F' eq_refl) as Q. cbn [skipn] in Q. change (wid [(1, b1 x31)]) with 1 in Q.
      change (2 ^ 1) with 2 in *. rewrite Q. destruct x30; reflexivity. }
    assert (TY : (if (type =? 0) && (N.land v 2 =? 0) then 1 else type) = 1).
    { change 2 with (2 ^ 1) at 1. rewrite land_pow_bit, B.
      destruct Ht as [[-> ->] | ->]; reflexivity. }
    unfold insn_recode. rewrite T, M, TY. cbv zeta. change (1 =? 0) with false. cbv iota.
    unfold v. rewrite p8_move by assumption. fold v. clear T M B TY.
    replace (pack [(1, b1 x0); (1, b1 lk); (2, type); (2, m); (10, bb); (1, top); (15, r)])
      with (pack [(1, b1 x0); (1, b1 lk); (2, type); (2, m);
                  (25, bb * 2 ^ 15 + top * 2 ^ 14 + low * 2 + b1 x30); (1, b1 x31)])
      by (unfold r; cbn [pack wid]; clear; lia).
    destruct (p8_op type m (bb * 2 ^ 15 + top * 2 ^ 14 + low * 2 + b1 x30) (b1 x31)) as [L O];
      [assumption|assumption|destruct x30; clear - Hbb Htop Hl; cbn [b1]; lia|apply b1_pow|].
    rewrite L, O. clear L O.
    set (bd := top * 2 ^ 13 + low). assert (Hbd : bd < 2 ^ 14) by (unfold bd; clear - Htop Hl; lia).
    set (tp := b1 x0 * 32 + type * 4 + m).
    assert (Htp : tp < 2 ^ 6) by (unfold tp; destruct x0; clear - Ht2 Hm; cbn [b1]; lia).
    replace (pack [(1, b1 x0); (1, 0); (2, type); (2, m); (25, bb * 2 ^ 15 + top * 2 ^ 14 + low * 2 + b1 x30); (1, b1 lk)])
      with (pack (blay tp bo bi bd (b1 x30) (b1 lk)))
      by (unfold blay, tp, bd, bb; cbn [pack wid]; clear; lia).
    assert (G : fits (blay tp bo bi bd (b1 x30) (b1 lk))) by (unfold blay; fit).
    clearbody tp bd.
    destruct (m =? 2).
    - change 0x03ffffff with (pack (blay 0 31 31 16383 1 1)).
      rewrite pack_land by (reflexivity || assumption || (unfold blay; fit)). cbn [zipf blay].
      rewrite N.land_0_r, (land_full bo 5 31 eq_refl), (land_full bi 5 31 eq_refl), (land_full bd 14 16383 eq_refl),
        (land_full (b1 x30) 1 1 eq_refl), (land_full (b1 lk) 1 1 eq_refl) by (assumption || apply b1_pow).
      change 0x40000002 with (pack (blay 16 0 0 0 1 0)).
      unfold blay at 1. pk. rewrite bform_pack. unfold blay.
      replace (N.lor 1 (b1 x30)) with 1 by (destruct x30; reflexivity). reflexivity.
    - replace (N.land (pack (blay tp bo bi bd (b1 x30) (b1 lk))) 0xfffc) with (bd * 4).
      replace (N.land (pack (blay tp bo bi bd (b1 x30) (b1 lk))) 0x03ff0001) with (pack (blay 0 bo bi 0 0 (b1 lk))).
      reflexivity.
      + change 0x03ff0001 with (pack (blay 0 31 31 0 0 1)).
        rewrite pack_land by (reflexivity || assumption || (unfold blay; fit)). cbn [zipf blay].
        rewrite !N.land_0_r, (land_full bo 5 31 eq_refl), (land_full bi 5 31 eq_refl), (land_full (b1 lk) 1 1 eq_refl) by (assumption || apply b1_pow).
        reflexivity.
      + change 0xfffc with (pack (blay 0 0 0 16383 0 0)).
        rewrite pack_land by (reflexivity || assumption || (unfold blay; fit)). cbn [zipf blay].
        rewrite !N.land_0_r, (land_full bd 14 16383 eq_refl) by assumption.
        unfold blay. cbn [pack wid]. clear. lia.
  Qed.

  (** XL-form *)
  Lemma p8_xl_pack : forall type m x6 x17 tar bo bi bh x21,
    p8_xl x0 type m x6 x17 tar bo bi bh x21 lk
    = pack [(1, b1 x0); (1, b1 lk); (2, type); (2, m); (1, x6); (10, bo * 32 + bi);
            (15, b1 x17 * 2 ^ 14 + b1 tar * 2 ^ 13 + bh * 2 ^ 11 + x21)].
  Proof. intros. unfold p8_xl. cbn [pack wid]. clear. lia. Qed.
  Lemma p8_xl_recode : forall type m x6 x17 tar bo bi bh x21 iea,
    type = 2 \/ type = 3 -> m < 2 ^ 2 -> x6 < 2 ^ 1 -> bo < 2 ^ 5 -> bi < 2 ^ 5 -> bh < 2 ^ 2 -> x21 < 2 ^ 11 ->
    insn_recode (p8_xl x0 type m x6 x17 tar bo bi bh x21 lk) iea
    = pack (xlay 19 bo bi (x6 * 4 + b1 x17 * 2 + b1 tar) bh (xl_op type tar) (b1 lk)).
  Proof.
    intros type m x6 x17 tar bo bi bh x21 iea Ht Hm H6 Hbo Hbi Hbh H21. rewrite p8_xl_pack.
    set (bb := bo * 32 + bi). set (r := b1 x17 * 2 ^ 14 + b1 tar * 2 ^ 13 + bh * 2 ^ 11 + x21).
    assert (Hbb : bb < 2 ^ 10) by (unfold bb; clear - Hbo Hbi; lia).
    assert (Hr : r < 2 ^ 15) by (unfold r; destruct x17, tar; clear - Hbh H21; cbn [b1]; lia).
    assert (Ht2 : type < 2 ^ 2) by (destruct Ht as [-> | ->]; reflexivity).
    set (v := pack _).
    assert (F : fits [(1, b1 x0); (1, b1 lk); (2, type); (2, m); (1, x6); (10, bb); (15, r)]) by fit.
    assert (T : N.land (N.shiftr v 28) 3 = type) by (apply (pack_field _ 2 2 _ 28 F eq_refl eq_refl)).
    assert (M : N.land (N.shiftr v 26) 3 = m) by (apply (pack_field _ 3 2 m 26 F eq_refl eq_refl)).
    assert (TY : (if (type =? 0) && (N.land v 2 =? 0) then 1 else type) = type)
      by (destruct Ht as [-> | ->]; reflexivity).
    unfold insn_recode. rewrite T, M, TY. cbv zeta.
    replace (type =? 0) with false by (destruct Ht as [-> | ->]; reflexivity). cbv iota.
    unfold v. rewrite p8_move by assumption. fold v. clear T M TY.
    set (q := x21 / 2). set (z := x21 mod 2).
    assert (Ex : x21 = q * 2 + z) by (unfold q, z; rewrite N.mul_comm; apply N.div_mod; discriminate).
    assert (Hz : z < 2 ^ 1) by (apply N.mod_lt; discriminate).
    assert (Hq : q < 2 ^ 10) by (apply div_lt; [reflexivity|exact H21]).
    clearbody q z.
    set (y := bb * 2 ^ 15 + x6 * 2 ^ 14 + b1 x17 * 2 ^ 13 + b1 tar * 2 ^ 12 + bh * 2 ^ 10 + q).
    replace (pack [(1, b1 x0); (1, b1 lk); (2, type); (2, m); (10, bb); (1, x6); (15, r)])
      with (pack [(1, b1 x0); (1, b1 lk); (2, type); (2, m); (25, y); (1, z)])
      by (unfold y, r; rewrite Ex; cbn [pack wid]; clear; lia).
    destruct (p8_op type m y z) as [L O];
      [assumption|assumption|unfold y; destruct x17, tar; clear - Hbb H6 Hbh Hq; cbn [b1]; lia|assumption|].
    rewrite L, O. clear L O.
    set (tp := b1 x0 * 32 + type * 4 + m).
    assert (Htp : tp < 2 ^ 6) by (unfold tp; destruct x0; clear - Ht2 Hm; cbn [b1]; lia).
    set (w3 := x6 * 4 + b1 x17 * 2 + b1 tar).
    assert (Hw : w3 < 2 ^ 3) by (unfold w3; destruct x17, tar; clear - H6; cbn [b1]; lia).
    replace (pack [(1, b1 x0); (1, 0); (2, type); (2, m); (25, y); (1, b1 lk)])
      with (pack (xlay tp bo bi w3 bh q (b1 lk)))
      by (unfold xlay, tp, w3, y, bb; cbn [pack wid]; clear; lia).
    assert (G : fits (xlay tp bo bi w3 bh q (b1 lk))) by (unfold xlay; fit).
    assert (K : N.land (pack (xlay tp bo bi w3 bh q (b1 lk))) 0x03fff801 = pack (xlay 0 bo bi w3 bh 0 (b1 lk))).
    { change 0x03fff801 with (pack (xlay 0 31 31 7 3 0 1)).
      rewrite pack_land by (reflexivity || assumption || (unfold xlay; fit)). cbn [zipf xlay].
      rewrite !N.land_0_r, (land_full bo 5 31 eq_refl), (land_full bi 5 31 eq_refl), (land_full w3 3 7 eq_refl),
        (land_full bh 2 3 eq_refl), (land_full (b1 lk) 1 1 eq_refl) by (assumption || apply b1_pow). reflexivity. }
    rewrite K.
    assert (TB : (N.land (pack (xlay tp bo bi w3 bh q (b1 lk))) 0x2000 =? 0) = negb tar).
    { change 0x2000 with (2 ^ 13). rewrite land_pow_bit, testbit_div_mod.
      pose proof (pack_nth _ 3 3 _ G eq_refl) as Q. cbn [skipn xlay] in Q.
      change (wid [(2, bh); (10, q); (1, b1 lk)]) with 13 in Q. fold (xlay tp bo bi w3 bh q (b1 lk)) in Q.
      set (u := pack _ / 2 ^ 13) in *. clearbody u. change (2 ^ 3) with (2 * 2 ^ 2) in Q.
      rewrite N.mod_mul_r in Q by discriminate.
      set (a := u mod 2) in *. assert (a < 2) by (apply N.mod_lt; discriminate).
      set (b := (u / 2) mod 2 ^ 2) in *. clearbody a b. unfold w3 in Q.
      replace a with (b1 tar) by (destruct tar, x17; clear - Q H; cbn [b1] in *; lia).
      destruct tar; reflexivity. }
    rewrite TB. clear K TB v F.
    destruct Ht as [-> | ->]; cbv iota beta.
    - change 0x4c000020 with (pack (xlay 19 0 0 0 0 16 0)). unfold xlay at 2. pkx. reflexivity.
    - change 0x4c000420 with (pack (xlay 19 0 0 0 0 528 0)). unfold xlay at 2 4. pkx.
      destruct tar; cbn [negb]; [|reflexivity].
      change 0x40 with (pack (xlay 0 0 0 0 0 32 0)). pkx. reflexivity.
  Qed.
End P8.

(** ** The instruction word of a record *)
Lemma major_field : forall v, MAJOR_OPCODE v = field 32 v 0 5.
Proof. intros. unfold MAJOR_OPCODE, field. change 0x3f with (N.ones 6). rewrite land_ones_mod, N.shiftr_div_pow2. reflexivity. Qed.
Lemma minor_field : forall v, MINOR_OPCODE v = field 32 v 26 30.
Proof. intros. unfold MINOR_OPCODE, field. change 0x1f with (N.ones 5). rewrite land_ones_mod, N.shiftr_div_pow2. reflexivity. Qed.
Lemma isel_spec : forall v, ~ looks_isel v -> IS_ISEL v = false.
Proof.
  intros v H. unfold IS_ISEL. rewrite major_field, minor_field. unfold looks_isel in H.
  destruct (N.eqb_spec (field 32 v 0 5) 31), (N.eqb_spec (field 32 v 26 30) 15); try reflexivity. tauto.
Qed.

(** Opcodes of the results. *)
Lemma major_top : forall a r, r < 2 ^ 26 -> a < 2 ^ 6 -> field 32 (a * 2 ^ 26 + r) 0 5 = a.
Proof.
  intros a r Hr Ha. unfold field. change (32 - 1 - 5) with 26. change (5 - 0 + 1) with 6.
  rewrite N.div_add_l, (N.div_small r) by (assumption || discriminate). rewrite N.add_0_r. now apply N.mod_small.
Qed.
Lemma iform_top : forall li aa lk, li < 2 ^ 24 -> exists r, iform li aa lk = 18 * 2 ^ 26 + r /\ r < 2 ^ 26.
Proof.
  intros li aa lk H. exists (li * 4 + b1 aa * 2 + b1 lk). unfold iform.
  split; [clear; lia|destruct aa, lk; clear - H; cbn [b1]; lia].
Qed.
Lemma bform_top : forall bo bi bd aa lk, bo < 2 ^ 5 -> bi < 2 ^ 5 -> bd < 2 ^ 14 ->
  exists r, bform bo bi bd aa lk = 16 * 2 ^ 26 + r /\ r < 2 ^ 26.
Proof.
  intros bo bi bd aa lk H1 H2 H3. exists (bo * 2 ^ 21 + bi * 2 ^ 16 + bd * 4 + b1 aa * 2 + b1 lk). unfold bform.
  split; [clear; lia|destruct aa, lk; clear - H1 H2 H3; cbn [b1]; lia].
Qed.

Definition demunge_of (rec : N -> N -> N) (opcode iea : N) : option N :=
  let r := rec opcode iea in if r =? 0xffffffff then None else Some r.

(** A result that is no XL-form branch is taken as is. *)
Lemma word_plain : forall rec v iea a r, ~ looks_isel v -> rec v iea = a * 2 ^ 26 + r -> r < 2 ^ 26 ->
  a < 63 -> a <> 19 -> insn_word (demunge_of rec) true v iea = Some (rec v iea).
Proof.
  intros rec v iea a r HI E Hr Ha H19. unfold insn_word, demunge_of. rewrite (isel_spec v HI). cbn [andb negb].
  cbv zeta. destruct (N.eqb_spec (rec v iea) 0xffffffff) as [Q|_]; [rewrite E in Q; clear - Q Ha Hr; lia|].
  unfold IS_BLR, IS_BCTR. rewrite major_field, E, major_top by (assumption || (clear - Ha; lia)).
  apply N.eqb_neq in H19. rewrite H19. reflexivity.
Qed.

(** An XL-form branch loses its reserved bits. *)
Lemma word_xl : forall rec v iea bo bi w xo bh lk, ~ looks_isel v ->
  bo < 2 ^ 5 -> bi < 2 ^ 5 -> w < 2 ^ 3 -> bh < 2 ^ 2 -> In xo [16; 528; 560] ->
  rec v iea = pack (xlay 19 bo bi w bh xo (b1 lk)) ->
  insn_word (demunge_of rec) true v iea = Some (xlform xo bo bi bh lk).
Proof.
  intros rec v iea bo bi w xo bh lk HI Hbo Hbi Hw Hbh Hxo E.
  assert (Hx : xo < 2 ^ 10) by (destruct Hxo as [<- |[<- |[<- |[]]]]; reflexivity).
  assert (F : fits (xlay 19 bo bi w bh xo (b1 lk))) by (unfold xlay; fit).
  unfold insn_word, demunge_of. rewrite (isel_spec v HI). cbn [andb negb]. cbv zeta.
  assert (R : pack (xlay 19 bo bi w bh xo (b1 lk))
    = 19 * 2 ^ 26 + (bo * 2 ^ 21 + bi * 2 ^ 16 + w * 2 ^ 13 + bh * 2 ^ 11 + xo * 2 + b1 lk))
    by (unfold xlay; cbn [pack wid]; clear; lia).
  assert (RL : bo * 2 ^ 21 + bi * 2 ^ 16 + w * 2 ^ 13 + bh * 2 ^ 11 + xo * 2 + b1 lk < 2 ^ 26)
    by (destruct lk; clear - Hbo Hbi Hw Hbh Hx; cbn [b1]; lia).
  destruct (N.eqb_spec (rec v iea) 0xffffffff) as [Q|_]; [rewrite E, R in Q; clear - Q RL; lia|].
  assert (MJ : MAJOR_OPCODE (rec v iea) = 19) by (rewrite major_field, E, R; apply major_top; [assumption|reflexivity]).
  assert (MN : MINOR_OPCODE (rec v iea) = 16).
  { unfold MINOR_OPCODE. change 0x1f with (N.ones 5). rewrite land_ones_mod, N.shiftr_div_pow2, E.
    pose proof (pack_nth _ 5 10 xo F eq_refl) as Q. cbn [skipn xlay wid] in Q. change (1 + 0) with 1 in Q.
    fold (xlay 19 bo bi w bh xo (b1 lk)) in Q.
    set (u := pack _ / 2 ^ 1) in *. clearbody u. change (2 ^ 10) with (2 ^ 5 * 2 ^ 5) in Q.
    rewrite N.mod_mul_r in Q by discriminate.
    assert (HL : u mod 2 ^ 5 < 2 ^ 5) by (apply N.mod_lt; discriminate).
    set (a := u mod 2 ^ 5) in *. set (b := (u / 2 ^ 5) mod 2 ^ 5) in *. clearbody a b.
    destruct Hxo as [<- |[<- |[<- |[]]]]; clear - Q HL; lia. }
  unfold IS_BLR. rewrite MJ, MN. cbn [N.eqb Pos.eqb andb orb]. f_equal.
  rewrite E, xl_pack. apply N.bits_inj. intros i. rewrite N.ldiff_spec.
  assert (V : forall w, w < 2 ^ 3 -> pack (xlay 19 bo bi w bh xo (b1 lk)) = (pack [(6, 19); (5, bo); (5, bi)] * 2 ^ 3 + w) * 2 ^ 13 + pack [(2, bh); (10, xo); (1, b1 lk)])
    by (intros; unfold xlay; cbn [pack wid]; clear; lia).
  assert (LO : pack [(2, bh); (10, xo); (1, b1 lk)] < 2 ^ 13) by (apply (pack_lt [(2, bh); (10, xo); (1, b1 lk)]); fit).
  set (hi := pack [(6, 19); (5, bo); (5, bi)]) in *. set (lo := pack [(2, bh); (10, xo); (1, b1 lk)]) in *.
  rewrite (V w Hw), (V 0 eq_refl). clearbody hi lo.
  change 0xe000 with ((0 * 2 ^ 3 + 7) * 2 ^ 13 + 0).
  rewrite !testbit_two by (assumption || reflexivity).
  destruct (N.ltb_spec i 13).
  - rewrite N.bits_0. apply andb_true_r.
  - set (j := i - 13). clearbody j. destruct (N.ltb_spec j 3) as [J|J].
    + rewrite N.bits_0. assert (j = 0 \/ j = 1 \/ j = 2) as [-> |[-> | ->]] by (clear - J; lia); apply andb_false_r.
    + rewrite N.bits_0. apply andb_true_r.
Qed.

Theorem p10_i_word : forall x0 x13 x14 li lk iea, li < 2 ^ 24 ->
  (iea < 2 ^ 64 -> iea mod 4 = 0 -> ~ looks_isel (p10_i_rel x0 x13 x14 li lk iea) ->
   insn_word insn_demunge_p10 true (p10_i_rel x0 x13 x14 li lk iea) iea = Some (iform li false lk))
  /\ (~ looks_isel (p10_i_abs x0 x13 x14 li lk) ->
      insn_word insn_demunge_p10 true (p10_i_abs x0 x13 x14 li lk) iea = Some (iform li true lk)).
Proof.
  intros x0 x13 x14 li lk iea Hl. change insn_demunge_p10 with (demunge_of insn_recode_p10). split.
  - intros Hi Ha HI. destruct (iform_top li false lk Hl) as [r [E Hr]].
    pose proof (p10_i_rel_back x0 x13 x14 li lk iea Hl Hi Ha) as B. rewrite <- B in *.
    apply (word_plain _ _ _ 18 r HI E Hr); [reflexivity|discriminate].
  - intros HI. destruct (iform_top li true lk Hl) as [r [E Hr]].
    pose proof (p10_i_abs_back x0 x13 x14 li lk iea Hl) as B. rewrite <- B in *.
    apply (word_plain _ _ _ 18 r HI E Hr); [reflexivity|discriminate].
Qed.
Theorem p10_b_word : forall x0 x9 x14 bo bi bd lk iea, bo < 2 ^ 5 -> bi < 2 ^ 5 -> bd < 2 ^ 14 ->
  (iea < 2 ^ 64 -> iea mod 4 = 0 -> ~ looks_isel (p10_b_rel x0 x9 x14 bo bi bd lk iea) ->
   insn_word insn_demunge_p10 true (p10_b_rel x0 x9 x14 bo bi bd lk iea) iea = Some (bform bo bi bd false lk))
  /\ (bi < 2 ^ 4 -> ~ looks_isel (p10_b_abs x0 x9 x14 bo bi bd lk) ->
      insn_word insn_demunge_p10 true (p10_b_abs x0 x9 x14 bo bi bd lk) iea = Some (bform bo bi bd true lk)).
Proof.
  intros x0 x9 x14 bo bi bd lk iea Hbo Hbi Hbd. change insn_demunge_p10 with (demunge_of insn_recode_p10). split.
  - intros Hi Ha HI. destruct (bform_top bo bi bd false lk Hbo Hbi Hbd) as [r [E Hr]].
    pose proof (p10_b_rel_back x0 x9 x14 bo bi bd lk iea Hbo Hbi Hbd Hi Ha) as B. rewrite <- B in *.
    apply (word_plain _ _ _ 16 r HI E Hr); [reflexivity|discriminate].
  - intros H4 HI. destruct (bform_top bo bi bd true lk Hbo Hbi Hbd) as [r [E Hr]].
    pose proof (p10_b_abs_back x0 x9 x14 bo bi bd lk iea Hbo H4 Hbd) as B. rewrite <- B in *.
    apply (word_plain _ _ _ 16 r HI E Hr); [reflexivity|discriminate].
Qed.
Lemma xl_op_in : forall type tar, type = 2 \/ type = 3 -> In (xl_op type tar) [16; 528; 560].
Proof. intros type [] [-> | ->]; cbn; tauto. Qed.
Theorem p10_xl_word : forall x0 x23 x4 x9 x14 x19 x23_31 type bo bi bh lk tar iea,
  x23 < 2 ^ 2 -> x19 < 2 ^ 1 -> x23_31 < 2 ^ 9 -> bo < 2 ^ 5 -> bi < 2 ^ 5 -> bh < 2 ^ 2 ->
  type = 2 \/ type = 3 ->
  let v := p10_xl x0 x23 x4 x9 x14 x19 x23_31 type bo bi bh lk tar in
  (type = 3 -> ~ In (field 32 v 0 5) [17; 19; 31]) -> ~ looks_isel v ->
  insn_word insn_demunge_p10 true v iea = Some (xlform (xl_op type tar) (kept_bo bo) bi bh lk).
Proof.
  intros x0 x23 x4 x9 x14 x19 x23_31 type bo bi bh lk tar iea H1 H2 H3 Hbo Hbi Hbh Ht v HM HI.
  rewrite <- major_field in HM.
  pose proof (p10_xl_back x0 x23 x4 x9 x14 x19 x23_31 type bo bi bh lk tar iea H1 H2 H3 Hbo Hbi Hbh Ht HM) as B.
  fold v in B. rewrite xl_pack in B.
  apply (word_xl insn_recode_p10 v iea _ bi 0 _ bh lk HI (kept_lt bo Hbo) Hbi eq_refl Hbh (xl_op_in type tar Ht) B).
Qed.
Theorem p10_system_word : forall hi lo j iea, hi < 2 ^ 11 -> lo < 2 ^ 17 -> j < 2 ^ 2 ->
  let w := hi * 2 ^ 21 + lo in
  let v := w + (3 * 4 + j) * 2 ^ 17 in
  system_word w -> ~ looks_isel v -> insn_word insn_demunge_p10 true v iea = Some w.
Proof.
  intros hi lo j iea Hh Hl Hj w v SW HI.
  assert (B : insn_recode_p10 v iea = w).
  { apply p10_system_back; try assumption. rewrite major_field, minor_field.
    destruct SW as [S1|[S1|[S1 S2]]]; fold w; rewrite S1; cbn [In]; try tauto.
    right. rewrite S2. tauto. }
  unfold insn_word. rewrite (isel_spec v HI). cbn [andb negb]. unfold insn_demunge_p10. cbv zeta. rewrite B.
  destruct (N.eqb_spec w 0xffffffff) as [Q|_].
  - exfalso. assert (Z : N.testbit w 17 = false).
    { assert (E : w = pack (slay hi 0 0 lo)) by (unfold w, slay; cbn [pack wid]; clear; lia).
      assert (F : fits (slay hi 0 0 lo)) by (unfold slay; fit).
      pose proof (pack_nth _ 2 2 _ F eq_refl) as Z. rewrite <- E in Z. cbn [skipn slay wid] in Z.
      change (17 + 0) with 17 in Z. rewrite testbit_div_mod. rewrite Q in Z. discriminate. }
    rewrite Q in Z. discriminate.
  - unfold IS_BLR, IS_BCTR. rewrite major_field, minor_field.
    destruct SW as [S1|[S1|[S1 S2]]]; rewrite S1; try reflexivity. rewrite S2. reflexivity.
Qed.

Theorem p8_i_word : forall x0 x31 li lk iea, li < 2 ^ 24 ->
  (iea < 2 ^ 64 -> iea mod 4 = 0 -> ~ looks_isel (p8_i_rel x0 x31 li lk iea) ->
   insn_word insn_demunge true (p8_i_rel x0 x31 li lk iea) iea = Some (iform li false lk))
  /\ (~ looks_isel (p8_i x0 lk 2 li x31) ->
      insn_word insn_demunge true (p8_i x0 lk 2 li x31) iea = Some (iform li true lk)).
Proof.
  intros x0 x31 li lk iea Hl. change insn_demunge with (demunge_of insn_recode). split.
  - intros Hi Ha HI. destruct (iform_top li false lk Hl) as [r [E Hr]].
    assert (B : insn_recode (p8_i_rel x0 x31 li lk iea) iea = iform li false lk).
    { clear E Hr HI r.
      destruct (disp_back 26 li iea) as [M1 [M2 [L [D [T4 TB]]]]];
        [split; discriminate|exact Hl|exact Hi|exact Ha|].
      unfold p8_i_rel. set (t := target 26 (li * 4) iea) in *. set (m := mode 26 t iea) in *.
      clearbody m t.
      rewrite p8_i_recode by (try exact M1; apply N.mod_lt; discriminate).
      apply N.eqb_neq in M2. rewrite M2.
      change (t / 4 mod 2 ^ 24) with (t / 4 mod 2 ^ (26 - 2)). rewrite div_mod_4 by (discriminate || assumption).
      rewrite N.lor_comm, L. change 0x03fffffc with (N.shiftl (N.ones (26 - 2)) 2). rewrite D.
      unfold lors. cbn [fold_left]. rewrite N.lor_0_l.
      rewrite (lor_add 26 0x48000000 (li * 4)) by (reflexivity || (clear - Hl; lia)).
      assert (B : 0x48000000 + li * 4 = (0x12000000 + li) * 2 ^ 2) by (clear; lia).
      rewrite B, lor_disjoint_add by (destruct lk; reflexivity).
      unfold iform; cbn [b1]. clear. lia. }
    rewrite <- B in *. apply (word_plain _ _ _ 18 r HI E Hr); [reflexivity|discriminate].
  - intros HI. destruct (iform_top li true lk Hl) as [r [E Hr]].
    assert (B : insn_recode (p8_i x0 lk 2 li x31) iea = iform li true lk)
      by (rewrite p8_i_recode by (assumption || reflexivity); reflexivity).
    rewrite <- B in *. apply (word_plain _ _ _ 18 r HI E Hr); [reflexivity|discriminate].
Qed.
Theorem p8_b_word : forall x0 x30 x31 type bo bi bd lk iea,
  p8_b_type type x30 -> bo < 2 ^ 5 -> bi < 2 ^ 5 -> bd < 2 ^ 14 ->
  (iea < 2 ^ 64 -> iea mod 4 = 0 -> ~ looks_isel (p8_b_rel x0 x30 x31 type bo bi bd lk iea) ->
   insn_word insn_demunge true (p8_b_rel x0 x30 x31 type bo bi bd lk iea) iea = Some (bform bo bi bd false lk))
  /\ (~ looks_isel (p8_b_abs x0 x30 x31 type bo bi bd lk) ->
      insn_word insn_demunge true (p8_b_abs x0 x30 x31 type bo bi bd lk) iea = Some (bform bo bi bd true lk)).
Proof.
  intros x0 x30 x31 type bo bi bd lk iea Ht Hbo Hbi Hbd. change insn_demunge with (demunge_of insn_recode). split.
  - intros Hi Ha HI. destruct (bform_top bo bi bd false lk Hbo Hbi Hbd) as [r [E Hr]].
    assert (B : insn_recode (p8_b_rel x0 x30 x31 type bo bi bd lk iea) iea = bform bo bi bd false lk).
    { clear E Hr HI r.
      destruct (disp_back 16 bd iea) as [M1 [M2 [L [D [T4 TB]]]]];
        [split; discriminate|exact Hbd|exact Hi|exact Ha|].
      unfold p8_b_rel. set (t := target 16 (bd * 4) iea) in *. set (m := mode 16 t iea) in *.
      clearbody m t.
      rewrite p8_b_recode by (try exact M1; try assumption; apply N.mod_lt; discriminate).
      apply N.eqb_neq in M2. rewrite M2.
      replace (t / 2 ^ 15) with (t / 4 / 2 ^ 13) by (rewrite N.div_div by discriminate; reflexivity).
      change (t / 4 / 2 ^ 13 mod 2) with (t / 4 / 2 ^ 13 mod 2 ^ 1).
      rewrite parts_join. change (13 + 1) with (16 - 2). rewrite div_mod_4 by (discriminate || assumption).
      rewrite N.lor_comm, L. change 0xfffc with (N.shiftl (N.ones (16 - 2)) 2). rewrite D.
      replace (bd * 4) with (pack (blay 0 0 0 bd 0 0)) by (unfold blay; cbn [pack wid]; clear; lia).
      change 0x40000000 with (pack (blay 16 0 0 0 0 0)).
      unfold lors. cbn [fold_left]. rewrite N.lor_0_l. pk. pk. rewrite bform_pack. reflexivity. }
    rewrite <- B in *. apply (word_plain _ _ _ 16 r HI E Hr); [reflexivity|discriminate].
  - intros HI. destruct (bform_top bo bi bd true lk Hbo Hbi Hbd) as [r [E Hr]].
    assert (B : insn_recode (p8_b_abs x0 x30 x31 type bo bi bd lk) iea = bform bo bi bd true lk).
    { unfold p8_b_abs. rewrite p8_b_recode; try assumption; try reflexivity;
        [|apply div_lt; [reflexivity|exact Hbd]|apply N.mod_lt; discriminate].
      change (2 =? 2) with true. cbv iota. f_equal.
      rewrite N.mul_comm. symmetry. apply N.div_mod. discriminate. }
    rewrite <- B in *. apply (word_plain _ _ _ 16 r HI E Hr); [reflexivity|discriminate].
Qed.
Theorem p8_xl_word : forall x0 type m x6 x17 tar bo bi bh x21 lk iea,
  type = 2 \/ type = 3 -> m < 2 ^ 2 -> x6 < 2 ^ 1 -> bo < 2 ^ 5 -> bi < 2 ^ 5 -> bh < 2 ^ 2 -> x21 < 2 ^ 11 ->
  let v := p8_xl x0 type m x6 x17 tar bo bi bh x21 lk in
  ~ looks_isel v -> insn_word insn_demunge true v iea = Some (xlform (xl_op type tar) bo bi bh lk).
Proof.
  intros x0 type m x6 x17 tar bo bi bh x21 lk iea Ht Hm H6 Hbo Hbi Hbh H21 v HI.
  pose proof (p8_xl_recode x0 lk type m x6 x17 tar bo bi bh x21 iea Ht Hm H6 Hbo Hbi Hbh H21) as B.
  fold v in B.
  assert (Hw : x6 * 4 + b1 x17 * 2 + b1 tar < 2 ^ 3) by (destruct x17, tar; clear - H6; cbn [b1]; lia).
  apply (word_xl insn_recode v iea bo bi _ _ bh lk HI Hbo Hbi Hw Hbh (xl_op_in type tar Ht) B).
Qed.

(** Other instructions keep their word, but for the cleared bits. *)
Theorem plain_word : forall demunge w iea,
  insn_word demunge false w iea
  = Some (if (field 32 w 0 5 =? 19) && (field 32 w 26 30 =? 16) then N.ldiff w 0xe000 else w).
Proof.
  intros demunge w iea. unfold insn_word. cbn [andb]. unfold IS_BLR, IS_BCTR. rewrite major_field, minor_field.
  replace ((field 32 w 0 5 =? 19) && (field 32 w 26 30 =? 528)) with false.
  - rewrite orb_false_r. reflexivity.
  - symmetry. apply andb_false_iff. right. apply N.eqb_neq. unfold field.
    assert (w / 2 ^ (32 - 1 - 30) mod 2 ^ (30 - 26 + 1) < 2 ^ 5) by (apply N.mod_lt; discriminate).
    set (q := _ mod _) in *. clearbody q. change (2 ^ 5) with 32 in H. lia.
Qed.

Theorem fields_outcomes : forall w v s e, w = 32 \/ w = 64 ->
  match bits_w w v s e with
  | FOk r => (0 <= s <= e)%Z /\ (e < Z.of_N w)%Z /\ (0 < s \/ e < Z.of_N w - 1)%Z
             /\ r = field w v (Z.to_N s) (Z.to_N e)
  | FErr FShift => s = 0%Z /\ e = (Z.of_N w - 1)%Z
  | FErr FAssert => ~ (0 <= s <= e /\ e < Z.of_N w)%Z
  end.
Proof. intros w v s e H. apply bits_w_spec. destruct H as [-> | ->]; reflexivity. Qed.
Theorem field_numbering : forall w v s e k, s <= e -> e < w -> k <= e - s ->
  ibm_bit (e - s + 1) (field w v s e) k = ibm_bit w v (s + k).
Proof.
  intros w v s e k H1 H2 H3. unfold ibm_bit at 1. rewrite field_testbit by assumption.
  replace (e - s + 1 - 1 - k <=? e - s) with true by (symmetry; apply N.leb_le; lia).
  cbn [andb]. f_equal. lia.
Qed.
