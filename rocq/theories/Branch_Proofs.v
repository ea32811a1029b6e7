Require Import NArith ZArith Bool List Lia.
Require Import ZifyBool ZifyN ZifyNat.
Require Import Verif.Word Verif.Branch_Model Verif.Branch_Spec.
Import ListNotations.
Local Open Scope N_scope.
Ltac Zify.zify_post_hook ::= Z.div_mod_to_equations.

(** Field views of the model's masks. *)
Lemma land_3 : forall x, N.land x 3 = x mod 4.
Proof. intros. change 3 with (N.ones 2). now rewrite N.land_ones. Qed.
Lemma land_2 : forall x, N.land x 2 = (x / 2) mod 2 * 2.
Proof. intros. change 2 with (N.shiftl (N.ones 1) 1) at 1. now rewrite land_field. Qed.
Lemma land_3ff : forall x, N.land x 0x3ff = x mod 1024.
Proof. intros. change 0x3ff with (N.ones 10). now rewrite N.land_ones. Qed.
Lemma land_1f : forall x, N.land x 0x1f = x mod 32.
Proof. intros. change 0x1f with (N.ones 5). now rewrite N.land_ones. Qed.
Lemma land_3f : forall x, N.land x 0x3f = x mod 64.
Proof. intros. change 0x3f with (N.ones 6). now rewrite N.land_ones. Qed.
Lemma land_LI : forall x, N.land x 0x3FFFFFC = (x / 4) mod 16777216 * 4.
Proof. intros. change 0x3FFFFFC with (N.shiftl (N.ones 24) 2). now rewrite land_field. Qed.
Lemma land_BD : forall x, N.land x 0xFFFC = (x / 4) mod 16384 * 4.
Proof. intros. change 0xFFFC with (N.shiftl (N.ones 14) 2). now rewrite land_field. Qed.
Lemma land_b25 : forall x, N.land x 0x2000000 = (x / 33554432) mod 2 * 33554432.
Proof. intros. change 0x2000000 with (N.shiftl (N.ones 1) 25). now rewrite land_field. Qed.
Lemma land_b15 : forall x, N.land x 0x8000 = (x / 32768) mod 2 * 32768.
Proof. intros. change 0x8000 with (N.shiftl (N.ones 1) 15). now rewrite land_field. Qed.
Lemma land_bflags : forall x,
  N.land x 0x3FF0003 = (x / 65536) mod 1024 * 65536 + x mod 4.
Proof.
  intros. change 0x3FF0003 with (N.lor (N.shiftl (N.ones 10) 16) (N.ones 2)).
  rewrite N.land_lor_distr_r, land_field, N.land_ones.
  apply (lor_disjoint_add (x / 2 ^ 16 mod 2 ^ 10) (x mod 2 ^ 2) 16).
  change (2 ^ 2) with 4. change (2 ^ 16) with 65536. lia.
Qed.

Ltac flds := unfold isa_opcd, isa_BO, isa_BI, isa_XO, isa_AA, isa_LK, fld in *;
  repeat match goal with
  | |- context [2 ^ ?e] => let v := eval compute in (2 ^ e) in change (2 ^ e) with v
  | H : context [2 ^ ?e] |- _ => let v := eval compute in (2 ^ e) in change (2 ^ e) with v in H
  end.

(** BO tests *)
Lemma bo_always_iff : forall w,
  branch_conditional_is_conditional w = false <-> isa_BO_always w.
Proof.
  intros w. unfold branch_conditional_is_conditional, isa_BO_always, BO.
  rewrite land_1f, N.shiftr_div_pow2.
  assert (isa_BO w = w / 2 ^ 21 mod 32) as -> by reflexivity.
  set (b := w / 2 ^ 21 mod 32). assert (b < 32) by (subst b; apply N.mod_lt; lia).
  clearbody b.
  rewrite negb_false_iff, N.eqb_eq. split; intro H0.
  - assert (forall i, N.testbit (N.land b 20) i = N.testbit 20 i) as E by (rewrite H0; auto).
    pose proof (E 4) as E4. pose proof (E 2) as E2.
    rewrite N.land_spec in E4, E2. cbn in E4, E2.
    rewrite andb_true_r in *. auto.
  - destruct H0 as [H4 H2]. apply (bits_inj_below _ _ 5).
    + apply land_lt_pow2. reflexivity.
    + reflexivity.
    + intros i Hi. rewrite N.land_spec.
      assert (i = 0 \/ i = 1 \/ i = 2 \/ i = 3 \/ i = 4) as C by lia.
      destruct C as [->|[->|[->|[->| ->]]]]; rewrite ?H4, ?H2; cbn;
        rewrite ?andb_false_r, ?andb_true_r; reflexivity.
Qed.

Lemma opcode_isa : forall w, w < w32 -> OPCODE w = isa_opcd w.
Proof.
  intros. unfold OPCODE. rewrite N.shiftr_div_pow2. flds. unfold w32 in *. lia.
Qed.

Lemma subop_isa : forall w, SUB_OPCODE w = isa_XO w.
Proof.
  intros. unfold SUB_OPCODE. rewrite land_3ff, N.shiftr_div_pow2. flds. lia.
Qed.

Lemma cond_spec : forall w, w < w32 ->
  (is_conditional_branch w = true <-> isa_bo_branch w /\ ~ isa_BO_always w).
Proof.
  intros w H. unfold is_conditional_branch, isa_bo_branch.
  rewrite <- bo_always_iff, (opcode_isa w H), subop_isa.
  destruct (branch_conditional_is_conditional w); rewrite ?andb_true_r, ?andb_false_r;
  destruct (N.eqb_spec (isa_opcd w) 16) as [E|E];
  destruct (N.eqb_spec (isa_opcd w) 19) as [E'|E'];
  destruct (N.eqb_spec (isa_XO w) 16) as [X1|X1];
  destruct (N.eqb_spec (isa_XO w) 528) as [X2|X2];
  destruct (N.eqb_spec (isa_XO w) 560) as [X3|X3];
  cbn [orb andb In]; split; intros; try discriminate; intuition congruence.
Qed.

Lemma uncond_spec : forall w, w < w32 ->
  (is_unconditional_branch w = true <->
   (isa_bo_branch w /\ isa_BO_always w) \/ isa_always_branch w).
Proof.
  intros w H. unfold is_unconditional_branch, isa_bo_branch, isa_always_branch.
  change (N.shiftr w (32 - 6)) with (OPCODE w).
  rewrite <- bo_always_iff, (opcode_isa w H), subop_isa.
  destruct (branch_conditional_is_conditional w); cbn [negb];
  rewrite ?andb_true_r, ?andb_false_r;
  destruct (N.eqb_spec (isa_opcd w) 16) as [E|E];
  destruct (N.eqb_spec (isa_opcd w) 17) as [E1|E1];
  destruct (N.eqb_spec (isa_opcd w) 18) as [E2|E2];
  destruct (N.eqb_spec (isa_opcd w) 19) as [E3|E3]; try congruence;
  cbn [orb]; try (split; [intros; tauto|reflexivity]);
  try (split; [discriminate|intros; intuition congruence]);
  destruct (N.eqb_spec (isa_XO w) 16) as [X1|X1];
  destruct (N.eqb_spec (isa_XO w) 528) as [X2|X2];
  destruct (N.eqb_spec (isa_XO w) 560) as [X3|X3];
  destruct (N.eqb_spec (isa_XO w) 50) as [X4|X4];
  destruct (N.eqb_spec (isa_XO w) 18) as [X5|X5];
  destruct (N.eqb_spec (isa_XO w) 274) as [X6|X6];
  destruct (N.eqb_spec (isa_XO w) 82) as [X7|X7]; try congruence;
  cbn [orb andb In]; split; intros; try discriminate; intuition congruence.
Qed.

Lemma always_not_bo : forall w, isa_always_branch w -> isa_bo_branch w -> False.
Proof.
  unfold isa_always_branch, isa_bo_branch. cbn [In]. intros w. intuition congruence.
Qed.

Lemma cond_uncond_disjoint : forall w, w < w32 ->
  is_conditional_branch w && is_unconditional_branch w = false.
Proof.
  intros w H. destruct (is_conditional_branch w) eqn:C; auto.
  destruct (is_unconditional_branch w) eqn:U; auto.
  apply cond_spec in C; auto. apply uncond_spec in U; auto.
  destruct C as [C1 C2], U as [[U1 U2]|U]; [tauto|].
  exfalso; eauto using always_not_bo.
Qed.

Lemma is_branch_spec : forall w, w < w32 ->
  (is_branch w = true <-> isa_bo_branch w \/ isa_always_branch w).
Proof.
  intros w H. unfold is_branch. rewrite orb_true_iff, cond_spec, uncond_spec by auto.
  rewrite <- bo_always_iff.
  destruct (branch_conditional_is_conditional w); intuition congruence.
Qed.

(** Signed displacement requested by (addr, target, flags). *)
Definition disp (addr target flags : N) : Z :=
  if isa_AA flags =? 1 then s64 target
  else s64 (Z.to_N ((Z.of_N target - Z.of_N addr) mod 2 ^ 64)).

Lemma AA_land : forall f, (N.land f BRANCH_ABSOLUTE =? 0) = negb (isa_AA f =? 1).
Proof. intros. unfold BRANCH_ABSOLUTE. rewrite land_2. flds. lia. Qed.

Lemma sub64_Z : forall a b, a < w64 -> b < w64 ->
  sub64 a b = Z.to_N ((Z.of_N a - Z.of_N b) mod 2 ^ 64).
Proof.
  intros. unfold sub64, w64 in *. change (2 ^ 64)%Z with 18446744073709551616%Z. lia.
Qed.

Lemma disp_offset : forall addr target flags, addr < w64 -> target < w64 ->
  s64 (branch_offset addr target flags) = disp addr target flags /\
  branch_offset addr target flags < w64.
Proof.
  intros. unfold branch_offset, disp. rewrite AA_land.
  destruct (isa_AA flags =? 1); cbn [negb].
  - unfold u64, s64. rewrite N.mod_mod by (unfold w64; lia).
    split; auto. apply N.mod_lt. unfold w64; lia.
  - rewrite sub64_Z by auto. split; auto.
    change (2 ^ 64)%Z with 18446744073709551616%Z. unfold w64. lia.
Qed.

(** The word assembled by create_branch, as a sum of fields. *)
Lemma iform_word : forall o f,
  N.lor (N.lor 0x48000000 (N.land f 0x3)) (N.land o 0x03FFFFFC)
  = 18 * 67108864 + ((o / 4) mod 16777216 * 4 + f mod 4).
Proof.
  intros. rewrite land_3, land_LI.
  rewrite <- N.lor_assoc, (N.lor_comm (f mod 4)).
  rewrite (lor_disj 2 4) by (auto; lia).
  change 0x48000000 with (18 * 67108864).
  rewrite (lor_disj 26 67108864) by (auto; lia). reflexivity.
Qed.

Lemma bform_word : forall o f,
  N.lor (N.lor 0x40000000 (N.land f 0x3FF0003)) (N.land o 0xFFFC)
  = 16 * 67108864 + ((f / 65536) mod 1024 * 65536 + ((o / 4) mod 16384 * 4 + f mod 4)).
Proof.
  intros. rewrite land_bflags, land_BD.
  rewrite <- (lor_disj 16 65536) by (auto; lia).
  rewrite <- !N.lor_assoc, (N.lor_comm (f mod 4)).
  rewrite (lor_disj 2 4) by (auto; lia).
  rewrite (lor_disj 16 65536) by (auto; lia).
  change 0x40000000 with (16 * 67108864).
  rewrite (lor_disj 26 67108864) by (auto; lia). reflexivity.
Qed.

Lemma iform_target_isa : forall w,
  branch_iform_target w = Z.to_N (isa_I_disp w mod 2 ^ 64).
Proof.
  intros w. unfold branch_iform_target, isa_I_disp, sext, sub64, w64.
  rewrite land_LI, land_b25. flds.
  change (2 ^ Z.of_N 24)%Z with 16777216%Z.
  change (2 ^ 64)%Z with 18446744073709551616%Z.
  destruct (N.eqb_spec (w / 4 mod 16777216 * 4 / 33554432 mod 2 * 33554432) 0);
  destruct (N.ltb_spec (w / 4 mod 16777216) 8388608); lia.
Qed.

Lemma bform_target_isa : forall w,
  branch_bform_target w = Z.to_N (isa_B_disp w mod 2 ^ 64).
Proof.
  intros w. unfold branch_bform_target, isa_B_disp, sext, sub64, w64.
  rewrite land_BD, land_b15. flds.
  change (2 ^ Z.of_N 14)%Z with 16384%Z.
  change (2 ^ 64)%Z with 18446744073709551616%Z.
  destruct (N.eqb_spec (w / 4 mod 16384 * 4 / 32768 mod 2 * 32768) 0);
  destruct (N.ltb_spec (w / 4 mod 16384) 8192); lia.
Qed.

Lemma s64_mod4 : forall o, o < w64 -> ((s64 o mod 4 = 0)%Z <-> o mod 4 = 0).
Proof. intros. unfold s64, w64 in *. destruct (N.ltb_spec (o mod 18446744073709551616) 9223372036854775808); lia. Qed.

Lemma s64_small : forall o, o < w64 ->
  (s64 o = Z.of_N o /\ (Z.of_N o < 9223372036854775808)%Z) \/
  (s64 o = Z.of_N o - 18446744073709551616 /\ (9223372036854775808 <= Z.of_N o)%Z)%Z.
Proof. intros. unfold s64, w64 in *. destruct (N.ltb_spec (o mod 18446744073709551616) 9223372036854775808); lia. Qed.

Lemma isa_target_disp : forall w addr target flags, addr < w64 -> target < w64 ->
  isa_AA w = isa_AA flags ->
  isa_target w addr (disp addr target flags) = target.
Proof.
  intros w addr target flags Ha Ht E. unfold isa_target, disp. rewrite E.
  change (2 ^ 64)%Z with 18446744073709551616%Z.
  unfold w64 in *.
  destruct (isa_AA flags =? 1).
  - pose proof (s64_small target). unfold w64 in *. lia.
  - set (o := Z.to_N ((Z.of_N target - Z.of_N addr) mod 18446744073709551616)).
    assert (o < 18446744073709551616) by lia.
    pose proof (s64_small o). unfold w64 in *. lia.
Qed.

(** Fields of an assembled word. *)
Lemma w_fields : forall op B q f, op < 64 -> B < 1024 -> q < 16384 -> f < 4 ->
  let w := op * 67108864 + (B * 65536 + (q * 4 + f)) in
  w < w32 /\ isa_opcd w = op /\ isa_BO w = B / 32 /\ isa_BI w = B mod 32 /\
  fld w 16 29 = q /\ isa_AA w = f / 2 /\ isa_LK w = f mod 2.
Proof. intros. subst w. unfold w32. flds. repeat split; lia. Qed.

Lemma w_fields_i : forall op q f, op < 64 -> q < 16777216 -> f < 4 ->
  let w := op * 67108864 + (q * 4 + f) in
  w < w32 /\ isa_opcd w = op /\ 
  fld w 6 29 = q /\ isa_AA w = f / 2 /\ isa_LK w = f mod 2.
Proof. intros. subst w. unfold w32. flds. repeat split; lia. Qed.

Lemma flag_fields : forall x,
  isa_AA x = x mod 4 / 2 /\ isa_LK x = x mod 4 mod 2.
Proof. intros. flds. split; lia. Qed.
Lemma flag_fields_b : forall x,
  isa_BO x = x / 65536 mod 1024 / 32 /\ isa_BI x = x / 65536 mod 1024 mod 32.
Proof. intros. flds. split; lia. Qed.

Lemma sext_quot : forall k K o, K = 2 ^ (k - 1) -> 2 * K = 2 ^ k ->
  (2 ^ Z.of_N k = 2 * Z.of_N K)%Z ->
  (exists m, 4611686018427387904 = m * (2 * K) /\ 0 < m) ->
  o < w64 -> (s64 o mod 4 = 0)%Z ->
  (- (4 * Z.of_N K) <= s64 o < 4 * Z.of_N K)%Z ->
  (4 * sext k (o / 4 mod 2 ^ k) = s64 o)%Z.
Proof.
  intros k K o HK HK2 HZ (m & Hm & Hm0) Ho H4 Hr.
  assert (H4' : o mod 4 = 0) by (now apply s64_mod4).
  assert (exists q, o = 4 * q) as [q ->].
  { exists (o / 4). pose proof (N.div_mod o 4). lia. }
  replace (4 * q / 4) with q by (rewrite N.mul_comm, N.div_mul; lia).
  unfold sext. rewrite <- HK, <- HK2, HZ.
  assert (0 < K) by (destruct (N.eq_dec K 0); [subst; lia|lia]).
  destruct (s64_small (4 * q) Ho) as [[Hs Hb]|[Hs Hb]]; rewrite Hs in *.
  - rewrite N.mod_small by lia. destruct (N.ltb_spec q K); lia.
  - assert (q mod (2 * K) = q + 2 * K - 4611686018427387904) as E.
    { symmetry. apply N.mod_unique with (q := m - 1).
      - unfold w64 in Ho. lia.
      - rewrite N.mul_sub_distr_l. rewrite Hm in *.
        rewrite (N.mul_comm (2 * K) m). unfold w64 in *. nia. }
    rewrite E. unfold w64 in *.
    destruct (N.ltb_spec (q + 2 * K - 4611686018427387904) K); lia.
Qed.

Lemma create_branch_ok : forall addr target flags,
  addr < w64 -> target < w64 ->
  let d := disp addr target flags in
  (-33554432 <= d < 33554432)%Z -> (d mod 4 = 0)%Z ->
  let w := create_branch addr target flags in
  w < w32 /\ isa_opcd w = 18 /\ isa_AA w = isa_AA flags /\ isa_LK w = isa_LK flags /\
  isa_I_disp w = d /\ isa_branch_target w addr = Some target.
Proof.
  intros addr target flags Ha Ht d Hr Hm.
  destruct (disp_offset addr target flags Ha Ht) as [Ho Hlt].
  fold d in Ho. unfold create_branch.
  set (o := branch_offset addr target flags) in *.
  assert (is_offset_in_branch_range o = true) as ->.
  { unfold is_offset_in_branch_range. rewrite Ho, land_3.
    apply s64_mod4 in Hlt. rewrite Ho in Hlt. lia. }
  rewrite iform_word. cbn zeta.
  destruct (flag_fields flags) as [F1 F2]. rewrite F1, F2.
  assert (disp addr target flags = d) as Hd by reflexivity. clearbody d.
  pose proof (w_fields_i 18 (o / 4 mod 16777216) (flags mod 4)) as W.
  destruct W as (W1 & W2 & W3 & W4 & W5);
    [lia|apply N.mod_lt; lia|apply N.mod_lt; lia|].
  set (w := 18 * 67108864 + (o / 4 mod 16777216 * 4 + flags mod 4)) in *.
  assert (isa_I_disp w = d) as W6.
  { unfold isa_I_disp. rewrite W3, <- Ho. clearbody o.
    apply (sext_quot 24 8388608 o); try reflexivity; auto; try (rewrite Ho; auto).
    - exists 274877906944. split; reflexivity.
    }
  clearbody w. repeat split; auto.
  unfold isa_branch_target. rewrite W2, W6, N.eqb_refl. f_equal.
  rewrite <- Hd. apply isa_target_disp; auto. congruence.
Qed.

Lemma create_branch_fail : forall addr target flags,
  addr < w64 -> target < w64 ->
  let d := disp addr target flags in
  ~ ((-33554432 <= d < 33554432)%Z /\ (d mod 4 = 0)%Z) ->
  create_branch addr target flags = 0.
Proof.
  intros addr target flags Ha Ht d Hr.
  destruct (disp_offset addr target flags Ha Ht) as [Ho Hlt].
  fold d in Ho. unfold create_branch.
  set (o := branch_offset addr target flags) in *.
  destruct (is_offset_in_branch_range o) eqn:E; auto.
  unfold is_offset_in_branch_range in E. rewrite Ho, land_3 in E.
  apply s64_mod4 in Hlt. rewrite Ho in Hlt. exfalso. apply Hr. lia.
Qed.

Lemma create_cond_branch_ok : forall addr target flags,
  addr < w64 -> target < w64 ->
  let d := disp addr target flags in
  (-32768 <= d < 32768)%Z -> (d mod 4 = 0)%Z ->
  let w := create_cond_branch addr target flags in
  w < w32 /\ isa_opcd w = 16 /\ isa_BO w = isa_BO flags /\ isa_BI w = isa_BI flags /\
  isa_AA w = isa_AA flags /\ isa_LK w = isa_LK flags /\
  isa_B_disp w = d /\ isa_branch_target w addr = Some target.
Proof.
  intros addr target flags Ha Ht d Hr Hm.
  destruct (disp_offset addr target flags Ha Ht) as [Ho Hlt].
  fold d in Ho. unfold create_cond_branch.
  set (o := branch_offset addr target flags) in *.
  match goal with |- context [if ?c then _ else _] => assert (c = false) as -> end.
  { rewrite Ho, land_3. apply s64_mod4 in Hlt. rewrite Ho in Hlt. lia. }
  rewrite bform_word. cbn zeta.
  destruct (flag_fields flags) as [F1 F2]. rewrite F1, F2.
  destruct (flag_fields_b flags) as [F3 F4]. rewrite F3, F4.
  assert (disp addr target flags = d) as Hd by reflexivity. clearbody d.
  pose proof (w_fields 16 (flags / 65536 mod 1024) (o / 4 mod 16384) (flags mod 4)) as W.
  destruct W as (W1 & W2 & W7 & W8 & W3 & W4 & W5);
    [lia|apply N.mod_lt; lia|apply N.mod_lt; lia|apply N.mod_lt; lia|].
  set (w := 16 * 67108864 + _) in *.
  assert (isa_B_disp w = d) as W6.
  { unfold isa_B_disp. rewrite W3, <- Ho. clearbody o.
    apply (sext_quot 14 8192 o); try reflexivity; auto; try (rewrite Ho; auto).
    - exists 281474976710656. split; reflexivity.
    }
  clearbody w. repeat split; auto.
  unfold isa_branch_target. rewrite W2, W6. cbn [N.eqb Pos.eqb]. f_equal.
  rewrite <- Hd. apply isa_target_disp; auto. congruence.
Qed.

Lemma create_cond_branch_fail : forall addr target flags,
  addr < w64 -> target < w64 ->
  let d := disp addr target flags in
  ~ ((-32768 <= d < 32768)%Z /\ (d mod 4 = 0)%Z) ->
  create_cond_branch addr target flags = 0.
Proof.
  intros addr target flags Ha Ht d Hr.
  destruct (disp_offset addr target flags Ha Ht) as [Ho Hlt].
  fold d in Ho. unfold create_cond_branch.
  set (o := branch_offset addr target flags) in *.
  match goal with |- context [if ?c then _ else _] => destruct c eqn:E; auto end.
  rewrite Ho, land_3 in E.
  apply s64_mod4 in Hlt. rewrite Ho in Hlt. exfalso. apply Hr. lia.
Qed.

Lemma iform_isa : forall w, instr_is_branch_iform w = (isa_opcd w =? 18).
Proof. intros. unfold instr_is_branch_iform, branch_opcode. now rewrite land_3f, N.shiftr_div_pow2. Qed.
Lemma bform_isa : forall w, instr_is_branch_bform w = (isa_opcd w =? 16).
Proof. intros. unfold instr_is_branch_bform, branch_opcode. now rewrite land_3f, N.shiftr_div_pow2. Qed.

(** What [branch_target] computes on I/B-form words. *)
Lemma branch_target_eq : forall w pc, pc < w64 ->
  branch_target w pc =
  match isa_branch_target w pc with
  | None => 0
  | Some _ =>
      let d := if isa_opcd w =? 18 then isa_I_disp w else isa_B_disp w in
      Z.to_N ((if isa_AA pc =? 1 then d else d + Z.of_N pc) mod 2 ^ 64)
  end.
Proof.
  intros w pc Hpc. unfold branch_target, has_branch_target, isa_branch_target.
  rewrite iform_isa, bform_isa.
  assert (is_branch_absolute pc = (isa_AA pc =? 1)) as ->.
  { unfold is_branch_absolute, BRANCH_ABSOLUTE. rewrite land_2. unfold u32, w32. flds. lia. }
  rewrite iform_target_isa, bform_target_isa.
  unfold add64, w64. unfold w64 in *.
  change (2 ^ 64)%Z with 18446744073709551616%Z.
  destruct (isa_opcd w =? 18); cbn [orb].
  - destruct (isa_AA pc =? 1); lia.
  - destruct (isa_opcd w =? 16); auto. destruct (isa_AA pc =? 1); lia.
Qed.

Lemma branch_target_relative : forall w pc, pc < w64 ->
  isa_AA w = 0 -> isa_AA pc = 0 ->
  (isa_opcd w = 18 \/ isa_opcd w = 16) ->
  isa_branch_target w pc = Some (branch_target w pc).
Proof.
  intros w pc Hpc Hw Hp Ho. rewrite branch_target_eq by auto.
  unfold isa_branch_target, isa_target. rewrite Hw, Hp. cbn [N.eqb].
  destruct Ho as [->| ->]; cbn [N.eqb Pos.eqb]; f_equal; f_equal; f_equal; lia.
Qed.

Lemma branch_target_absolute_off : forall w pc, pc < w64 ->
  isa_AA w = 1 -> isa_AA pc = 0 ->
  (isa_opcd w = 18 \/ isa_opcd w = 16) ->
  exists t, isa_branch_target w pc = Some t /\ branch_target w pc = (t + pc) mod w64.
Proof.
  intros w pc Hpc Hw Hp Ho. rewrite branch_target_eq by auto.
  unfold isa_branch_target, isa_target. rewrite Hw, Hp. cbn [N.eqb Pos.eqb].
  unfold w64 in *. change (2 ^ 64)%Z with 18446744073709551616%Z.
  destruct Ho as [->| ->]; cbn [N.eqb Pos.eqb]; eexists; split; try reflexivity; lia.
Qed.

Lemma branch_target_absolute_wrong : forall w pc, 0 < pc < w64 ->
  isa_AA w = 1 -> isa_AA pc = 0 ->
  (isa_opcd w = 18 \/ isa_opcd w = 16) ->
  isa_branch_target w pc <> Some (branch_target w pc).
Proof.
  intros w pc Hpc Hw Hp Ho E.
  destruct (branch_target_absolute_off w pc) as (t & Ht & Hb); auto; [lia|].
  rewrite Ht in E. injection E as E. rewrite Hb in E.
  assert (t < w64).
  { unfold isa_branch_target, isa_target in Ht.
    destruct Ho as [O|O]; rewrite O in Ht; cbn [N.eqb Pos.eqb] in Ht;
      injection Ht as Ht; subst t; unfold w64;
      change (2 ^ 64)%Z with 18446744073709551616%Z; lia. }
  unfold w64 in *. lia.
Qed.

(** Retargeting. *)
Lemma set_target_iform : forall w iaddr t, w < w32 -> iaddr < w64 -> t < w64 ->
  isa_opcd w = 18 -> set_branch_target w iaddr t <> 0 ->
  let w' := set_branch_target w iaddr t in
  w' < w32 /\ isa_branch_target w' iaddr = Some t /\
  isa_opcd w' = isa_opcd w /\ isa_AA w' = isa_AA w /\ isa_LK w' = isa_LK w.
Proof.
  intros w iaddr t Hw Hi Ht Ho. unfold set_branch_target. rewrite iform_isa, Ho. cbn [N.eqb Pos.eqb].
  intros Hn.
  assert ((-33554432 <= disp iaddr t w < 33554432)%Z /\ (disp iaddr t w mod 4 = 0)%Z) as [H1 H2].
  { destruct (Z_le_dec (-33554432) (disp iaddr t w)); destruct (Z_lt_dec (disp iaddr t w) 33554432);
    destruct (Z.eq_dec (disp iaddr t w mod 4) 0); auto; exfalso; apply Hn; apply create_branch_fail; auto; tauto. }
  pose proof (create_branch_ok iaddr t w Hi Ht H1 H2). cbn zeta in *. intuition congruence.
Qed.

Lemma set_target_bform : forall w iaddr t, w < w32 -> iaddr < w64 -> t < w64 ->
  isa_opcd w = 16 -> set_branch_target w iaddr t <> 0 ->
  let w' := set_branch_target w iaddr t in
  w' < w32 /\ isa_branch_target w' iaddr = Some t /\
  isa_opcd w' = isa_opcd w /\ isa_BO w' = isa_BO w /\ isa_BI w' = isa_BI w /\
  isa_AA w' = isa_AA w /\ isa_LK w' = isa_LK w.
Proof.
  intros w iaddr t Hw Hi Ht Ho. unfold set_branch_target. rewrite iform_isa, bform_isa, Ho. cbn [N.eqb Pos.eqb].
  intros Hn.
  assert ((-32768 <= disp iaddr t w < 32768)%Z /\ (disp iaddr t w mod 4 = 0)%Z) as [H1 H2].
  { destruct (Z_le_dec (-32768) (disp iaddr t w)); destruct (Z_lt_dec (disp iaddr t w) 32768);
    destruct (Z.eq_dec (disp iaddr t w mod 4) 0); auto; exfalso; apply Hn; apply create_cond_branch_fail; auto; tauto. }
  pose proof (create_cond_branch_ok iaddr t w Hi Ht H1 H2). cbn zeta in *. intuition congruence.
Qed.

Lemma set_target_other : forall w iaddr t,
  isa_opcd w <> 18 -> isa_opcd w <> 16 -> set_branch_target w iaddr t = w.
Proof.
  intros. unfold set_branch_target. rewrite iform_isa, bform_isa.
  destruct (N.eqb_spec (isa_opcd w) 18); [tauto|].
  destruct (N.eqb_spec (isa_opcd w) 16); [tauto|]. reflexivity.
Qed.

Lemma set_target_succeeds_iff : forall w iaddr t,
  w < w32 -> iaddr < w64 -> t < w64 ->
  isa_opcd w = 18 \/ isa_opcd w = 16 ->
  let lim := (if (isa_opcd w =? 18)%N then 33554432 else 32768)%Z in
  set_branch_target w iaddr t <> 0 <->
  (- lim <= disp iaddr t w < lim)%Z /\ (disp iaddr t w mod 4 = 0)%Z.
Proof.
  intros w iaddr t Hw Hi Ht Ho lim. unfold set_branch_target. rewrite iform_isa, bform_isa.
  subst lim. destruct Ho as [O|O]; rewrite O; cbn [N.eqb Pos.eqb]; split.
  - intros Hn.
    destruct (Z_le_dec (-33554432) (disp iaddr t w)); destruct (Z_lt_dec (disp iaddr t w) 33554432);
    destruct (Z.eq_dec (disp iaddr t w mod 4) 0); auto; exfalso; apply Hn; apply create_branch_fail; auto; tauto.
  - intros [H1 H2] E. pose proof (create_branch_ok iaddr t w Hi Ht H1 H2) as C.
    cbn zeta in C. rewrite E in C. destruct C as (_ & C & _). discriminate C.
  - intros Hn.
    destruct (Z_le_dec (-32768) (disp iaddr t w)); destruct (Z_lt_dec (disp iaddr t w) 32768);
    destruct (Z.eq_dec (disp iaddr t w mod 4) 0); auto; exfalso; apply Hn; apply create_cond_branch_fail; auto; tauto.
  - intros [H1 H2] E. pose proof (create_cond_branch_ok iaddr t w Hi Ht H1 H2) as C.
    cbn zeta in C. rewrite E in C. destruct C as (_ & C & _). discriminate C.
Qed.
