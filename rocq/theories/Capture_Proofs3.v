Require Import Arith NArith List Bool Lia ZifyBool ZifyN ZifyNat.
From Verif Require Import Word Capture_Model Capture_Spec.
Import ListNotations.
Local Open Scope N_scope.

(** ** Words of eight bytes *)
Definition M32 : N := 4294967296.
Lemma lo_hi lo hi : lo < M32 -> N.land (lo + M32 * hi) 0xffffffff = lo.
Proof.
  intros H. change 0xffffffff with (N.ones 32). rewrite N.land_ones. change (2 ^ 32) with M32.
  symmetry. apply N.mod_unique with hi; [exact H | lia].
Qed.
Lemma hi_lo lo hi : lo < M32 -> N.shiftr (lo + M32 * hi) 32 = hi.
Proof.
  intros H. rewrite N.shiftr_div_pow2. change (2 ^ 32) with M32. symmetry. apply N.div_unique with lo; [exact H | lia].
Qed.
Lemma keep_hi lo hi : lo < M32 -> hi < M32 -> N.land (lo + M32 * hi) 0xffffffff00000000 = M32 * hi.
Proof.
  intros H1 H2. change 0xffffffff00000000 with (N.shiftl (N.ones 32) 32).
  replace (lo + M32 * hi) with (N.lor (N.shiftl hi 32) lo).
  - rewrite N.land_lor_distr_l, <- N.shiftl_land.
    replace (N.land lo (N.shiftl (N.ones 32) 32)) with 0.
    + rewrite N.lor_0_r, N.land_ones, N.mod_small by exact H2. rewrite N.shiftl_mul_pow2. change (2 ^ 32) with M32. lia.
    + symmetry. apply N.bits_inj. intros i. rewrite N.land_spec, N.bits_0.
      destruct (N.lt_ge_cases i 32) as [Hi | Hi].
      * rewrite N.shiftl_spec_low by exact Hi. apply andb_false_r.
      * replace (N.testbit lo i) with false; [reflexivity |]. symmetry.
        destruct (N.eq_dec lo 0) as [-> | Hz]; [apply N.bits_0 |].
        apply N.bits_above_log2. apply N.lt_le_trans with 32; [| exact Hi]. apply N.log2_lt_pow2; [lia | exact H1].
  - rewrite N.shiftl_mul_pow2. change (2 ^ 32) with M32. rewrite (lor_disj 32 M32 hi lo eq_refl H1). lia.
Qed.
Lemma join lo hi : lo < M32 -> N.lor (M32 * hi) lo = lo + M32 * hi.
Proof. intros H. rewrite N.mul_comm, (lor_disj 32 M32 hi lo eq_refl H). lia. Qed.
Lemma join' lo hi : lo < M32 -> N.lor lo (N.shiftl hi 32) = lo + M32 * hi.
Proof. intros H. rewrite N.lor_comm, N.shiftl_mul_pow2. change (2 ^ 32) with M32. rewrite N.mul_comm. apply join, H. Qed.

Lemma le_value_lt : forall l, Forall (fun b => b < 256) l -> le_value l < 256 ^ N.of_nat (length l).
Proof.
  induction 1 as [| b l Hb Hl IH]; [reflexivity |]. cbn [le_value length].
  rewrite Nat2N.inj_succ, N.pow_succ_r'. lia.
Qed.
Lemma le_bytes_value : forall l, Forall (fun b => b < 256) l -> le_bytes (length l) (le_value l) = l.
Proof.
  induction 1 as [| b l Hb Hl IH]; [reflexivity |]. cbn [le_value length le_bytes].
  replace ((b + 256 * le_value l) mod 256) with b by (apply N.mod_unique with (le_value l); [exact Hb | lia]).
  replace ((b + 256 * le_value l) / 256) with (le_value l) by (apply N.div_unique with b; [exact Hb | lia]).
  rewrite IH. reflexivity.
Qed.
Lemma insn_value i : i < M32 -> le_value (insn_bytes false i) = i.
Proof.
  intros H. unfold insn_bytes. cbn [le_value].
  pose proof (N.div_mod i 256). pose proof (N.div_mod (i / 256) 256). pose proof (N.div_mod (i / 65536) 256).
  rewrite !N.div_div in * by lia. change (256 * 256) with 65536 in *. change (65536 * 256) with 16777216 in *.
  lia.
Qed.
Lemma insn_lt i : i < M32 -> Forall (fun b => b < 256) (insn_bytes false i).
Proof.
  intros H. unfold insn_bytes. repeat constructor; try (apply N.mod_lt; lia).
  apply N.div_lt_upper_bound; [lia |]. exact H.
Qed.

(** The eight bytes at an address *)
Lemma collect_some m a : mapped m a 8 ->
  exists b0 b1 b2 b3 b4 b5 b6 b7, collect m a offsets = Some [b0; b1; b2; b3; b4; b5; b6; b7].
Proof.
  intros H. unfold offsets. cbn [collect].
  destruct (m (a + 0)) as [b0 |] eqn:E0; [| elim (H 0 ltac:(lia) E0)].
  destruct (m (a + 1)) as [b1 |] eqn:E1; [| elim (H 1 ltac:(lia) E1)].
  destruct (m (a + 2)) as [b2 |] eqn:E2; [| elim (H 2 ltac:(lia) E2)].
  destruct (m (a + 3)) as [b3 |] eqn:E3; [| elim (H 3 ltac:(lia) E3)].
  destruct (m (a + 4)) as [b4 |] eqn:E4; [| elim (H 4 ltac:(lia) E4)].
  destruct (m (a + 5)) as [b5 |] eqn:E5; [| elim (H 5 ltac:(lia) E5)].
  destruct (m (a + 6)) as [b6 |] eqn:E6; [| elim (H 6 ltac:(lia) E6)].
  destruct (m (a + 7)) as [b7 |] eqn:E7; [| elim (H 7 ltac:(lia) E7)].
  exists b0, b1, b2, b3, b4, b5, b6, b7. reflexivity.
Qed.
Lemma collect_inv m a l : collect m a offsets = Some l ->
  exists b0 b1 b2 b3 b4 b5 b6 b7, l = [b0; b1; b2; b3; b4; b5; b6; b7]
   /\ m a = Some b0 /\ m (a + 1) = Some b1 /\ m (a + 2) = Some b2 /\ m (a + 3) = Some b3
   /\ m (a + 4) = Some b4 /\ m (a + 5) = Some b5 /\ m (a + 6) = Some b6 /\ m (a + 7) = Some b7.
Proof.
  unfold offsets. cbn [collect]. rewrite N.add_0_r.
  destruct (m a) as [b0 |]; [| discriminate]. destruct (m (a + 1)) as [b1 |]; [| discriminate].
  destruct (m (a + 2)) as [b2 |]; [| discriminate]. destruct (m (a + 3)) as [b3 |]; [| discriminate].
  destruct (m (a + 4)) as [b4 |]; [| discriminate]. destruct (m (a + 5)) as [b5 |]; [| discriminate].
  destruct (m (a + 6)) as [b6 |]; [| discriminate]. destruct (m (a + 7)) as [b7 |]; [| discriminate].
  intros H; inversion H. exists b0, b1, b2, b3, b4, b5, b6, b7. auto 12.
Qed.
Lemma lt8 k : k < 8 -> k = 0 \/ k = 1 \/ k = 2 \/ k = 3 \/ k = 4 \/ k = 5 \/ k = 6 \/ k = 7.
Proof. lia. Qed.
Lemma mapped_of m a l : collect m a offsets = Some l -> mapped m a 8.
Proof.
  intros H k Hk. destruct (collect_inv _ _ _ H) as (b0 & b1 & b2 & b3 & b4 & b5 & b6 & b7 & _ & E0 & E1 & E2 & E3 & E4 & E5 & E6 & E7).
  destruct (lt8 k Hk) as [-> | [-> | [-> | [-> | [-> | [-> | [-> | ->]]]]]]]; rewrite ?N.add_0_r; congruence.
Qed.
(** What a word is: a low and a high half, one of them the instruction *)
Definition lo4 b0 b1 b2 b3 : N := le_value [b0; b1; b2; b3].
Lemma value_le b0 b1 b2 b3 b4 b5 b6 b7 :
  value false [b0; b1; b2; b3; b4; b5; b6; b7] = lo4 b0 b1 b2 b3 + M32 * lo4 b4 b5 b6 b7.
Proof. unfold value, lo4, M32. cbn [le_value]. lia. Qed.
Lemma value_be b0 b1 b2 b3 b4 b5 b6 b7 :
  value true [b0; b1; b2; b3; b4; b5; b6; b7] = lo4 b7 b6 b5 b4 + M32 * lo4 b3 b2 b1 b0.
Proof. unfold value, lo4, M32. cbn [rev app le_value]. lia. Qed.
Lemma lo4_lt b0 b1 b2 b3 : b0 < 256 -> b1 < 256 -> b2 < 256 -> b3 < 256 -> lo4 b0 b1 b2 b3 < M32.
Proof. intros. unfold lo4, M32. cbn [le_value]. lia. Qed.
Lemma minus1_iff x y : x < M32 -> y < M32 -> x + M32 * y = MINUS1 <-> x = M32 - 1 /\ y = M32 - 1.
Proof. unfold MINUS1, M32. lia. Qed.
Lemma lo4_ones b0 b1 b2 b3 : b0 < 256 -> b1 < 256 -> b2 < 256 -> b3 < 256 ->
  lo4 b0 b1 b2 b3 = M32 - 1 <-> b0 = 255 /\ b1 = 255 /\ b2 = 255 /\ b3 = 255.
Proof. intros. unfold lo4, M32. cbn [le_value]. lia. Qed.

Section Mem.
  Variable m : memory.
  Hypothesis m_bytes : is_bytes m.
  Variables (big : bool) (pc : N).
  Lemma peek_cases :
    (collect m pc offsets = None /\ ~ mapped m pc 8 /\ peekdata big m pc = MINUS1)
    \/ exists b0 b1 b2 b3 b4 b5 b6 b7,
        collect m pc offsets = Some [b0; b1; b2; b3; b4; b5; b6; b7]
        /\ mapped m pc 8
        /\ (m pc = Some b0 /\ m (pc + 1) = Some b1 /\ m (pc + 2) = Some b2 /\ m (pc + 3) = Some b3
           /\ m (pc + 4) = Some b4 /\ m (pc + 5) = Some b5 /\ m (pc + 6) = Some b6 /\ m (pc + 7) = Some b7)
        /\ (b0 < 256 /\ b1 < 256 /\ b2 < 256 /\ b3 < 256) /\ (b4 < 256 /\ b5 < 256 /\ b6 < 256 /\ b7 < 256)
        /\ peekdata big m pc = (if big then lo4 b7 b6 b5 b4 + M32 * lo4 b3 b2 b1 b0 else lo4 b0 b1 b2 b3 + M32 * lo4 b4 b5 b6 b7)
        /\ (peekdata big m pc = MINUS1 <-> all_ones m pc).
  Proof using m_bytes.
    destruct (collect m pc offsets) as [l |] eqn:E.
    - right. destruct (collect_inv _ _ _ E) as (b0 & b1 & b2 & b3 & b4 & b5 & b6 & b7 & -> & E0 & E1 & E2 & E3 & E4 & E5 & E6 & E7).
      exists b0, b1, b2, b3, b4, b5, b6, b7.
      pose proof (m_bytes _ _ E0). pose proof (m_bytes _ _ E1). pose proof (m_bytes _ _ E2). pose proof (m_bytes _ _ E3).
      pose proof (m_bytes _ _ E4). pose proof (m_bytes _ _ E5). pose proof (m_bytes _ _ E6). pose proof (m_bytes _ _ E7).
      assert (EP : peekdata big m pc = (if big then lo4 b7 b6 b5 b4 + M32 * lo4 b3 b2 b1 b0 else lo4 b0 b1 b2 b3 + M32 * lo4 b4 b5 b6 b7)).
      { unfold peekdata. rewrite E. destruct big; [apply value_be | apply value_le]. }
      split; [reflexivity |]. split; [eapply mapped_of, E |]. split; [auto 10 |]. split; [auto |]. split; [auto |].
      split; [exact EP |]. rewrite EP.
      assert (A : all_ones m pc <-> (b0 = 255 /\ b1 = 255 /\ b2 = 255 /\ b3 = 255) /\ (b4 = 255 /\ b5 = 255 /\ b6 = 255 /\ b7 = 255)).
      { split.
        - intros A. pose proof (A 0 ltac:(lia)) as A0. rewrite N.add_0_r in A0.
          pose proof (A 1 ltac:(lia)). pose proof (A 2 ltac:(lia)). pose proof (A 3 ltac:(lia)). pose proof (A 4 ltac:(lia)).
          pose proof (A 5 ltac:(lia)). pose proof (A 6 ltac:(lia)). pose proof (A 7 ltac:(lia)).
          repeat split; congruence.
        - intros ((-> & -> & -> & ->) & -> & -> & -> & ->) k Hk.
          destruct (lt8 k Hk) as [-> | [-> | [-> | [-> | [-> | [-> | [-> | ->]]]]]]]; rewrite ?N.add_0_r; assumption. }
      rewrite A. destruct big; rewrite minus1_iff by (apply lo4_lt; assumption); rewrite !lo4_ones by assumption; tauto.
    - left. split; [reflexivity |]. split.
      + intros H. destruct (collect_some _ _ H) as (b0 & b1 & b2 & b3 & b4 & b5 & b6 & b7 & C). congruence.
      + unfold peekdata. rewrite E. reflexivity.
  Qed.
  Lemma insn_inj b0 b1 b2 b3 i : b0 < 256 -> b1 < 256 -> b2 < 256 -> b3 < 256 -> i < M32 ->
    lo4 b0 b1 b2 b3 = i <-> [b0; b1; b2; b3] = insn_bytes false i.
  Proof using.
    intros H0 H1 H2 H3 Hi. unfold lo4. split.
    - intros E. rewrite <- (le_bytes_value [b0; b1; b2; b3]) by (repeat constructor; assumption).
      rewrite <- (le_bytes_value (insn_bytes false i)) by (apply insn_lt, Hi).
      rewrite E, insn_value by exact Hi. reflexivity.
    - intros ->. apply insn_value, Hi.
  Qed.
  Lemma holds4 b0 b1 b2 b3 c0 c1 c2 c3 : m pc = Some b0 -> m (pc + 1) = Some b1 -> m (pc + 2) = Some b2 -> m (pc + 3) = Some b3 ->
    holds m pc [c0; c1; c2; c3] <-> [b0; b1; b2; b3] = [c0; c1; c2; c3].
  Proof using.
    intros E0 E1 E2 E3. unfold holds. split.
    - intros H. pose proof (H 0%nat ltac:(cbn; lia)) as A0. pose proof (H 1%nat ltac:(cbn; lia)) as A1.
      pose proof (H 2%nat ltac:(cbn; lia)) as A2. pose proof (H 3%nat ltac:(cbn; lia)) as A3. cbn in A0, A1, A2, A3.
      rewrite N.add_0_r in A0. rewrite E0 in A0. rewrite E1 in A1. rewrite E2 in A2. rewrite E3 in A3. congruence.
    - intros H; inversion H; subst. intros k Hk.
      destruct k as [| [| [| [| k]]]]; cbn; rewrite ?N.add_0_r; try assumption. cbn in Hk. lia.
  Qed.
  (** The instruction that memory holds is read, from eight bytes. *)
  Theorem read_ok i :
    read_insn big m pc = Some i <-> mapped m pc 8 /\ ~ all_ones m pc /\ i < 2 ^ 32 /\ holds m pc (insn_bytes big i).
  Proof using m_bytes.
    unfold read_insn. change (2 ^ 32) with M32.
    destruct peek_cases as [(E & Hn & ->) | (b0 & b1 & b2 & b3 & b4 & b5 & b6 & b7 & E & Hm & (E0 & E1 & E2 & E3 & _) & (H0 & H1 & H2 & H3) & (H4 & H5 & H6 & H7) & EP & EO)].
    - rewrite N.eqb_refl. split; [discriminate | intros [C _]; contradiction].
    - destruct (N.eqb_spec (peekdata big m pc) MINUS1) as [C | C].
      + split; [discriminate | intros (_ & A & _); elim A; apply EO, C].
      + assert (NA : ~ all_ones m pc) by (intros A; apply C, EO, A).
        rewrite EP. destruct big.
        * rewrite hi_lo by (apply lo4_lt; assumption). unfold insn_bytes.
          cbn [rev app]. rewrite (holds4 b0 b1 b2 b3) by assumption.
          split.
          -- intros Hi; inversion Hi; subst i. assert (L : lo4 b3 b2 b1 b0 < M32) by (apply lo4_lt; assumption).
             repeat split; auto. assert (G := proj1 (insn_inj b3 b2 b1 b0 _ H3 H2 H1 H0 L) eq_refl).
             unfold insn_bytes in G. apply (f_equal (@rev N)) in G. cbn [rev app] in G. exact G.
          -- intros (_ & _ & L & G). f_equal. apply insn_inj; auto. unfold insn_bytes. inversion G. reflexivity.
        * rewrite lo_hi by (apply lo4_lt; assumption).
          assert (X : forall j, insn_bytes false j = [j mod 256; j / 256 mod 256; j / 65536 mod 256; j / 16777216]) by reflexivity.
          rewrite X, (holds4 b0 b1 b2 b3) by assumption. rewrite <- X. split.
          -- intros Hi; inversion Hi; subst i. assert (L : lo4 b0 b1 b2 b3 < M32) by (apply lo4_lt; assumption).
             repeat split; auto. apply insn_inj; auto.
          -- intros (_ & _ & L & G). f_equal. apply insn_inj; auto.
  Qed.
  Lemma put8 c0 c1 c2 c3 c4 c5 c6 c7 q :
    put m pc [c0; c1; c2; c3; c4; c5; c6; c7] q =
      if q =? pc + 7 then Some c7 else if q =? pc + 6 then Some c6 else if q =? pc + 5 then Some c5 else if q =? pc + 4 then Some c4
      else if q =? pc + 3 then Some c3 else if q =? pc + 2 then Some c2 else if q =? pc + 1 then Some c1 else if q =? pc then Some c0 else m q.
  Proof using.
    cbn [put]. rewrite <- !N.add_assoc. reflexivity.
  Qed.
  Lemma bytes_of b0 b1 b2 b3 b4 b5 b6 b7 : b0 < 256 -> b1 < 256 -> b2 < 256 -> b3 < 256 -> b4 < 256 -> b5 < 256 -> b6 < 256 -> b7 < 256 ->
    le_bytes 8 (lo4 b0 b1 b2 b3 + M32 * lo4 b4 b5 b6 b7) = [b0; b1; b2; b3; b4; b5; b6; b7].
  Proof using.
    intros. rewrite <- value_le. unfold value. apply (le_bytes_value [b0; b1; b2; b3; b4; b5; b6; b7]). repeat constructor; assumption.
  Qed.
  (** Writing changes the instruction and nothing else. *)
  Theorem write_ok i : i < 2 ^ 32 ->
    match write_insn big m pc i with
    | Some m' => mapped m pc 8 /\ ~ all_ones m pc /\ is_bytes m' /\ holds m' pc (insn_bytes big i)
                 /\ forall q, (q < pc \/ pc + 4 <= q) -> m' q = m q
    | None => ~ mapped m pc 8 \/ all_ones m pc
    end.
  Proof using m_bytes.
    change (2 ^ 32) with M32. intros Hi. unfold write_insn.
    destruct peek_cases as [(E & Hn & ->) | (b0 & b1 & b2 & b3 & b4 & b5 & b6 & b7 & E & Hm & (E0 & E1 & E2 & E3 & E4 & E5 & E6 & E7) & (H0 & H1 & H2 & H3) & (H4 & H5 & H6 & H7) & EP & EO)].
    - rewrite N.eqb_refl. left. exact Hn.
    - destruct (N.eqb_spec (peekdata big m pc) MINUS1) as [C | C]; [right; apply EO, C |].
      assert (NA : ~ all_ones m pc) by (intros A; apply C, EO, A).
      unfold pokedata. rewrite E, EP.
      destruct (insn_bytes false i) as [| i0 [| i1 [| i2 [| i3 [|]]]]] eqn:EI; try discriminate EI.
      pose proof (insn_lt i Hi) as HL. rewrite EI in HL.
      assert (J : i0 < 256 /\ i1 < 256 /\ i2 < 256 /\ i3 < 256).
      { inversion HL as [| ? ? J0 T0]; inversion T0 as [| ? ? J1 T1]; inversion T1 as [| ? ? J2 T2]; inversion T2 as [| ? ? J3 T3]; auto. }
      destruct J as (J0 & J1 & J2 & J3).
      assert (EV : i = lo4 i0 i1 i2 i3) by (unfold lo4; rewrite <- EI; symmetry; apply insn_value, Hi).
      assert (G : exists c0 c1 c2 c3, insn_bytes big i = [c0; c1; c2; c3] /\ c0 < 256 /\ c1 < 256 /\ c2 < 256 /\ c3 < 256 /\
        bytes big (if big
           then N.lor (N.land (if big then lo4 b7 b6 b5 b4 + M32 * lo4 b3 b2 b1 b0 else lo4 b0 b1 b2 b3 + M32 * lo4 b4 b5 b6 b7) 0xffffffff) (N.shiftl i 32)
           else N.lor (N.land (if big then lo4 b7 b6 b5 b4 + M32 * lo4 b3 b2 b1 b0 else lo4 b0 b1 b2 b3 + M32 * lo4 b4 b5 b6 b7) 0xffffffff00000000) i)
        = [c0; c1; c2; c3; b4; b5; b6; b7]).
      { destruct big.
        - exists i3, i2, i1, i0. repeat split; auto.
          + unfold insn_bytes in *. inversion EI. reflexivity.
          + rewrite lo_hi by (apply lo4_lt; assumption). rewrite join' by (apply lo4_lt; assumption).
            rewrite EV. unfold bytes. rewrite bytes_of by assumption. reflexivity.
        - exists i0, i1, i2, i3. repeat split; auto.
          rewrite keep_hi by (apply lo4_lt; assumption). rewrite join by exact Hi.
          rewrite EV at 1. unfold bytes. rewrite bytes_of by assumption. reflexivity. }
      destruct G as (c0 & c1 & c2 & c3 & -> & K0 & K1 & K2 & K3 & G). rewrite G. clear G.
      split; [exact Hm |]. split; [exact NA |].
      assert (Q : forall q, put m pc [c0; c1; c2; c3; b4; b5; b6; b7] q =
         if q =? pc then Some c0 else if q =? pc + 1 then Some c1 else if q =? pc + 2 then Some c2 else if q =? pc + 3 then Some c3 else m q).
      { intros q. rewrite put8.
        destruct (N.eqb_spec q (pc + 7)) as [e | n7]; [subst q; repeat (match goal with |- context [?a =? ?b] => destruct (N.eqb_spec a b); [lia |] end); congruence |].
        destruct (N.eqb_spec q (pc + 6)) as [e | n6]; [subst q; repeat (match goal with |- context [?a =? ?b] => destruct (N.eqb_spec a b); [lia |] end); congruence |].
        destruct (N.eqb_spec q (pc + 5)) as [e | n5]; [subst q; repeat (match goal with |- context [?a =? ?b] => destruct (N.eqb_spec a b); [lia |] end); congruence |].
        destruct (N.eqb_spec q (pc + 4)) as [e | n4]; [subst q; repeat (match goal with |- context [?a =? ?b] => destruct (N.eqb_spec a b); [lia |] end); congruence |].
        repeat (match goal with |- context [?a =? ?b] => destruct (N.eqb_spec a b) end); try reflexivity; lia. }
      split; [| split].
      + intros q b. rewrite Q. repeat (match goal with |- context [?a =? ?b] => destruct (N.eqb_spec a b) end);
          try (intros X; inversion X; subst; assumption). apply m_bytes.
      + intros k Hk. destruct k as [| [| [| [| k]]]]; [| | | | cbn in Hk; lia]; rewrite Q; cbn [N.of_nat Pos.of_succ_nat nth_error];
          rewrite ?N.add_0_r;
          repeat (match goal with |- context [?a =? ?b] => destruct (N.eqb_spec a b) end); try reflexivity; lia.
      + intros q Hq. rewrite Q. repeat (match goal with |- context [?a =? ?b] => destruct (N.eqb_spec a b) end); try reflexivity; lia.
  Qed.
End Mem.
Lemma insn_bytes4 big i : exists c0 c1 c2 c3, insn_bytes big i = [c0; c1; c2; c3].
Proof. destruct big; do 4 eexists; reflexivity. Qed.
(** Putting an instruction back restores the program. *)
Theorem restore_ok m big pc old new m1 : is_bytes m -> new < 2 ^ 32 ->
  read_insn big m pc = Some old -> write_insn big m pc new = Some m1 -> ~ all_ones m1 pc ->
  exists m2, write_insn big m1 pc old = Some m2 /\ forall q, m2 q = m q.
Proof.
  intros Hb Hnew Hr Hw Hn. apply read_ok in Hr; [| exact Hb]. destruct Hr as (Hm & _ & Hold & Hh).
  pose proof (write_ok m Hb big pc new Hnew) as W. rewrite Hw in W. destruct W as (_ & _ & Hb1 & Hh1 & Ho).
  pose proof (write_ok m1 Hb1 big pc old Hold) as W2.
  destruct (write_insn big m1 pc old) as [m2 |].
  - destruct W2 as (_ & _ & _ & Hh2 & Ho2). exists m2. split; [reflexivity |]. intros q.
    destruct (N.lt_ge_cases q pc) as [Hq | Hq]; [rewrite Ho2, Ho by (left; exact Hq); reflexivity |].
    destruct (N.lt_ge_cases q (pc + 4)) as [Hq4 | Hq4]; [| rewrite Ho2, Ho by (right; exact Hq4); reflexivity].
    destruct (insn_bytes4 big old) as (c0 & c1 & c2 & c3 & E). rewrite E in *.
    specialize (Hh (N.to_nat (q - pc)) ltac:(cbn; lia)). specialize (Hh2 (N.to_nat (q - pc)) ltac:(cbn; lia)).
    rewrite N2Nat.id in Hh, Hh2. replace (pc + (q - pc)) with q in Hh, Hh2 by lia. congruence.
  - exfalso. destruct W2 as [C | C]; [| contradiction]. apply C. intros k Hk.
    destruct (N.lt_ge_cases k 4) as [H4 | H4].
    + destruct (insn_bytes4 big new) as (c0 & c1 & c2 & c3 & E). rewrite E in Hh1.
      specialize (Hh1 (N.to_nat k) ltac:(cbn; lia)). rewrite N2Nat.id in Hh1. rewrite Hh1.
      intros D. apply nth_error_None in D. cbn in D. lia.
    + rewrite Ho by (right; lia). apply Hm, Hk.
Qed.
