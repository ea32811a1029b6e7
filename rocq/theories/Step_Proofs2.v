Require Import NArith ZArith List Bool Lia Arith.
Require Import ZifyBool ZifyN ZifyNat.
Require Import Verif.Word Verif.Storage_Spec Verif.Storage_Proofs Verif.Step_Model Verif.Step_Spec
  Verif.Step_Proofs.
Import ListNotations.
Local Open Scope N_scope.

Lemma bits_op w : w < W32 -> bits w 0 6 = w / 67108864.
Proof.
  intro H. unfold bits. change (2 ^ (32 - 0 - 6)) with 67108864. change (2 ^ 6) with 64.
  apply N.mod_small. unfold W32 in H. lia.
Qed.
Lemma land_op w : w < W32 -> N.land w 0xfc000000 = bits w 0 6 * 67108864.
Proof.
  intro H. change 0xfc000000 with (N.shiftl (N.ones 6) 26). now rewrite land_field.
Qed.
Lemma land_op_xo w : w < W32 -> N.land w 0xfc0007fe = bits w 0 6 * 67108864 + bits w 21 10 * 2.
Proof.
  intro H. change 0xfc0007fe with (N.lor 0xfc000000 (N.shiftl (N.ones 10) 1)).
  rewrite N.land_lor_distr_r, land_op, land_field by assumption.
  change (2 ^ 1) with (2 ^ (32 - 21 - 10)). fold (bits w 21 10).
  change (2 ^ (32 - 21 - 10)) with 2. change 67108864 with (2 ^ 26).
  apply lor_disjoint_add. pose proof (bits_lt w 21 10) as L. change (2 ^ 10) with 1024 in L.
  change (2 ^ 26) with 67108864. lia.
Qed.
Lemma land_op_xo_rc w : w < W32 ->
  N.land w 0xfc0007ff = bits w 0 6 * 67108864 + bits w 21 10 * 2 + bits w 31 1.
Proof.
  intro H. change 0xfc0007ff with (N.lor 0xfc0007fe (N.ones 1)).
  rewrite N.land_lor_distr_r, land_op_xo, N.land_ones by assumption.
  assert (E : bits w 31 1 = w mod 2) by (unfold bits; change (2 ^ (32 - 31 - 1)) with 1; now rewrite N.div_1_r).
  rewrite E. change (2 ^ 1) with 2.
  replace (bits w 0 6 * 67108864 + bits w 21 10 * 2) with ((bits w 0 6 * 33554432 + bits w 21 10) * 2) by lia.
  apply (lor_disjoint_add _ _ 1). change (2 ^ 1) with 2. lia.
Qed.

Lemma is_larx_iff w : w < W32 -> is_larx w = true <-> larx w.
Proof.
  intro H. unfold is_larx, larx. rewrite land_op_xo by assumption.
  pose proof (bits_lt w 21 10) as L. change (2 ^ 10) with 1024 in L.
  generalize dependent (bits w 21 10). generalize (bits w 0 6). intros o x L. clear H. cbn [In]. lia.
Qed.
Lemma is_stcx_iff w : w < W32 -> is_stcx w = true <-> stcx w.
Proof.
  intro H. unfold is_stcx, stcx. rewrite land_op_xo_rc by assumption.
  pose proof (bits_lt w 21 10) as L. change (2 ^ 10) with 1024 in L.
  pose proof (bits_lt w 31 1) as L1. change (2 ^ 1) with 2 in L1.
  generalize dependent (bits w 31 1).
  generalize dependent (bits w 21 10). generalize (bits w 0 6). intros o x L r L1. clear H. cbn [In]. lia.
Qed.
Lemma is_branch_iff w : w < W32 -> is_branch w = true <-> bform w.
Proof. intro H. unfold is_branch, bform. rewrite land_op by assumption. lia. Qed.

Lemma larx_not_stcx w : larx w -> ~ stcx w.
Proof. unfold larx, stcx. cbn [In]. lia. Qed.
Lemma stcx_not_bform w : stcx w -> ~ bform w.
Proof. unfold bform, stcx. lia. Qed.

Lemma target_eq w a : w < W32 -> a < w64 -> branch_target w a = target w a.
Proof.
  intros Hw Ha. unfold branch_target, target.
  assert (Ei : s32 (u32 (N.lxor (N.land w 65532) 32768 + w32 - 32768)) = (4 * exts (bits w 16 14) 14)%Z).
  { change 65532 with (N.shiftl (N.ones 14) 2). rewrite land_field.
    change (2 ^ 2) with (2 ^ (32 - 16 - 14)). fold (bits w 16 14).
    change (2 ^ (32 - 16 - 14)) with 4.
    pose proof (bits_lt w 16 14) as L. change (2 ^ 14) with 16384 in L.
    generalize dependent (bits w 16 14). intros q L.
    unfold exts. change (14 - 1) with 13. change (2 ^ 13) with 8192.
    change (2 ^ Z.of_N 14)%Z with 16384%Z.
    change 32768 with (2 ^ 15). destruct (q <? 8192) eqn:E.
    - rewrite lxor_low by (change (2 ^ 15) with 32768; lia). change (2 ^ 15) with 32768.
      unfold u32, s32, w32 in *. rewrite N.mod_mod by lia.
      replace (q * 4 + 32768 + 4294967296 - 32768) with (q * 4 + 1 * 4294967296) by lia.
      rewrite N.mod_add, N.mod_small by lia. replace (_ <? _) with true by lia. lia.
    - rewrite lxor_high by (change (2 ^ 15) with 32768; lia). change (2 ^ 15) with 32768.
      unfold u32, s32, w32 in *. rewrite N.mod_mod by lia.
      rewrite N.mod_small by lia. replace (_ <? _) with false by lia. lia. }
  rewrite Ei. set (d := (4 * exts (bits w 16 14) 14)%Z).
  assert (Ez : forall z, z64 z = word64 z) by reflexivity.
  rewrite Ez.
  assert (Eb : N.land w 2 = bits w 30 1 * 2).
  { change 2 with (N.shiftl (N.ones 1) 1) at 1. now rewrite land_field. }
  rewrite Eb. pose proof (bits_lt w 30 1) as L. change (2 ^ 1) with 2 in L.
  destruct (bits w 30 1 =? 1) eqn:E1.
  - replace (bits w 30 1 * 2 =? 0) with false by lia. reflexivity.
  - replace (bits w 30 1 * 2 =? 0) with true by lia. cbn [negb].
    rewrite <- add64_word, word64_of_N, (N.mod_small a) by assumption. reflexivity.
Qed.

Lemma target_aligned w a : a mod 4 = 0 -> target w a mod 4 = 0.
Proof.
  intro Ha. unfold target. apply N2Z.inj. rewrite N2Z.inj_mod, word64_Z by lia.
  assert (X : exists q, ((if (bits w 30 1 =? 1)%N then 0 else Z.of_N a) + 4 * exts (bits w 16 14) 14 = 4 * q)%Z).
  { destruct (bits w 30 1 =? 1); [eexists; rewrite Z.add_0_l; reflexivity|].
    exists (Z.of_N (a / 4) + exts (bits w 16 14) 14)%Z. lia. }
  destruct X as [q ->]. change (Z.of_N 4) with 4%Z. change (Z.of_N 0) with 0%Z.
  clear. lia.
Qed.

Lemma words_ok m : words m <-> ok m.
Proof. reflexivity. Qed.

Lemma count_front m p n :
  count_bform m p (S n) =
  (match m p with Some w => if (bits w 0 6 =? 16)%N then 1 else 0 | None => 0 end
   + count_bform m (p + 4) n)%nat.
Proof.
  induction n as [|n IH].
  - cbn [count_bform]. replace (p + 4 * N.of_nat 0) with p by lia. lia.
  - cbn [count_bform] in *. rewrite IH.
    replace (p + 4 * N.of_nat (S n)) with (p + 4 + 4 * N.of_nat n) by lia. lia.
Qed.

Section HOST.
  Variable be : bool.
  Variable poke_ok : N -> bool.

  Lemma scan_complete m : ok m -> forall n gap p i0 bs,
    (n < gap)%nat -> p + 4 * N.of_nat gap < w64 ->
    (forall k, (k <= n)%nat -> readable m (p + 4 * N.of_nat k)) ->
    (forall k w, (k < n)%nat -> m (p + 4 * N.of_nat k) = Some w -> ~ stcx w) ->
    (forall w, m (p + 4 * N.of_nat n) = Some w -> stcx w) ->
    (length bs + count_bform m p n <= 7)%nat ->
    exists q insn bs', scan be m gap p i0 bs = Some (q, insn, bs') /\ is_stcx insn = true.
  Proof. clear poke_ok.
    intros Hm. induction n as [|n IH]; intros gap p i0 bs Hg Hp Hr Hn Hs Hc;
      (destruct gap as [|gap]; [lia|]); cbn [scan].
    - specialize (Hr 0%nat ltac:(lia)). replace (p + 4 * N.of_nat 0) with p in * by lia.
      rewrite (read_readable _ _ _ Hm Hr). destruct Hr as (w0 & w1 & E0 & _). rewrite E0.
      specialize (Hs _ E0). rewrite <- is_stcx_iff in Hs by (eapply Hm; eauto). rewrite Hs. eauto.
    - assert (Hr0 := Hr 0%nat ltac:(lia)). assert (Hn0 := fun w => Hn 0%nat w ltac:(lia)).
      replace (p + 4 * N.of_nat 0) with p in * by lia.
      rewrite (read_readable _ _ _ Hm Hr0). destruct Hr0 as (w0 & w1 & E0 & _). rewrite E0.
      specialize (Hn0 _ E0). rewrite <- is_stcx_iff in Hn0 by (eapply Hm; eauto).
      destruct (is_stcx w0); [congruence|].
      rewrite count_front, E0 in Hc.
      assert (Ea : add64 p 4 = p + 4) by (unfold add64; apply N.mod_small; lia). rewrite Ea.
      assert (Eq : forall k, p + 4 + 4 * N.of_nat k = p + 4 * N.of_nat (S k)) by (intro; lia).
      assert (Hb : is_branch w0 = (bits w0 0 6 =? 16)).
      { apply eq_true_iff_eq. rewrite is_branch_iff by (eapply Hm; eauto). unfold bform. lia. }
      rewrite <- Hb in Hc. destruct (is_branch w0).
      + replace (Nat.eqb _ _) with false by (symmetry; apply Nat.eqb_neq; cbn; lia).
        apply IH; try lia.
        * intros k Hk. rewrite Eq. apply Hr. lia.
        * intros k w Hk. rewrite Eq. apply Hn. lia.
        * intros w. rewrite Eq. apply Hs.
        * rewrite app_length. cbn [length]. lia.
      + apply IH; try lia.
        * intros k Hk. rewrite Eq. apply Hr. lia.
        * intros k w Hk. rewrite Eq. apply Hn. lia.
        * intros w. rewrite Eq. apply Hs.
  Qed.

  Lemma insert_exit bs : forall m m', ok m ->
    insert_breakpoints be poke_ok m bs = InsExit m' ->
    forall a, m' a = m a \/ (In a (kept bs) /\ m' a = Some BREAKPOINT_INSN).
  Proof.
    induction bs as [|b r IH]; intros m m' Hm H a; cbn [insert_breakpoints] in H; [discriminate|].
    rewrite in_kept. cbn [In].
    assert (Hk : In a (kept r) -> In a r /\ a <> MINUS1) by (rewrite in_kept; auto).
    destruct (b =? MINUS1) eqn:Eb.
    - destruct (insert_breakpoints be poke_ok m r) as [|m1] eqn:E; [discriminate|].
      injection H as <-. destruct (IH _ _ Hm E a) as [?|[? ?]]; [auto|]. right. tauto.
    - destruct (read_insn be m b) as [v|] eqn:Er; [|injection H as <-; auto].
      destruct (write_insn be poke_ok m b BREAKPOINT_INSN) as [m1|] eqn:Ew; [|injection H as <-; auto].
      destruct (insert_breakpoints be poke_ok m1 r) as [|m2] eqn:E; [discriminate|].
      injection H as <-.
      destruct (write_insn_val _ _ _ _ _ _ Hm bp_lt Ew) as [U1 Hm1].
      destruct (IH _ _ Hm1 E a) as [X|[? ?]]; [|right; tauto].
      rewrite U1 in X. unfold upd in X. destruct (a =? b) eqn:Ea; [|auto].
      right. apply N.eqb_eq in Ea. subst b. split; [|exact X]. split; [auto|]. lia.
  Qed.

  Lemma remove_exit saved : forall m2 m', ok m2 ->
    (forall a v, In (a, v) saved -> a <> MINUS1 -> v < W32) ->
    remove_breakpoints be poke_ok m2 saved = inr m' ->
    forall a, m' a = m2 a \/ exists v, In (a, v) saved /\ a <> MINUS1 /\ m' a = Some v.
  Proof.
    induction saved as [|[b w] r IH]; intros m2 m' Hm Hv H a; cbn [remove_breakpoints] in H;
      [discriminate|].
    assert (Hv' : forall a v, In (a, v) r -> a <> MINUS1 -> v < W32) by (intros; eapply Hv; cbn; eauto).
    assert (Hk : (exists v, In (a, v) r /\ a <> MINUS1 /\ m' a = Some v) ->
                 exists v, In (a, v) ((b, w) :: r) /\ a <> MINUS1 /\ m' a = Some v).
    { intros (v & ? & ?). exists v. cbn. tauto. }
    destruct (b =? MINUS1) eqn:Eb.
    - destruct (IH _ _ Hm Hv' H a) as [?|?]; auto.
    - destruct (read_insn be m2 b) as [x|] eqn:Er; [|injection H as <-; auto].
      destruct (x =? BREAKPOINT_INSN); cbn [negb] in H.
      + destruct (write_insn be poke_ok m2 b w) as [m3|] eqn:Ew; [|injection H as <-; auto].
        destruct (write_insn_val _ _ _ _ _ _ Hm (Hv b w (or_introl eq_refl) ltac:(lia)) Ew) as [U3 Hm3].
        destruct (IH _ _ Hm3 Hv' H a) as [X|?]; [|auto].
        rewrite U3 in X. unfold upd in X. destruct (a =? b) eqn:Ea; [|auto].
        right. exists w. apply N.eqb_eq in Ea. subst b. cbn. split; [auto|]. split; [lia|exact X].
      + destruct (IH _ _ Hm Hv' H a) as [?|?]; auto.
  Qed.

  Lemma readable_bp m m1 a b : readable m a -> (forall c, m1 c = upd m b BREAKPOINT_INSN c) ->
    readable m1 a.
  Proof. clear be poke_ok.
    intros (w0 & w1 & E0 & E1 & Nx) U. unfold readable. rewrite !U. unfold upd.
    destruct (a =? b) eqn:Ea, (a + 4 =? b) eqn:Eb.
    - lia.
    - exists BREAKPOINT_INSN, w1. repeat split; auto. intros [X _]. discriminate.
    - exists w0, BREAKPOINT_INSN. repeat split; auto. intros [_ X]. discriminate.
    - exists w0, w1. auto.
  Qed.

  Lemma insert_complete bs : forall m, ok m ->
    (forall a, In a (kept bs) -> readable m a /\ poke_ok a = true) ->
    exists m1 saved, insert_breakpoints be poke_ok m bs = InsOk m1 saved.
  Proof.
    induction bs as [|b r IH]; intros m Hm Hr; cbn [insert_breakpoints]; [eauto|].
    assert (Hr' : forall a, In a (kept r) -> readable m a /\ poke_ok a = true).
    { intros a Ha. apply Hr. rewrite in_kept in *. cbn. tauto. }
    destruct (b =? MINUS1) eqn:Eb.
    - destruct (IH m Hm Hr') as (m1 & s & ->). eauto.
    - destruct (Hr b) as [Rb Pb]; [rewrite in_kept; cbn; split; [auto|lia]|].
      rewrite (read_readable _ _ _ Hm Rb). destruct Rb as (w0 & w1 & E0 & E1 & Nx). rewrite E0.
      destruct (write_readable be poke_ok m b BREAKPOINT_INSN Hm) as [m1 Ew]; [exists w0, w1; auto|exact Pb|].
      rewrite Ew. destruct (write_insn_val _ _ _ _ _ _ Hm bp_lt Ew) as [U1 Hm1].
      destruct (IH m1 Hm1) as (m2 & s & ->); [|eauto].
      intros a Ha. destruct (Hr' a Ha). split; [|auto]. eapply readable_bp; eauto.
  Qed.

  (** Removal goes through when the doublewords are still mapped. *)
  Lemma remove_complete saved : forall m2, ok m2 -> NoDup (kept (map fst saved)) ->
    (forall a v, In (a, v) saved -> a <> MINUS1 ->
       v < W32 /\ poke_ok a = true /\ m2 a = Some BREAKPOINT_INSN /\ m2 (a + 4) <> None) ->
    exists m', remove_breakpoints be poke_ok m2 saved = inl m'.
  Proof.
    induction saved as [|[b w] r IH]; intros m2 Hm Hd Hr; cbn [remove_breakpoints]; [eauto|].
    cbn [map fst] in Hd. unfold kept in Hd. cbn [filter] in Hd. fold (kept (map fst r)) in Hd.
    destruct (b =? MINUS1) eqn:Eb; cbn [negb] in Hd.
    - apply IH; auto. intros; apply Hr; cbn; auto.
    - inversion Hd as [|? ? Hnin Hd']; subst.
      destruct (Hr b w) as (Hw & Pb & Ebp & E4); [cbn; auto|lia|].
      assert (Rb : readable m2 b).
      { destruct (m2 (b + 4)) as [w1|] eqn:E1; [|congruence].
        exists BREAKPOINT_INSN, w1. repeat split; auto. intros [X _]. discriminate. }
      rewrite (read_readable _ _ _ Hm Rb), Ebp, N.eqb_refl. cbn [negb].
      destruct (write_readable be poke_ok m2 b w Hm Rb Pb) as [m3 Ew]. rewrite Ew.
      destruct (write_insn_val _ _ _ _ _ _ Hm Hw Ew) as [U3 Hm3].
      apply IH; auto. intros a v Ha Hn. destruct (Hr a v) as (H1 & H2 & H3 & H4); [cbn; auto|exact Hn|].
      repeat split; auto.
      + rewrite U3. unfold upd. destruct (a =? b) eqn:Ea; [|exact H3].
        apply N.eqb_eq in Ea. subst b. elim Hnin. rewrite in_kept. split; [|exact Hn].
        apply in_map_iff. exists (a, v). auto.
      + rewrite U3. unfold upd. destruct (a + 4 =? b); [discriminate|exact H4].
  Qed.
End HOST.
