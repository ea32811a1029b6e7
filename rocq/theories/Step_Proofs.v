Require Import NArith ZArith List Bool Lia Arith.
Require Import ZifyBool ZifyN ZifyNat.
Require Import Verif.Word Verif.Storage_Spec Verif.Storage_Proofs Verif.Step_Model Verif.Step_Spec.
Import ListNotations.
Local Open Scope N_scope.

Definition W32 : N := 4294967296.
Definition ok (m : mem) : Prop := forall a w, m a = Some w -> w < W32.

Lemma some_inj {A} (x y : A) : Some x = Some y -> x = y.
Proof. congruence. Qed.
Lemma dw_val w0 w1 : w1 < W32 -> N.lor (N.shiftl w0 32) w1 = w0 * W32 + w1.
Proof. intro H. rewrite N.shiftl_mul_pow2. now apply lor_disjoint_add. Qed.
Lemma dw_lor w0 w1 : w1 < W32 -> N.lor (w0 * W32) w1 = w0 * W32 + w1.
Proof. intro H. now apply (lor_disjoint_add w0 w1 32). Qed.
Lemma dw_lo w0 w1 : w1 < W32 -> N.land (w0 * W32 + w1) 4294967295 = w1.
Proof.
  intro H. change 4294967295 with (N.ones 32). rewrite N.land_ones.
  change (2 ^ 32) with W32. rewrite N.add_comm, N.mod_add by (now unfold W32).
  now apply N.mod_small.
Qed.
Lemma dw_hi w0 w1 : w1 < W32 -> N.shiftr (w0 * W32 + w1) 32 = w0.
Proof.
  intro H. rewrite N.shiftr_div_pow2. change (2 ^ 32) with W32.
  rewrite N.div_add_l by (now unfold W32). rewrite N.div_small by assumption. lia.
Qed.
Lemma dw_hi_mask w0 w1 : w0 < W32 -> w1 < W32 ->
  N.land (w0 * W32 + w1) 18446744069414584320 = w0 * W32.
Proof.
  intros H0 H. change 18446744069414584320 with (N.shiftl (N.ones 32) 32). rewrite land_field.
  change (2 ^ 32) with W32. rewrite N.div_add_l by (now unfold W32).
  rewrite (N.div_small w1) by assumption. rewrite N.add_0_r, N.mod_small by assumption. reflexivity.
Qed.

Section HOST.
  Variable be : bool.
  Variable poke_ok : N -> bool.
  Notation read_insn := (read_insn be).
  Notation write_insn := (write_insn be poke_ok).

  Lemma read_insn_val m a v : ok m -> read_insn m a = Some v ->
    m a = Some v /\ m (a + 4) <> None.
  Proof.
    intros Hm. unfold Step_Model.read_insn, peek.
    destruct (m a) as [w0|] eqn:E0; [|discriminate].
    destruct (m (a + 4)) as [w1|] eqn:E1; [|discriminate].
    pose proof (Hm _ _ E0) as L0. pose proof (Hm _ _ E1) as L1.
    destruct be; rewrite dw_val by assumption;
      (destruct (_ =? MINUS1); [discriminate|]).
    - rewrite dw_hi by assumption. intro H. split; [exact H|discriminate].
    - rewrite dw_lo by assumption. intro H. split; [exact H|discriminate].
  Qed.

  (** Words that the tracer can read: both are mapped and not all ones *)
  Definition readable (m : mem) (a : N) : Prop :=
    exists w0 w1, m a = Some w0 /\ m (a + 4) = Some w1 /\
      ~ (w0 = 4294967295 /\ w1 = 4294967295).

  Lemma dw_minus1 w0 w1 : w0 < W32 -> w1 < W32 ->
    (w0 * W32 + w1 =? MINUS1) = (w0 =? 4294967295) && (w1 =? 4294967295).
  Proof. clear be poke_ok. unfold W32, MINUS1. lia. Qed.

  Lemma read_readable m a : ok m -> readable m a -> read_insn m a = m a.
  Proof. clear poke_ok.
    intros Hm (w0 & w1 & E0 & E1 & N1). unfold Step_Model.read_insn, peek. rewrite E0, E1.
    pose proof (Hm _ _ E0) as L0. pose proof (Hm _ _ E1) as L1.
    destruct be; rewrite dw_val, dw_minus1 by assumption.
    - replace (_ && _) with false by (clear -N1; lia). now rewrite dw_hi.
    - replace (_ && _) with false by (clear -N1; lia). now rewrite dw_lo.
  Qed.

  Lemma readable_read m a v : ok m -> read_insn m a = Some v -> readable m a.
  Proof.
    intros Hm. unfold Step_Model.read_insn, peek, readable.
    destruct (m a) as [w0|] eqn:E0; [|discriminate].
    destruct (m (a + 4)) as [w1|] eqn:E1; [|discriminate].
    pose proof (Hm _ _ E0) as L0. pose proof (Hm _ _ E1) as L1.
    intro H. exists w0, w1. repeat split; auto. intros [-> ->].
    destruct be; cbn in H; discriminate.
  Qed.

  Lemma write_insn_val m a v m' : ok m -> v < W32 -> write_insn m a v = Some m' ->
    (forall b, m' b = upd m a v b) /\ ok m'.
  Proof.
    intros Hm Hv H.
    assert (X : forall b, m' b = upd m a v b).
    { revert H. unfold Step_Model.write_insn, peek.
      destruct (m a) as [w0|] eqn:E0; [|discriminate].
      destruct (m (a + 4)) as [w1|] eqn:E1; [|discriminate].
      pose proof (Hm _ _ E0) as L0. pose proof (Hm _ _ E1) as L1.
      unfold poke. intros H b.
      destruct (poke_ok a); [|destruct (_ =? MINUS1); discriminate].
      destruct be; rewrite dw_val in H by assumption;
        (destruct (_ =? MINUS1); [discriminate|]); apply some_inj in H; subst m'.
      - rewrite dw_lo by assumption. rewrite N.lor_comm, dw_val by assumption.
        rewrite dw_lo, dw_hi by assumption. unfold upd.
        destruct (b =? a + 4) eqn:Eb; [|reflexivity].
        apply N.eqb_eq in Eb. subst b. rewrite E1. now replace (a + 4 =? a) with false by lia.
      - rewrite dw_hi_mask by assumption.
        rewrite !dw_lor by assumption.
        rewrite dw_lo, dw_hi by assumption. unfold upd.
        destruct (b =? a + 4) eqn:Eb; [|reflexivity].
        apply N.eqb_eq in Eb. subst b. rewrite E1. now replace (a + 4 =? a) with false by lia. }
    split; [exact X|].
    intros b w. rewrite X. unfold upd. destruct (b =? a); [intro Y; injection Y as <-; exact Hv|apply Hm].
  Qed.

  Lemma write_poke m a v m' : write_insn m a v = Some m' -> poke_ok a = true.
  Proof.
    unfold Step_Model.write_insn, poke. destruct (poke_ok a); [reflexivity|].
    destruct (peek be m a) as [d|]; [|discriminate].
    destruct (d =? MINUS1); discriminate.
  Qed.

  Lemma write_readable m a v : ok m -> readable m a -> poke_ok a = true ->
    exists m', write_insn m a v = Some m'.
  Proof.
    intros Hm (w0 & w1 & E0 & E1 & N1) Hp. unfold Step_Model.write_insn, peek. rewrite E0, E1.
    pose proof (Hm _ _ E0) as L0. pose proof (Hm _ _ E1) as L1. unfold poke. rewrite Hp.
    destruct be; rewrite dw_val, dw_minus1 by assumption;
      (replace (_ && _) with false by (clear -N1; lia)); eexists; reflexivity.
  Qed.

  (** Scanning *)
  Lemma scan_sound m : ok m -> forall gap p i0 bs q insn bs',
    p + 4 * N.of_nat gap < w64 -> is_stcx i0 = false ->
    scan be m gap p i0 bs = Some (q, insn, bs') -> is_stcx insn = true ->
    exists n, (n < gap)%nat /\ q = p + 4 * N.of_nat n /\ m q = Some insn /\
      (forall k, (k < n)%nat -> exists w, m (p + 4 * N.of_nat k) = Some w /\ is_stcx w = false) /\
      (forall x, In x bs' <-> In x bs \/ exists k w, (k < n)%nat /\
         m (p + 4 * N.of_nat k) = Some w /\ is_branch w = true /\
         x = branch_target w (p + 4 * N.of_nat k)).
  Proof. clear poke_ok.
    intros Hm. induction gap as [|gap IH]; intros p i0 bs q insn bs' Hp Hi H Hs; cbn [scan] in H.
    - injection H as <- <- <-. congruence.
    - destruct (read_insn m p) as [i|] eqn:Er; [|discriminate].
      destruct (read_insn_val _ _ _ Hm Er) as [Ep _].
      destruct (is_stcx i) eqn:Es.
      + injection H as <- <- <-. exists 0%nat.
        replace (p + 4 * N.of_nat 0) with p by lia.
        split; [lia|]. split; [reflexivity|]. split; [exact Ep|].
        split; [intros k Hk; lia|].
        intro x. split; [auto|]. intros [Hx|(k & w & Hk & _)]; [exact Hx|lia].
      + assert (Hstep : forall bs1, scan be m gap (add64 p 4) i bs1 = Some (q, insn, bs') ->
          (forall x, In x bs1 <-> In x bs \/ (is_branch i = true /\ x = branch_target i p)) ->
          exists n, (n < S gap)%nat /\ q = p + 4 * N.of_nat n /\ m q = Some insn /\
            (forall k, (k < n)%nat -> exists w, m (p + 4 * N.of_nat k) = Some w /\ is_stcx w = false) /\
            (forall x, In x bs' <-> In x bs \/ exists k w, (k < n)%nat /\
               m (p + 4 * N.of_nat k) = Some w /\ is_branch w = true /\
               x = branch_target w (p + 4 * N.of_nat k))).
        { intros bs1 H1 Hbs1.
          assert (Ea : add64 p 4 = p + 4) by (unfold add64; apply N.mod_small; lia).
          rewrite Ea in H1.
          destruct (IH (p + 4) i bs1 q insn bs') as (n & Hn & Hq & Hmq & Hk & Hb); auto; [lia|].
          exists (S n). split; [lia|]. split; [lia|]. split; [exact Hmq|].
          assert (Eq : forall k, p + 4 * N.of_nat (S k) = p + 4 + 4 * N.of_nat k) by (intro; lia).
          split.
          - intros [|k] Hk'.
            + exists i. replace (p + 4 * N.of_nat 0) with p by lia. auto.
            + rewrite Eq. apply Hk. lia.
          - intro x. rewrite Hb, Hbs1. split.
            + intros [[Hx|[Hx Hy]]|(k & w & Hk1 & Hk2 & Hk3 & Hk4)].
              * auto.
              * right. exists 0%nat, i. replace (p + 4 * N.of_nat 0) with p by lia.
                repeat split; auto. lia.
              * right. exists (S k), w. rewrite Eq. repeat split; auto. lia.
            + intros [Hx|([|k] & w & Hk1 & Hk2 & Hk3 & Hk4)].
              * auto.
              * left; right. replace (p + 4 * N.of_nat 0) with p in * by lia.
                rewrite Ep in Hk2. injection Hk2 as <-. auto.
              * right. exists k, w. rewrite Eq in *. repeat split; auto. lia. }
        destruct (is_branch i) eqn:Eb.
        * destruct (Nat.eqb _ _); [discriminate|].
          apply (Hstep _ H). intro x. rewrite in_app_iff. cbn [In].
          intuition congruence.
        * apply (Hstep _ H). intro x. intuition congruence.
  Qed.

  (** Pruning *)
  Definition kept (l : list N) : list N := filter (fun a => negb (a =? MINUS1)) l.
  Lemma in_kept l x : In x (kept l) <-> In x l /\ x <> MINUS1.
  Proof. clear be poke_ok. unfold kept. rewrite filter_In. intuition; lia. Qed.

  Lemma fold_dup r : forall a,
    fold_left (fun a b => if a =? b then MINUS1 else a) r a
    = if existsb (N.eqb a) r then MINUS1 else a.
  Proof. clear be poke_ok.
    induction r as [|b r IH]; intro a; cbn [fold_left existsb]; [reflexivity|].
    destruct (a =? b) eqn:E; cbn [orb]; rewrite IH; [|reflexivity].
    destruct (existsb (N.eqb MINUS1) r); reflexivity.
  Qed.

  Lemma prune_in s e bs x : x <> MINUS1 ->
    (In x (prune s e bs) <-> In x bs /\ ~ (s <= x /\ x < e)).
  Proof. clear be poke_ok.
    intro Hx. induction bs as [|a r IH]; cbn [prune In]; [tauto|].
    rewrite IH, fold_dup.
    destruct ((s <=? a) && (a <? e)) eqn:E1.
    - split; [intros [H|H]; [congruence|tauto]|].
      intros [[->|H] N1]; [exfalso; apply N1; lia|tauto].
    - destruct (existsb (N.eqb a) r) eqn:E2.
      + rewrite existsb_exists in E2. destruct E2 as (b & Hb & E2). apply N.eqb_eq in E2. subst b.
        split; [intros [H|H]; [congruence|tauto]|].
        intros [[->|H] N1]; right; tauto.
      + split.
        * intros [->|[H1 H2]]; [split; [auto|]; lia|tauto].
        * tauto.
  Qed.

  Lemma prune_nodup s e bs : NoDup (kept (prune s e bs)).
  Proof. clear be poke_ok.
    induction bs as [|a r IH]; cbn [prune]; [constructor|].
    unfold kept in *. cbn [filter]. rewrite fold_dup.
    destruct ((s <=? a) && (a <? e)) eqn:E1; cbn [negb N.eqb]; [exact IH|].
    destruct (existsb (N.eqb a) r) eqn:E2; [exact IH|].
    destruct (a =? MINUS1) eqn:E3; [exact IH|]. cbn [negb]. constructor; [|exact IH].
    intro H. change (In a (kept (prune s e r))) in H. rewrite in_kept in H. destruct H as [H _].
    rewrite prune_in in H by lia. destruct H as [H _].
    enough (existsb (N.eqb a) r = true) by congruence.
    apply existsb_exists. exists a. split; [exact H|apply N.eqb_refl].
  Qed.

  (** Inserting and removing *)
  Lemma bp_lt : BREAKPOINT_INSN < W32.
  Proof. clear be poke_ok. reflexivity. Qed.

  Definition bp_mem (m : mem) (l : list N) (m1 : mem) : Prop :=
    forall a, (In a l -> m1 a = Some BREAKPOINT_INSN) /\ (~ In a l -> m1 a = m a).

  Lemma insert_ok bs : forall m m1 saved, ok m -> NoDup (kept bs) ->
    insert_breakpoints be poke_ok m bs = InsOk m1 saved ->
    ok m1 /\ bp_mem m (kept bs) m1 /\ map fst saved = bs /\
    (forall a v, In (a, v) saved -> a <> MINUS1 -> m a = Some v /\ poke_ok a = true).
  Proof.
    induction bs as [|a r IH]; intros m m1 saved Hm Hd H; cbn [insert_breakpoints] in H.
    - injection H as <- <-. repeat split; auto; cbn in *; try tauto.
    - unfold kept in Hd. cbn [filter] in Hd. fold (kept r) in Hd.
      unfold kept at 1; cbn [filter]. fold (kept r).
      destruct (a =? MINUS1) eqn:Ea; cbn [negb] in Hd |- *.
      + destruct (insert_breakpoints be poke_ok m r) as [m' s|m'] eqn:E; [|discriminate].
        injection H as <- <-. destruct (IH _ _ _ Hm Hd E) as (H1 & H2 & H3 & H4).
        split; [exact H1|]. split; [exact H2|]. split; [cbn; congruence|].
        intros b v [Hb|Hb] Hn; [injection Hb as <- <-; lia|eauto].
      + inversion Hd as [|? ? Hnin Hd']; subst.
        destruct (read_insn m a) as [v|] eqn:Er; [|discriminate].
        destruct (write_insn m a BREAKPOINT_INSN) as [m2|] eqn:Ew; [|discriminate].
        destruct (insert_breakpoints be poke_ok m2 r) as [m' s|m'] eqn:E; [|discriminate].
        injection H as <- <-.
        destruct (write_insn_val _ _ _ _ Hm bp_lt Ew) as [U2 Hm2].
        destruct (IH _ _ _ Hm2 Hd' E) as (H1 & H2 & H3 & H4).
        split; [exact H1|]. split; [|split].
        * intro b. destruct (H2 b) as [P1 P2]. split.
          -- intros [<-|Hb]; [|auto]. rewrite (P2 Hnin), U2. unfold upd. now rewrite N.eqb_refl.
          -- intro Hb. cbn [In] in Hb. rewrite P2 by tauto. rewrite U2. unfold upd.
             destruct (b =? a) eqn:Eb; [|reflexivity]. apply N.eqb_eq in Eb. elim Hb; auto.
        * cbn. congruence.
        * intros b w [Hb|Hb] Hn.
          -- injection Hb as <- <-. split; [now apply (read_insn_val m)|].
             exact (write_poke _ _ _ _ Ew).
          -- destruct (H4 _ _ Hb Hn) as [H5 H6]. split; [|exact H6]. rewrite U2 in H5. unfold upd in H5.
             destruct (b =? a) eqn:Eb; [|exact H5]. apply N.eqb_eq in Eb. subst b.
             elim Hnin. rewrite in_kept. split; [|exact Hn].
             rewrite <- H3. apply in_map_iff. exists (a, w). auto.
  Qed.

  Lemma remove_ok saved : forall m2 m', ok m2 -> NoDup (kept (map fst saved)) ->
    (forall a v, In (a, v) saved -> a <> MINUS1 -> v < W32) ->
    remove_breakpoints be poke_ok m2 saved = inl m' ->
    forall a, (forall v, In (a, v) saved -> a <> MINUS1 -> m2 a = Some BREAKPOINT_INSN -> m' a = Some v) /\
              (~ (In a (kept (map fst saved)) /\ m2 a = Some BREAKPOINT_INSN) -> m' a = m2 a).
  Proof.
    induction saved as [|[b w] r IH]; intros m2 m' Hm Hd Hv H a; cbn [remove_breakpoints] in H.
    - injection H as <-. cbn. tauto.
    - cbn [map fst] in *. unfold kept in Hd |- *. cbn [filter] in Hd |- *.
      fold (kept (map fst r)) in Hd |- *.
      assert (Hv' : forall a v, In (a, v) r -> a <> MINUS1 -> v < W32) by (intros; eapply Hv; cbn; eauto).
      destruct (b =? MINUS1) eqn:Eb; cbn [negb] in Hd |- *.
      + destruct (IH _ _ Hm Hd Hv' H a) as [H1 H2]. split; [|exact H2].
        intros v [Hb|Hb] Hn; [injection Hb as -> ->; lia|auto].
      + inversion Hd as [|? ? Hnin Hd']; subst.
        assert (Hnin' : forall v, ~ In (b, v) r).
        { intros v Hin. apply Hnin. rewrite in_kept. split; [|lia]. apply in_map_iff. exists (b, v). auto. }
        destruct (read_insn m2 b) as [x|] eqn:Er; [|discriminate].
        destruct (read_insn_val _ _ _ Hm Er) as [Ex _].
        destruct (x =? BREAKPOINT_INSN) eqn:Ebp; cbn [negb] in H.
        * apply N.eqb_eq in Ebp. subst x.
          destruct (write_insn m2 b w) as [m3|] eqn:Ew; [|discriminate].
          destruct (write_insn_val _ _ _ _ Hm (Hv b w (or_introl eq_refl) ltac:(lia)) Ew) as [U3 Hm3].
          destruct (IH _ _ Hm3 Hd' Hv' H a) as [H1 H2].
          destruct (N.eq_dec a b) as [->|Hne].
          -- assert (Y : m' b = Some w).
             { rewrite H2 by tauto. rewrite U3. unfold upd. now rewrite N.eqb_refl. }
             split.
             ++ intros v [Hb|Hb] _ _; [congruence|]. elim (Hnin' _ Hb).
             ++ intro X. elim X. cbn; auto.
          -- assert (Ea : m3 a = m2 a) by (rewrite U3; unfold upd; now replace (a =? b) with false by lia).
             rewrite Ea in H1, H2. split.
             ++ intros v [Hb|Hb]; [congruence|auto].
             ++ intro X. apply H2. intros [Y1 Y2]. apply X. cbn; auto.
        * destruct (IH _ _ Hm Hd' Hv' H a) as [H1 H2].
          destruct (N.eq_dec a b) as [->|Hne].
          -- split.
             ++ intros v _ _ Hbp. exfalso. rewrite Ex in Hbp. injection Hbp as ->. lia.
             ++ intro X. apply H2. tauto.
          -- split.
             ++ intros v [Hb|Hb]; [congruence|auto].
             ++ intro X. apply H2. intros [Y1 Y2]. apply X. cbn; auto.
  Qed.
End HOST.
