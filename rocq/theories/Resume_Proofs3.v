(** Decoding one walk by the partition's tables and one guest level. *)
Require Import NArith ZArith List Bool Lia.
Require Import ZifyBool ZifyN ZifyNat.
Require Import Verif.Word Verif.Codec_Types Verif.Pwc_Model Verif.Pwc_Spec Verif.Pwc_Proofs.
Require Import Verif.Xlate_Model Verif.Xlate_Spec Verif.Xlate_Proofs Verif.Xlate_Full Verif.Resume_Spec.
Require Import Verif.Resume_Proofs Verif.Resume_Proofs2.
Import ListNotations.
Local Open Scope N_scope.

Section WALK.
  Variable T : tables.
  Hypothesis HT : tables_ok T.
  Variable x : xlate.
  Hypothesis Hx : xlate_wf x.

  Lemma covers_kind : forall y, pagesize_of (tb_kind T y) = covers (tb_kind T y).
  Proof. intro y. destruct (kind_cases T HT y) as [->| ->]; reflexivity. Qed.
  Lemma shift_at_ok : forall y, shift_ok (shift_at T y).
  Proof.
    intro y. unfold shift_at, depth, shift_ok. destruct (tb_leaf T XLATE_PUD y); [tauto|].
    destruct (tb_leaf T XLATE_PMD y); [tauto|]. destruct (kind_cases T HT y) as [->| ->]; cbn; tauto.
  Qed.
  Lemma steps_level : forall y l, In l (steps T y) -> level_ok l.
  Proof.
    intros y l H. apply (in_map (fun v => v)) in H. rewrite map_id in H.
    assert (H' : In l [XLATE_PGD; XLATE_PUD; XLATE_PMD; tb_kind T y]).
    { unfold steps in H. rewrite <- (firstn_skipn (depth T y)). apply in_or_app. now left. }
    unfold level_ok. cbn [In] in H'. destruct H' as [<-|[<-|[<-|[<-|[]]]]]; try tauto.
    destruct (kind_cases T HT y) as [->| ->]; tauto.
  Qed.

  (** The tail of a walk: a real address, or something not taken for one. *)
  Definition ending (flag : N) (y : xaddr) (p : pwc) (ra : N) (tl ws : list walk) : Prop :=
    exists v vs, tl = v :: vs /\ wk_guest v = true
    /\ ((vs = ws /\ check_walk v flag = true /\ wk_ra v = ra /\ ra < 2 ^ 52
         /\ ra / 2 ^ shift_at T y = tb_page T (shift_at T y) y)
        \/ (tl = ws /\ check_walk v flag = false /\ ra = real_at T y /\ sure_page p (shift_at T y) y)).
  Lemma ending_at : forall flag y s0 s ra tl ws (l : list N) sz, faithful T (ps_pwc s) -> le (ps_pwc s0) (ps_pwc s) ->
    ending flag y (ps_pwc s0) ra tl ws -> sz = shift_at T y ->
    at_ x s tl ->
    exists s', (ra <- partition_real_addr x flag y sz ;;
            _ <- c_rev_insert sz (mk_xaddr 0 (xa_lpid y) 0 ra) (xa_address y) ;;
            ret (ra, l, sz)) s = XOk (s', Some (ra, l, sz))
      /\ at_ x s' ws /\ good T s s' /\ sure_page (ps_pwc s') sz y.
  Proof.
    intros flag y s0 s ra tl ws l sz F L (v & vs & E & Hv & He) -> H. subst tl.
    pose proof (shift_at_ok y) as Hz.
    destruct He as [(-> & Hc & <- & Hb & Hp)|(<- & Hc & -> & K)].
    - now apply (final_present T HT x Hx).
    - apply (final_absent T x Hx); try assumption. exact (sure_page_le _ _ _ _ Hz L K).
  Qed.

  Definition sure_steps (p : pwc) (y : xaddr) (n : nat) : Prop :=
    forall l, In l (firstn n (steps T y)) -> sure p l y.

  Ltac gsure G K := exact (sure_le _ _ _ _ ltac:(unfold level_ok; tauto) (proj2 G) K).
  Lemma translate_cut : forall flag y s k tl ra ws, faithful T (ps_pwc s) ->
    at_ x s (skipn k (host_pte_records (hw_ptes (host_at T y))) ++ tl) ->
    (k <= depth T y)%nat -> sure_steps (ps_pwc s) y k ->
    ending flag y (ps_pwc s) ra tl ws ->
    (depth T y = 4%nat -> sub_of NESTED_RA_ADDR tl = Some (tb_kind T y)) ->
    exists s', partition_translate x flag y s
               = XOk (s', Some (ra, hw_ptes (host_at T y), shift_at T y))
      /\ at_ x s' ws /\ good T s s' /\ sure_steps (ps_pwc s') y (depth T y)
      /\ sure_page (ps_pwc s') (shift_at T y) y.
  Proof.
    intros flag y s k tl ra ws F H Hk K He Hsub.
    pose proof He as (v & vs & Etl & Hv & _).
    assert (Hlv : level_ok (tb_kind T y)) by (unfold level_ok; destruct (kind_cases T HT y) as [->| ->]; tauto).
    assert (HPGD : type_ok XLATE_PGD) by (unfold type_ok; tauto).
    assert (HPUD : type_ok XLATE_PUD) by (unfold type_ok; tauto).
    assert (HPMD : type_ok XLATE_PMD) by (unfold type_ok; tauto).
    assert (HPTE : type_ok XLATE_PTE) by (unfold type_ok; tauto).
    assert (LPGD : level_ok XLATE_PGD) by (unfold level_ok; tauto).
    assert (LPUD : level_ok XLATE_PUD) by (unfold level_ok; tauto).
    assert (LPMD : level_ok XLATE_PMD) by (unfold level_ok; tauto).
    assert (Hgv : wk_guest v || wk_final v = true) by now rewrite Hv.
    assert (Hmv : forall l, wk_host v && negb (wk_guest v) && negb (wk_final v) && (l =? wk_level v) = false).
    { intro l. rewrite Hv. cbn [negb]. now rewrite andb_false_r. }
    assert (Lk : leaf_of T (tb_kind T y) y = true).
    { unfold leaf_of. destruct (kind_cases T HT y) as [->| ->]; reflexivity. }
    unfold host_at in H |- *. cbn [hw_ptes] in *.
    unfold sure_steps, steps, shift_at, depth in *.
    destruct (tb_leaf T XLATE_PUD y) eqn:E2; [|destruct (tb_leaf T XLATE_PMD y) eqn:E3].
    - (* 1G *)
      cbn [firstn map] in *. unfold host_pte_records in H. cbn [combine map fst snd] in H.
      assert (S1 : exists s1, decode_partition_pte x XLATE_PGD y s = XOk (s1, Some (pte_at T XLATE_PGD y))
        /\ at_ x s1 (skipn (k - 1) [mk_walk false false false true 4 (entry_at T XLATE_PUD y)] ++ tl)
        /\ good T s s1 /\ sure (ps_pwc s1) XLATE_PGD y).
      { subst tl. destruct k as [|[|[|k]]]; [| | |lia]; cbn [skipn app Nat.sub] in *.
        - apply (partition_present T HT x Hx XLATE_PGD); [assumption..|reflexivity|discriminate].
        - apply (partition_absent T HT x Hx XLATE_PGD); [assumption..|reflexivity|apply K; cbn; tauto].
        - apply (partition_absent T HT x Hx XLATE_PGD); [assumption..|apply Hmv|apply K; cbn; tauto]. }
      destruct S1 as (s1 & D1 & H1 & G1 & K1).
      assert (S2 : exists s2, decode_partition_pte x XLATE_PUD y s1 = XOk (s2, Some (pte_at T XLATE_PUD y))
        /\ at_ x s2 tl /\ good T s1 s2 /\ sure (ps_pwc s2) XLATE_PUD y).
      { subst tl. destruct G1 as [F1 L1]. destruct k as [|[|[|k]]]; [| | |lia]; cbn [skipn app Nat.sub] in *.
        - apply (partition_present T HT x Hx XLATE_PUD); [assumption..| |discriminate]. rewrite Hgv. symmetry. exact E2.
        - apply (partition_present T HT x Hx XLATE_PUD); [assumption..| |discriminate]. rewrite Hgv. symmetry. exact E2.
        - apply (partition_absent T HT x Hx XLATE_PUD); [assumption..|apply Hmv|].
          apply (sure_le _ _ _ _ LPUD L1), K; cbn; tauto. }
      destruct S2 as (s2 & D2 & H2 & G2 & K2).
      unfold partition_translate. rewrite (bind_ok _ _ _ _ _ _ _ D1), (bind_ok _ _ _ _ _ _ _ D2).
      replace (pte_leaf (pte_at T XLATE_PUD y)) with true by (symmetry; exact E2).
      pose proof (good_trans T _ _ _ G1 G2) as G.
      destruct (ending_at flag y s s2 ra tl ws [entry_at T XLATE_PGD y; entry_at T XLATE_PUD y] 30 (proj1 G) (proj2 G) He) as (s3 & D3 & H3 & G3 & K3).
      { unfold shift_at, depth. now rewrite E2. }
      { exact H2. }
      exists s3. split; [exact D3|]. split; [exact H3|]. split; [exact (good_trans T _ _ _ G G3)|]. split; [|exact K3].
      intros l [<-|[<-|[]]].
      + exact (sure_le _ _ _ _ LPGD (proj2 (good_trans T _ _ _ G2 G3)) K1).
      + exact (sure_le _ _ _ _ LPUD (proj2 G3) K2).
    - (* 2M *)
      cbn [firstn map] in *. unfold host_pte_records in H. cbn [combine map fst snd] in H.
      assert (S1 : exists s1, decode_partition_pte x XLATE_PGD y s = XOk (s1, Some (pte_at T XLATE_PGD y))
        /\ at_ x s1 (skipn (k - 1) [mk_walk false false false true 4 (entry_at T XLATE_PUD y);
                                    mk_walk false false false true 2 (entry_at T XLATE_PMD y)] ++ tl)
        /\ good T s s1 /\ sure (ps_pwc s1) XLATE_PGD y).
      { subst tl. destruct k as [|[|[|[|k]]]]; [| | | |lia]; cbn [skipn app Nat.sub] in *.
        - apply (partition_present T HT x Hx XLATE_PGD); [assumption..|reflexivity|discriminate].
        - apply (partition_absent T HT x Hx XLATE_PGD); [assumption..|reflexivity|apply K; cbn; tauto].
        - apply (partition_absent T HT x Hx XLATE_PGD); [assumption..|reflexivity|apply K; cbn; tauto].
        - apply (partition_absent T HT x Hx XLATE_PGD); [assumption..|apply Hmv|apply K; cbn; tauto]. }
      destruct S1 as (s1 & D1 & H1 & G1 & K1).
      assert (S2 : exists s2, decode_partition_pte x XLATE_PUD y s1 = XOk (s2, Some (pte_at T XLATE_PUD y))
        /\ at_ x s2 (skipn (k - 2) [mk_walk false false false true 2 (entry_at T XLATE_PMD y)] ++ tl)
        /\ good T s1 s2 /\ sure (ps_pwc s2) XLATE_PUD y).
      { subst tl. destruct G1 as [F1 L1]. destruct k as [|[|[|[|k]]]]; [| | | |lia]; cbn [skipn app Nat.sub] in *.
        - apply (partition_present T HT x Hx XLATE_PUD); [assumption..| |discriminate]. symmetry. exact E2.
        - apply (partition_present T HT x Hx XLATE_PUD); [assumption..| |discriminate]. symmetry. exact E2.
        - apply (partition_absent T HT x Hx XLATE_PUD); [assumption..|reflexivity|].
          apply (sure_le _ _ _ _ LPUD L1), K; cbn; tauto.
        - apply (partition_absent T HT x Hx XLATE_PUD); [assumption..|apply Hmv|].
          apply (sure_le _ _ _ _ LPUD L1), K; cbn; tauto. }
      destruct S2 as (s2 & D2 & H2 & G2 & K2).
      pose proof (good_trans T _ _ _ G1 G2) as G.
      assert (S3 : exists s3, decode_partition_pte x XLATE_PMD y s2 = XOk (s3, Some (pte_at T XLATE_PMD y))
        /\ at_ x s3 tl /\ good T s2 s3 /\ sure (ps_pwc s3) XLATE_PMD y).
      { subst tl. destruct G as [F2 L2]. destruct k as [|[|[|[|k]]]]; [| | | |lia]; cbn [skipn app Nat.sub] in *.
        1-3: apply (partition_present T HT x Hx XLATE_PMD); [assumption..| |discriminate]; rewrite Hgv; symmetry; exact E3.
        apply (partition_absent T HT x Hx XLATE_PMD); [assumption..|apply Hmv|].
        apply (sure_le _ _ _ _ LPMD L2), K; cbn; tauto. }
      destruct S3 as (s3 & D3 & H3 & G3 & K3).
      unfold partition_translate. rewrite (bind_ok _ _ _ _ _ _ _ D1), (bind_ok _ _ _ _ _ _ _ D2).
      replace (pte_leaf (pte_at T XLATE_PUD y)) with false by (symmetry; exact E2).
      rewrite (bind_ok _ _ _ _ _ _ _ D3).
      replace (pte_leaf (pte_at T XLATE_PMD y)) with true by (symmetry; exact E3).
      pose proof (good_trans T _ _ _ G G3) as GG.
      destruct (ending_at flag y s s3 ra tl ws [entry_at T XLATE_PGD y; entry_at T XLATE_PUD y; entry_at T XLATE_PMD y] 21
                  (proj1 GG) (proj2 GG) He) as (s4 & D4 & H4 & G4 & K4).
      { unfold shift_at, depth. now rewrite E2, E3. }
      { exact H3. }
      exists s4. split; [exact D4|]. split; [exact H4|]. split; [exact (good_trans T _ _ _ GG G4)|]. split; [|exact K4].
      intros l [<-|[<-|[<-|[]]]].
      + exact (sure_le _ _ _ _ LPGD (proj2 (good_trans T _ _ _ G2 (good_trans T _ _ _ G3 G4))) K1).
      + exact (sure_le _ _ _ _ LPUD (proj2 (good_trans T _ _ _ G3 G4)) K2).
      + exact (sure_le _ _ _ _ LPMD (proj2 G4) K3).
    - (* 64K or 4K *)
      specialize (Hsub eq_refl).
      cbn [firstn map] in *. unfold host_pte_records in H. cbn [combine map fst snd] in H.
      assert (S1 : exists s1, decode_partition_pte x XLATE_PGD y s = XOk (s1, Some (pte_at T XLATE_PGD y))
        /\ at_ x s1 (skipn (k - 1) [mk_walk false false false true 4 (entry_at T XLATE_PUD y);
                                    mk_walk false false false true 2 (entry_at T XLATE_PMD y);
                                    mk_walk false false false true 0 (entry_at T (tb_kind T y) y)] ++ tl)
        /\ good T s s1 /\ sure (ps_pwc s1) XLATE_PGD y).
      { subst tl. destruct k as [|[|[|[|[|k]]]]]; [| | | | |lia]; cbn [skipn app Nat.sub] in *.
        - apply (partition_present T HT x Hx XLATE_PGD); [assumption..|reflexivity|discriminate].
        - apply (partition_absent T HT x Hx XLATE_PGD); [assumption..|reflexivity|apply K; cbn; tauto].
        - apply (partition_absent T HT x Hx XLATE_PGD); [assumption..|reflexivity|apply K; cbn; tauto].
        - apply (partition_absent T HT x Hx XLATE_PGD); [assumption..|reflexivity|apply K; cbn; tauto].
        - apply (partition_absent T HT x Hx XLATE_PGD); [assumption..|apply Hmv|apply K; cbn; tauto]. }
      destruct S1 as (s1 & D1 & H1 & G1 & K1).
      assert (S2 : exists s2, decode_partition_pte x XLATE_PUD y s1 = XOk (s2, Some (pte_at T XLATE_PUD y))
        /\ at_ x s2 (skipn (k - 2) [mk_walk false false false true 2 (entry_at T XLATE_PMD y);
                                    mk_walk false false false true 0 (entry_at T (tb_kind T y) y)] ++ tl)
        /\ good T s1 s2 /\ sure (ps_pwc s2) XLATE_PUD y).
      { subst tl. destruct G1 as [F1 L1]. destruct k as [|[|[|[|[|k]]]]]; [| | | | |lia]; cbn [skipn app Nat.sub] in *.
        - apply (partition_present T HT x Hx XLATE_PUD); [assumption..| |discriminate]. symmetry. exact E2.
        - apply (partition_present T HT x Hx XLATE_PUD); [assumption..| |discriminate]. symmetry. exact E2.
        - apply (partition_absent T HT x Hx XLATE_PUD); [assumption..|reflexivity|].
          apply (sure_le _ _ _ _ LPUD L1), K; cbn; tauto.
        - apply (partition_absent T HT x Hx XLATE_PUD); [assumption..|reflexivity|].
          apply (sure_le _ _ _ _ LPUD L1), K; cbn; tauto.
        - apply (partition_absent T HT x Hx XLATE_PUD); [assumption..|apply Hmv|].
          apply (sure_le _ _ _ _ LPUD L1), K; cbn; tauto. }
      destruct S2 as (s2 & D2 & H2 & G2 & K2).
      pose proof (good_trans T _ _ _ G1 G2) as G.
      assert (S3 : exists s3, decode_partition_pte x XLATE_PMD y s2 = XOk (s3, Some (pte_at T XLATE_PMD y))
        /\ at_ x s3 (skipn (k - 3) [mk_walk false false false true 0 (entry_at T (tb_kind T y) y)] ++ tl)
        /\ good T s2 s3 /\ sure (ps_pwc s3) XLATE_PMD y).
      { subst tl. destruct G as [F2 L2]. destruct k as [|[|[|[|[|k]]]]]; [| | | | |lia]; cbn [skipn app Nat.sub] in *.
        1-3: apply (partition_present T HT x Hx XLATE_PMD); [assumption..| |discriminate]; symmetry; exact E3.
        - apply (partition_absent T HT x Hx XLATE_PMD); [assumption..|reflexivity|].
          apply (sure_le _ _ _ _ LPMD L2), K; cbn; tauto.
        - apply (partition_absent T HT x Hx XLATE_PMD); [assumption..|apply Hmv|].
          apply (sure_le _ _ _ _ LPMD L2), K; cbn; tauto. }
      destruct S3 as (s3 & D3 & H3 & G3 & K3).
      pose proof (good_trans T _ _ _ G G3) as GG.
      assert (S4 : exists s4, decode_partition_pte x XLATE_PTE y s3 = XOk (s4, Some (pte_at T XLATE_PTE y))
        /\ at_ x s4 tl /\ good T s3 s4 /\ sure (ps_pwc s4) (tb_kind T y) y).
      { subst tl. destruct GG as [F3 L3]. destruct k as [|[|[|[|[|k]]]]]; [| | | | |lia]; cbn [skipn app Nat.sub] in *.
        1-4: apply (partition_present T HT x Hx XLATE_PTE); [assumption..| |intros _; exact Hsub];
             rewrite Hgv; symmetry; exact Lk.
        apply (partition_absent T HT x Hx XLATE_PTE); [assumption..|apply Hmv|].
        apply (sure_le _ _ _ _ Hlv L3), K; cbn; tauto. }
      destruct S4 as (s4 & D4 & H4 & G4 & K4).
      pose proof (good_trans T _ _ _ GG G4) as GGG.
      unfold partition_translate. rewrite (bind_ok _ _ _ _ _ _ _ D1), (bind_ok _ _ _ _ _ _ _ D2).
      replace (pte_leaf (pte_at T XLATE_PUD y)) with false by (symmetry; exact E2).
      rewrite (bind_ok _ _ _ _ _ _ _ D3).
      replace (pte_leaf (pte_at T XLATE_PMD y)) with false by (symmetry; exact E3).
      rewrite (bind_ok _ _ _ _ _ _ _ D4).
      replace (pte_size (pte_at T XLATE_PTE y)) with (covers (tb_kind T y)) by (symmetry; exact (covers_kind y)).
      destruct (ending_at flag y s s4 ra tl ws
                  [entry_at T XLATE_PGD y; entry_at T XLATE_PUD y; entry_at T XLATE_PMD y; entry_at T (tb_kind T y) y]
                  (covers (tb_kind T y)) (proj1 GGG) (proj2 GGG) He) as (s5 & D5 & H5 & G5 & K5).
      { unfold shift_at, depth. now rewrite E2, E3. }
      { exact H4. }
      exists s5. split; [exact D5|]. split; [exact H5|]. split; [exact (good_trans T _ _ _ GGG G5)|]. split; [|exact K5].
      intros l [<-|[<-|[<-|[<-|[]]]]].
      + exact (sure_le _ _ _ _ LPGD (proj2 (good_trans T _ _ _ G2 (good_trans T _ _ _ G3 (good_trans T _ _ _ G4 G5)))) K1).
      + exact (sure_le _ _ _ _ LPUD (proj2 (good_trans T _ _ _ G3 (good_trans T _ _ _ G4 G5))) K2).
      + exact (sure_le _ _ _ _ LPMD (proj2 (good_trans T _ _ _ G4 G5)) K3).
      + exact (sure_le _ _ _ _ Hlv (proj2 G5) K4).
  Qed.
End WALK.
