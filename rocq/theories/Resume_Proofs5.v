(** Resumed walks are decoded as the complete ones. *)
Require Import NArith ZArith List Bool Lia.
Require Import ZifyBool ZifyN ZifyNat.
Require Import Verif.Word Verif.Codec_Types Verif.Pwc_Model Verif.Pwc_Spec Verif.Pwc_Proofs.
Require Import Verif.Xlate_Model Verif.Xlate_Spec Verif.Xlate_Proofs Verif.Xlate_Full Verif.Resume_Spec.
Require Import Verif.Resume_Proofs Verif.Resume_Proofs2 Verif.Resume_Proofs3 Verif.Resume_Proofs4.
Import ListNotations.
Local Open Scope N_scope.

Lemma pleaf_next : forall lv g r, In lv [2; 4; 6] ->
  pleaf levels lv (mk_walk false false true false (lv - 2) g :: r) = Some false.
Proof.
  intros lv g r H. rewrite pleaf_levels by (cbn in *; tauto). cbn [existsb]. unfold f_leaf.
  cbn [wk_guest wk_final wk_level negb andb].
  destruct H as [<-|[<-|[<-|[]]]]; cbn [N.eqb Pos.eqb N.sub orb].
  - reflexivity.
  - replace (0 =? 4 - 2) with false by reflexivity. replace (2 =? 4 - 2) with true by reflexivity. cbn [orb].
    destruct (existsb _ r); reflexivity.
  - replace (0 =? 6 - 2) with false by reflexivity. replace (2 =? 6 - 2) with false by reflexivity.
    replace (4 =? 6 - 2) with true by reflexivity. cbn [orb].
    destruct (existsb _ r), (existsb _ r); reflexivity.
Qed.

Section MAIN.
  Variable T : tables.
  Hypothesis HT : tables_ok T.

  Definition knows (p : pwc) (H : list request) : Prop :=
    faithful T p
    /\ (forall l y, entry_shown T H l y -> sure p l y)
    /\ (forall y, page_shown T H y -> sure_page p (shift_at T y) y).

  Lemma knows_part : forall p H y c, knows p H -> cut_host_ok T H y c -> part_ok T p y c.
  Proof.
    intros p H y c (_ & K1 & K2) (A & B & C). split; [exact A|]. split.
    - intros l Hl. apply K1. now apply B.
    - intro E. destruct (C E) as [C1 C2]. split; [exact C1|now apply K2].
  Qed.
  Lemma knows_level : forall p H q l o, knows p H -> cut_level_ok T H q l o -> level_part_ok T q p l o.
  Proof.
    intros p H q l [c|] K C; [exact (knows_part _ _ _ _ K C)|]. destruct C as [C1 C2].
    split; [now apply K|exact (knows_part _ _ _ _ K C2)].
  Qed.
  Lemma knows_more : forall p p' H q, knows p H -> faithful T p' -> le p p' ->
    (forall l, In l (steps T (rq_guest q)) -> sure p' l (rq_guest q)) ->
    (forall y, In y (hosts T q) -> host_sure T p' y) ->
    knows p' (q :: H).
  Proof.
    intros p p' H q (_ & K1 & K2) F L Kg Kh. split; [exact F|]. split.
    - intros l y (q' & z & [<-|Hin] & Hr & Hs).
      + assert (Kz : sure p' l z).
        { unfold reads in Hr. apply in_app_or in Hr as [Hr|Hr].
          - apply in_map_iff in Hr as (l' & E & Hl'). injection E as -> <-. now apply Kg.
          - apply in_flat_map in Hr as (y' & Hy' & Hr). apply in_map_iff in Hr as (l' & E & Hl').
            injection E as -> ->. destruct (Kh z Hy') as [Ks _]. apply Ks.
            rewrite <- (steps_length T z), firstn_all. exact Hl'. }
        intros v Hv. apply Kz. exact (same_entry_trans _ _ _ _ Hs Hv).
      + assert (Hl : level_ok l).
        { unfold reads in Hr. apply in_app_or in Hr as [Hr|Hr].
          - apply in_map_iff in Hr as (l' & E & Hl'). injection E as -> <-. exact (steps_level T HT _ _ Hl').
          - apply in_flat_map in Hr as (y' & Hy' & Hr). apply in_map_iff in Hr as (l' & E & Hl').
            injection E as -> ->. exact (steps_level T HT _ _ Hl'). }
        apply (sure_le p); [exact Hl|exact L|]. apply K1. exists q', z. now repeat split.
    - intros y (q' & z & [<-|Hin] & Hr & Hz & Hs).
      + destruct (Kh z Hr) as [_ Kp]. rewrite Hz in Kp. intros v Hv. apply Kp. exact (same_page_trans _ _ _ _ Hs Hv).
      + apply (sure_page_le p); [exact (shift_at_ok T HT y)|exact L|]. apply K2. exists q', z. now repeat split.
  Qed.

  Variable x : xlate.
  Hypothesis Hx : xlate_wf x.
  Variable q : request.
  Hypothesis Hq : request_ok T q.

  Lemma below_52 : forall r s y, shift_ok s -> r / 2 ^ s = tb_page T s y -> r < 2 ^ 52.
  Proof.
    intros r s y Hs E. destruct HT as (_ & _ & _ & _ & _ & _ & HB). specialize (HB s y Hs). rewrite <- E in HB.
    assert (Hn : 2 ^ s <> 0) by (apply N.pow_nonzero; lia).
    pose proof (N.mul_succ_div_gt r (2 ^ s) Hn) as Hd.
    eapply N.lt_le_trans; [exact Hd|]. rewrite N.mul_comm. rewrite <- N.add_1_r. exact HB.
  Qed.
  Definition table_cut_records (c : nat * bool) : list walk :=
    match rq_table q with
    | Some (pa, pr) => mk_walk false false false true 7 pa
        :: cut_guest (7, (pr, host_at T (in_host (rq_lpid q) pr)), Some c)
    | None => []
    end.
  Definition table_hosts : list xaddr :=
    match rq_table q with Some (_, pr) => [in_host (rq_lpid q) pr] | None => [] end.
  Lemma table_cut : forall c rest s, faithful T (ps_pwc s) ->
    (forall y, In y table_hosts -> part_ok T (ps_pwc s) y c) ->
    at_ x s (table_cut_records c ++ rest) -> starts 7 rest ->
    (forall y, In y table_hosts -> depth T y = 4%nat -> sub_of NESTED_RA_ADDR rest = Some (tb_kind T y)) ->
    exists s', table_step x (rq_guest q) s = XOk (s', Some tt) /\ at_ x s' rest /\ good T s s'
      /\ forall y, In y table_hosts -> host_sure T (ps_pwc s') y.
  Proof.
    intros c rest s F P H St Hs. unfold table_step, table_cut_records, table_hosts in *.
    destruct (rq_table q) as [[pa pr]|].
    - cbn [cut_guest app] in H.
      destruct (take_hit x Hx s _ _ (lor3 X_HOST_RA X_NO_GUEST_PTE (X_LEVEL 7)) H) as (s1 & E1 & H1); [reflexivity|].
      rewrite (bind_ok _ _ _ _ _ _ _ E1).
      destruct (take_hit x Hx s1 _ _ (N.lor X_GUEST_PTE (X_LEVEL 7)) H1) as (s2 & E2 & H2); [reflexivity|].
      rewrite (bind_ok _ _ _ _ _ _ _ E2). cbn [wk_ra].
      assert (Fs : ps_pwc s2 = ps_pwc s).
      { unfold take in E1, E2. rewrite (peek_at x Hx s _ _ _ H) in E1. rewrite (peek_at x Hx s1 _ _ _ H1) in E2.
        destruct (check_walk _ _) in E1; destruct (check_walk _ _) in E2; injection E1 as <-; injection E2 as <-; reflexivity. }
      specialize (P _ (or_introl eq_refl)). rewrite <- Fs in F, P.
      destruct (nested_cut T HT x Hx 7 (in_host (rq_lpid q) pr) c rest s2 ltac:(cbn; tauto) F P H2 St (Hs _ (or_introl eq_refl)))
        as (s3 & E3 & H3 & G3 & K3).
      unfold ignore. change (process_real (xa_lpid (rq_guest q)) pr) with (in_host (rq_lpid q) pr). rewrite E3.
      exists s3. split; [reflexivity|]. split; [exact H3|]. split.
      + destruct G3 as [G3 L3]. split; [exact G3|]. now rewrite <- Fs.
      + intros y [<-|[]]. exact K3.
    - cbn [app] in H. destruct St as (w & ws' & -> & Wg & Wh & W7 & _).
      assert (M1 : take x (lor3 X_HOST_RA X_NO_GUEST_PTE (X_LEVEL 7)) s = XOk (s, Some None)).
      { eapply take_miss; [exact Hx|exact H|]. rewrite check_table, Wh. reflexivity. }
      assert (M2 : take x (N.lor X_GUEST_PTE (X_LEVEL 7)) s = XOk (s, Some None)).
      { eapply take_miss; [exact Hx|exact H|]. rewrite check_table2, Wg. cbn [andb].
        apply N.eqb_neq. intro E. apply W7. now symmetry. }
      rewrite (bind_ok _ _ _ _ _ _ _ M1), (bind_ok _ _ _ _ _ _ _ M2). exists s.
      split; [reflexivity|]. split; [exact H|]. split; [now apply good_refl|]. intros y [].
  Qed.

  Lemma at_end : forall s, at_ x s [] -> ps_i s = x_nwalks x.
  Proof.
    intros s [E1 E2]. assert (El : length (skipn (ps_i s) (records_of x)) = 0%nat) by now rewrite E2.
    rewrite skipn_length, records_length in El by exact Hx. lia.
  Qed.
  Lemma pad_host : forall y, pad NR_RADIX_PTES (hw_ptes (host_at T y)) = fill 4 (hw_ptes (host_at T y)).
  Proof.
    intro y. apply pad_fill. unfold host_at. cbn [hw_ptes]. rewrite map_length, steps_length.
    unfold NR_RADIX_PTES, depth. destruct (tb_leaf T XLATE_PUD y); [cbn; lia|]. destruct (tb_leaf T XLATE_PMD y); cbn; lia.
  Qed.

  Lemma some_next : forall A (o : option A) P, (P -> o <> None) -> P -> exists c, o = Some c.
  Proof. intros A [c|] P H HP; [eauto|]. now destruct (H HP). Qed.

  Lemma walk_cut : forall p H c, knows p H -> cut_ok T H q c ->
    records_of x = cut_records (whole_walk T q) c ->
    exists s', decode_nested_radix x (rq_guest q) (mk_pst p 0)
      = XOk (s', Some (fw_radix (whole_walk T q), rq_real q, shift_at T (rq_final q), shift_at T (rq_guest q)))
      /\ ps_i s' = x_nwalks x /\ knows (ps_pwc s') (q :: H).
  Proof.
    intros p H c K (C1 & C2 & C3 & C4) Er.
    pose proof Hq as (Q1 & Q2 & Q3 & Q4 & Q5 & Q6 & _).
    pose proof (below_52 _ _ _ (shift_at_ok T HT _) Q5) as B1.
    pose proof (below_52 _ _ _ (shift_at_ok T HT _) Q6) as B2.
    assert (HPGD : type_ok XLATE_PGD) by (unfold type_ok; tauto).
    assert (HPUD : type_ok XLATE_PUD) by (unfold type_ok; tauto).
    assert (HPMD : type_ok XLATE_PMD) by (unfold type_ok; tauto).
    assert (HPTE : type_ok XLATE_PTE) by (unfold type_ok; tauto).
    assert (LPGD : level_ok XLATE_PGD) by (unfold level_ok; tauto).
    assert (LPUD : level_ok XLATE_PUD) by (unfold level_ok; tauto).
    assert (LPMD : level_ok XLATE_PMD) by (unfold level_ok; tauto).
    assert (LKIND : level_ok (tb_kind T (rq_guest q)))
      by (unfold level_ok; destruct (kind_cases T HT (rq_guest q)) as [->| ->]; tauto).
    (* kinds of host pages *)
    assert (HN : forall pre y, Forall (fun w => wk_final w = false) pre -> In y (hosts T q) -> depth T y = 4%nat ->
      sub_of NESTED_RA_ADDR (pre ++ fin T q (ct_final c)) = Some (tb_kind T y)).
    { intros pre y Hpre Hy H4. destruct (Q4 y Hy H4) as [A B]. rewrite (proj1 (sub_tail _ _ Hpre)), B.
      now apply fin_sub_nested. }
    assert (H0 : at_ x (mk_pst p 0) (cut_records (whole_walk T q) c)).
    { split; cbn [ps_i]; [lia|exact Er]. }
    assert (Ecr : cut_records (whole_walk T q) c
      = table_cut_records (ct_table c)
        ++ flat_map cut_guest (combine (combine [6; 4; 2; 0] (fw_guest (whole_walk T q))) (ct_guest c))
        ++ fin T q (ct_final c)).
    { unfold cut_records, table_cut_records, fin, whole_walk. cbn [fw_table fw_final fw_glevel fw_hlevel fst snd hw_ra hw_ptes fw_guest].
      destruct (rq_table q) as [[pa pr]|]; reflexivity. }
    rewrite Ecr in H0. clear Ecr Er.
    pose proof (proj1 K) as F.
    assert (PT : forall y, In y table_hosts -> part_ok T p y (ct_table c)).
    { intros y Hy. unfold table_hosts in Hy. destruct (rq_table q) as [[pa pr]|] eqn:Et; [|destruct Hy].
      destruct Hy as [<-|[]]. apply (knows_part p H); [exact K|]. now apply (C1 pa). }
    assert (HTin : forall y, In y table_hosts -> In y (hosts T q)).
    { intros y Hy. unfold hosts. apply in_or_app. left. exact Hy. }
    pose proof (knows_part p H _ _ K C4) as PF.
    set (gx := rq_guest q) in *.
    rewrite decode_split.
    unfold whole_walk in H0. cbn [fw_guest] in H0. fold gx in H0.
    assert (Hmh : forall l, In l (steps T gx) -> In (rq_nest T q l) (hosts T q)).
    { intros l Hl. unfold hosts. apply in_or_app. right. apply in_or_app. left. now apply in_map. }
    assert (Efin : In (rq_final q) (hosts T q)).
    { unfold hosts. apply in_or_app. right. apply in_or_app. right. now left. }
    assert (E2 : tb_leaf T XLATE_PUD gx = false).
    { destruct (tb_leaf T XLATE_PUD gx) eqn:E; [|reflexivity]. unfold depth in Q1. rewrite E in Q1. lia. }
    assert (HH : forall p', (forall y, In y table_hosts -> host_sure T p' y) ->
       (forall l, In l (steps T gx) -> host_sure T p' (rq_nest T q l)) -> host_sure T p' (rq_final q) ->
       forall y, In y (hosts T q) -> host_sure T p' y).
    { intros p' A B C y Hy. unfold hosts in Hy. apply in_app_or in Hy as [Hy|Hy]; [now apply A|].
      apply in_app_or in Hy as [Hy|[<-|[]]]; [|exact C]. apply in_map_iff in Hy as (l & <- & Hl). now apply B. }
    destruct (tb_leaf T XLATE_PMD gx) eqn:E3.
    - (* guest page of 2M *)
      assert (Es : steps T gx = [XLATE_PGD; XLATE_PUD; XLATE_PMD]).
      { unfold steps, depth. now rewrite E2, E3. }
      assert (Esh : shift_at T gx = 21). { unfold shift_at, depth. now rewrite E2, E3. }
      unfold fw_radix, whole_walk. cbn [fw_guest fw_final fst snd]. fold gx.
      rewrite Es in *. cbn [map] in H0 |- *.
      inversion C2 as [|l0 o0 ls0 os0 P0 C2' A1 A2]; subst.
      inversion C2' as [|l1 o1 ls1 os1 P1 C2'' A3 A4]; subst.
      inversion C2'' as [|l2 o2 ls2 os2 P2 C2''' A5 A6]; subst.
      inversion C2''' as [A7 A8|]; subst. clear C2 C2' C2'' C2'''. rename A2 into Ect.
      rewrite <- Ect in *.
      pose proof (knows_level p H q _ _ K P0) as V0. pose proof (knows_level p H q _ _ K P1) as V1.
      pose proof (knows_level p H q _ _ K P2) as V2.
      cbn [combine flat_map] in H0. rewrite app_nil_r, <- !app_assoc in H0.
      set (k := ct_final c) in *. set (fi := fin T q k) in *.
      match type of H0 with at_ _ _ (_ ++ ?a ++ ?b ++ ?c0 ++ fi) => set (G0 := a) in *; set (G1 := b) in *; set (G2 := c0) in * end.
      assert (N0 : Forall (fun w => wk_final w = false) G0) by apply cut_guest_nonfinal.
      assert (N1 : Forall (fun w => wk_final w = false) G1) by apply cut_guest_nonfinal.
      assert (N2 : Forall (fun w => wk_final w = false) G2) by apply cut_guest_nonfinal.
      assert (SF : forall L, starts L fi) by (intro L; now apply fin_starts).
      assert (S2 : forall L, 2 < L -> starts L (G2 ++ fi)) by (intros L HL; apply starts_guest; [exact HL|discriminate|apply SF]).
      assert (S1 : forall L, 4 < L -> starts L (G1 ++ G2 ++ fi)) by (intros L HL; apply starts_guest; [exact HL|discriminate|apply S2; lia]).
      assert (S0 : forall L, 6 < L -> starts L (G0 ++ G1 ++ G2 ++ fi)) by (intros L HL; apply starts_guest; [exact HL|discriminate|apply S1; lia]).
      destruct (table_cut (ct_table c) (G0 ++ G1 ++ G2 ++ fi) (mk_pst p 0) F PT H0 (S0 7 eq_refl)) as (s1 & D1 & H1 & W1 & K1).
      { intros y Hy H4. rewrite !app_assoc. apply HN; [|now apply HTin|exact H4]. rewrite <- !app_assoc.
        repeat (apply Forall_app; split; [assumption|]). assumption. }
      rewrite (bind_ok _ _ _ _ _ _ _ D1). unfold walk_body. cbv zeta.
      change (process_real (xa_lpid gx)) with (in_host (rq_lpid q)).
      assert (X01 : o0 <> None -> exists c', o1 = Some c').
      { intro HO. destruct o0 as [c0|]; [|congruence]. cbn [resumed] in C3. inversion C3 as [|? ? N ?]; subst.
        destruct o1; [eauto|congruence]. }
      assert (X12 : o1 <> None -> exists c', o2 = Some c').
      { intro HO. destruct o1 as [c0|]; [|congruence]. cbn [resumed] in C3. destruct o0.
        - inversion C3 as [|? ? N N']; subst. inversion N' as [|? ? M ?]; subst. destruct o2; [eauto|congruence].
        - cbn [resumed] in C3. inversion C3 as [|? ? M ?]; subst. destruct o2; [eauto|congruence]. }
      destruct (level_cut T HT x Hx q XLATE_PGD o0 (G1 ++ G2 ++ fi) s1 HPGD (proj1 W1)
                  (level_part_le T HT q _ _ _ _ LPGD (proj2 W1) V0) H1 (S1 6 eq_refl)) as (s2 & s3 & D2 & D3 & H3 & W3 & K3 & J3).
      { intro HO. destruct (X01 HO) as [c' E]. unfold G1. rewrite E. cbn [cut_guest app].
        exact (pleaf_next 6 _ _ ltac:(cbn; tauto)). }
      { intros _ E. discriminate E. }
      { intro H4. rewrite !app_assoc. apply HN; [|apply Hmh; cbn; tauto|exact H4].
        apply Forall_app; split; assumption. }
      rewrite (bind_ok _ _ _ _ _ _ _ D2), (bind_ok _ _ _ _ _ _ _ D3).
      pose proof (good_trans T _ _ _ W1 W3) as U3.
      destruct (level_cut T HT x Hx q XLATE_PUD o1 (G2 ++ fi) s3 HPUD (proj1 W3)
                  (level_part_le T HT q _ _ _ _ LPUD (proj2 U3) V1) H3 (S2 4 eq_refl)) as (s4 & s5 & D4 & D5 & H5 & W5 & K5 & J5).
      { intro HO. destruct (X12 HO) as [c' E]. unfold G2. rewrite E. cbn [cut_guest app].
        replace (leaf_of T (step_of T XLATE_PUD (rq_guest q)) (rq_guest q)) with false by (symmetry; exact E2).
        exact (pleaf_next 4 _ _ ltac:(cbn; tauto)). }
      { intros _ E. discriminate E. }
      { intro H4. apply HN; [exact N2|apply Hmh; cbn; tauto|exact H4]. }
      rewrite (bind_ok _ _ _ _ _ _ _ D4), (bind_ok _ _ _ _ _ _ _ D5).
      pose proof (good_trans T _ _ _ U3 W5) as U5.
      destruct (level_cut T HT x Hx q XLATE_PMD o2 fi s5 HPMD (proj1 W5)
                  (level_part_le T HT q _ _ _ _ LPMD (proj2 U5) V2) H5 (SF 2)) as (s6 & s7 & D6 & D7 & H7 & W7 & K7 & J7).
      { intro HO. rewrite pleaf_levels by (cbn; tauto). unfold fi. rewrite fin_leaf. symmetry.
        exact (f_equal Some E3). }
      { intros _ E. discriminate E. }
      { intro H4. apply (HN [] _ (Forall_nil _)); [apply Hmh; cbn; tauto|exact H4]. }
      rewrite (bind_ok _ _ _ _ _ _ _ D6), (bind_ok _ _ _ _ _ _ _ D7).
      fold gx.
      replace (pte_leaf (pte_at T XLATE_PMD gx)) with true by (symmetry; exact E3).
      change (pte_size (pte_at T XLATE_PMD gx)) with 21.
      pose proof (good_trans T _ _ _ U5 W7) as U7.
      destruct (final_cut T HT x Hx q k 21 s7 ltac:(unfold shift_ok; tauto) (eq_sym Esh) Hq (proj1 W7)
                  (part_le T HT _ _ _ _ (proj2 U7) PF) B1 B2 H7) as (s8 & s9 & D8 & D9 & H9 & W9 & J9).
      fold gx in D8. rewrite (bind_ok _ _ _ _ _ _ _ D8).
      change (in_host (rq_lpid q) (rq_greal q)) with (rq_final q).
      rewrite (bind_ok _ _ _ _ _ _ _ D9).
      exists s9. split; [|split; [now apply at_end|]].
      + unfold ret. rewrite Esh. do 3 f_equal. cbn [length map app].
        rewrite !pad_fill by (cbn; lia). unfold pad_rows. cbn [map]. rewrite !pad_host.
        cbn [fst snd hw_ptes hw_ra pte_at pte_address].
        change (step_of T XLATE_PGD gx) with XLATE_PGD. change (step_of T XLATE_PUD gx) with XLATE_PUD.
        change (step_of T XLATE_PMD gx) with XLATE_PMD.
        f_equal. f_equal. f_equal. f_equal.
        apply (max_len_fold [host_at T (rq_nest T q XLATE_PGD); host_at T (rq_nest T q XLATE_PUD); host_at T (rq_nest T q XLATE_PMD);
                             mk_hw (hw_ptes (host_at T (rq_final q))) (rq_real q)]).
      + pose proof (good_trans T _ _ _ U7 W9) as U9.
        pose proof (good_trans T _ _ _ W7 W9) as X7. pose proof (good_trans T _ _ _ W5 X7) as X5.
        pose proof (good_trans T _ _ _ W3 X5) as X3.
        apply (knows_more p _ H q K (proj1 U9) (proj2 U9)).
        * intros l Hl. change (rq_guest q) with gx in Hl. rewrite Es in Hl. destruct Hl as [<-|[<-|[<-|[]]]].
          -- exact (sure_le _ _ _ _ LPGD (proj2 X5) K3).
          -- exact (sure_le _ _ _ _ LPUD (proj2 X7) K5).
          -- exact (sure_le _ _ _ _ LPMD (proj2 W9) K7).
        * apply HH.
          -- intros y Hy. exact (host_sure_le T HT _ _ _ (proj2 X3) (K1 y Hy)).
          -- intros l [<-|[<-|[<-|[]]]].
             ++ exact (host_sure_le T HT _ _ _ (proj2 X5) J3).
             ++ exact (host_sure_le T HT _ _ _ (proj2 X7) J5).
             ++ exact (host_sure_le T HT _ _ _ (proj2 W9) J7).
          -- exact J9.
    - (* guest page of 64K or 4K *)
      assert (Es : steps T gx = [XLATE_PGD; XLATE_PUD; XLATE_PMD; tb_kind T gx]).
      { unfold steps, depth. now rewrite E2, E3. }
      assert (Esh : shift_at T gx = covers (tb_kind T gx)). { unfold shift_at, depth. now rewrite E2, E3. }
      destruct Q2 as [Q2a Q2b]; [unfold depth; now rewrite E2, E3|].
      unfold fw_radix, whole_walk. cbn [fw_guest fw_final fst snd]. fold gx.
      rewrite Es in *. cbn [map] in H0 |- *.
      inversion C2 as [|l0 o0 ls0 os0 P0 C2' A1 A2]; subst.
      inversion C2' as [|l1 o1 ls1 os1 P1 C2'' A3 A4]; subst.
      inversion C2'' as [|l2 o2 ls2 os2 P2 C2''' A5 A6]; subst.
      inversion C2''' as [|l3 o3 ls3 os3 P3 C24 A7 A8]; subst.
      inversion C24 as [A9 A10|]; subst. clear C2 C2' C2'' C2''' C24. rename A2 into Ect.
      rewrite <- Ect in *.
      pose proof (knows_level p H q _ _ K P0) as V0. pose proof (knows_level p H q _ _ K P1) as V1.
      pose proof (knows_level p H q _ _ K P2) as V2. pose proof (knows_level p H q _ _ K P3) as V3.
      cbn [combine flat_map] in H0. rewrite app_nil_r, <- !app_assoc in H0.
      set (k := ct_final c) in *. set (fi := fin T q k) in *.
      match type of H0 with at_ _ _ (_ ++ ?a ++ ?b ++ ?c0 ++ ?d0 ++ fi) =>
        set (G0 := a) in *; set (G1 := b) in *; set (G2 := c0) in *; set (G3 := d0) in * end.
      assert (N0 : Forall (fun w => wk_final w = false) G0) by apply cut_guest_nonfinal.
      assert (N1 : Forall (fun w => wk_final w = false) G1) by apply cut_guest_nonfinal.
      assert (N2 : Forall (fun w => wk_final w = false) G2) by apply cut_guest_nonfinal.
      assert (N3 : Forall (fun w => wk_final w = false) G3) by apply cut_guest_nonfinal.
      assert (SF : forall L, starts L fi) by (intro L; now apply fin_starts).
      assert (S3 : forall L, 0 < L -> starts L (G3 ++ fi)) by (intros L HL; apply starts_guest; [exact HL|discriminate|apply SF]).
      assert (S2 : forall L, 2 < L -> starts L (G2 ++ G3 ++ fi)) by (intros L HL; apply starts_guest; [exact HL|discriminate|apply S3; lia]).
      assert (S1 : forall L, 4 < L -> starts L (G1 ++ G2 ++ G3 ++ fi)) by (intros L HL; apply starts_guest; [exact HL|discriminate|apply S2; lia]).
      assert (S0 : forall L, 6 < L -> starts L (G0 ++ G1 ++ G2 ++ G3 ++ fi)) by (intros L HL; apply starts_guest; [exact HL|discriminate|apply S1; lia]).
      destruct (table_cut (ct_table c) (G0 ++ G1 ++ G2 ++ G3 ++ fi) (mk_pst p 0) F PT H0 (S0 7 eq_refl)) as (s1 & D1 & H1 & W1 & K1).
      { intros y Hy H4. rewrite !app_assoc. apply HN; [|now apply HTin|exact H4]. rewrite <- !app_assoc.
        repeat (apply Forall_app; split; [assumption|]). assumption. }
      rewrite (bind_ok _ _ _ _ _ _ _ D1). unfold walk_body. cbv zeta.
      change (process_real (xa_lpid gx)) with (in_host (rq_lpid q)).
      assert (X01 : o0 <> None -> exists c', o1 = Some c').
      { intro HO. destruct o0 as [c0|]; [|congruence]. cbn [resumed] in C3. inversion C3 as [|? ? N ?]; subst.
        destruct o1; [eauto|congruence]. }
      assert (X12 : o1 <> None -> exists c', o2 = Some c').
      { intro HO. destruct o1 as [c0|]; [|congruence]. cbn [resumed] in C3. destruct o0.
        - inversion C3 as [|? ? N N']; subst. inversion N' as [|? ? M ?]; subst. destruct o2; [eauto|congruence].
        - cbn [resumed] in C3. inversion C3 as [|? ? M ?]; subst. destruct o2; [eauto|congruence]. }
      assert (X23 : o2 <> None -> exists c', o3 = Some c').
      { intro HO. assert (HF : Forall (fun o : option (nat * bool) => o <> None) [o3]).
        { destruct o2 as [c2|]; [|congruence]. cbn [resumed] in C3. destruct o0 as [c0|].
          - inversion C3 as [|? ? _ C3']; subst. now inversion C3'.
          - cbn [resumed] in C3. destruct o1 as [c1|]; [now inversion C3|]. exact C3. }
        inversion HF as [|? ? M ?]; subst. destruct o3; [eauto|congruence]. }
      destruct (level_cut T HT x Hx q XLATE_PGD o0 (G1 ++ G2 ++ G3 ++ fi) s1 HPGD (proj1 W1)
                  (level_part_le T HT q _ _ _ _ LPGD (proj2 W1) V0) H1 (S1 6 eq_refl)) as (s2 & s3 & D2 & D3 & H3 & W3 & K3 & J3).
      { intro HO. destruct (X01 HO) as [c' E]. unfold G1. rewrite E. cbn [cut_guest app].
        exact (pleaf_next 6 _ _ ltac:(cbn; tauto)). }
      { intros _ E. discriminate E. }
      { intro H4. rewrite !app_assoc. apply HN; [|apply Hmh; cbn; tauto|exact H4]. rewrite <- app_assoc.
        repeat (apply Forall_app; split; [assumption|]). assumption. }
      rewrite (bind_ok _ _ _ _ _ _ _ D2), (bind_ok _ _ _ _ _ _ _ D3).
      pose proof (good_trans T _ _ _ W1 W3) as U3.
      destruct (level_cut T HT x Hx q XLATE_PUD o1 (G2 ++ G3 ++ fi) s3 HPUD (proj1 W3)
                  (level_part_le T HT q _ _ _ _ LPUD (proj2 U3) V1) H3 (S2 4 eq_refl)) as (s4 & s5 & D4 & D5 & H5 & W5 & K5 & J5).
      { intro HO. destruct (X12 HO) as [c' E]. unfold G2. rewrite E. cbn [cut_guest app].
        replace (leaf_of T (step_of T XLATE_PUD (rq_guest q)) (rq_guest q)) with false by (symmetry; exact E2).
        exact (pleaf_next 4 _ _ ltac:(cbn; tauto)). }
      { intros _ E. discriminate E. }
      { intro H4. rewrite !app_assoc. apply HN; [apply Forall_app; split; assumption|apply Hmh; cbn; tauto|exact H4]. }
      rewrite (bind_ok _ _ _ _ _ _ _ D4), (bind_ok _ _ _ _ _ _ _ D5).
      pose proof (good_trans T _ _ _ U3 W5) as U5.
      destruct (level_cut T HT x Hx q XLATE_PMD o2 (G3 ++ fi) s5 HPMD (proj1 W5)
                  (level_part_le T HT q _ _ _ _ LPMD (proj2 U5) V2) H5 (S3 2 eq_refl)) as (s6 & s7 & D6 & D7 & H7 & W7 & K7 & J7).
      { intro HO. destruct (X23 HO) as [c' E]. unfold G3. rewrite E. cbn [cut_guest app].
        replace (leaf_of T (step_of T XLATE_PMD (rq_guest q)) (rq_guest q)) with false by (symmetry; exact E3).
        exact (pleaf_next 2 _ _ ltac:(cbn; tauto)). }
      { intros _ E. discriminate E. }
      { intro H4. apply HN; [exact N3|apply Hmh; cbn; tauto|exact H4]. }
      rewrite (bind_ok _ _ _ _ _ _ _ D6), (bind_ok _ _ _ _ _ _ _ D7).
      fold gx.
      replace (pte_leaf (pte_at T XLATE_PMD gx)) with false by (symmetry; exact E3).
      pose proof (good_trans T _ _ _ U5 W7) as U7.
      destruct (level_cut T HT x Hx q XLATE_PTE o3 fi s7 HPTE (proj1 W7)
                  (level_part_le T HT q _ _ _ _ LKIND (proj2 U7) V3) H7 (SF 0)) as (s8 & s9 & D8 & D9 & H9 & W9 & K9 & J9).
      { intro HO. rewrite pleaf_levels by (cbn; tauto). unfold leaf_of.
        change (step_of T XLATE_PTE (rq_guest q)) with (tb_kind T (rq_guest q)).
        destruct (kind_cases T HT (rq_guest q)) as [->| ->]; reflexivity. }
      { intros _ _. unfold fi. rewrite fin_sub_process by exact Q2a. now rewrite <- Q2b. }
      { intro H4. apply (HN [] _ (Forall_nil _)); [apply Hmh; cbn; tauto|exact H4]. }
      rewrite (bind_ok _ _ _ _ _ _ _ D8), (bind_ok _ _ _ _ _ _ _ D9).
      fold gx.
      replace (pte_size (pte_at T XLATE_PTE gx)) with (shift_at T gx)
        by (rewrite Esh; symmetry; exact (covers_kind T HT gx)).
      pose proof (good_trans T _ _ _ U7 W9) as U9.
      destruct (final_cut T HT x Hx q k (shift_at T gx) s9 (shift_at_ok T HT gx) eq_refl Hq (proj1 W9)
                  (part_le T HT _ _ _ _ (proj2 U9) PF) B1 B2 H9) as (s10 & s11 & D10 & D11 & H11 & W11 & J11).
      fold gx in D10. rewrite (bind_ok _ _ _ _ _ _ _ D10).
      change (in_host (rq_lpid q) (rq_greal q)) with (rq_final q).
      rewrite (bind_ok _ _ _ _ _ _ _ D11).
      exists s11. split; [|split; [now apply at_end|]].
      + unfold ret. cbn [length map app]. do 3 f_equal. unfold pad_rows. cbn [map]. rewrite !pad_host.
        cbn [fst snd hw_ptes hw_ra pte_at pte_address].
        change (step_of T XLATE_PGD gx) with XLATE_PGD. change (step_of T XLATE_PUD gx) with XLATE_PUD.
        change (step_of T XLATE_PMD gx) with XLATE_PMD. change (step_of T XLATE_PTE gx) with (tb_kind T gx).
        f_equal. f_equal. f_equal. f_equal.
        apply (max_len_fold [host_at T (rq_nest T q XLATE_PGD); host_at T (rq_nest T q XLATE_PUD); host_at T (rq_nest T q XLATE_PMD);
                             host_at T (rq_nest T q (tb_kind T gx)); mk_hw (hw_ptes (host_at T (rq_final q))) (rq_real q)]).
      + pose proof (good_trans T _ _ _ U9 W11) as U11.
        pose proof (good_trans T _ _ _ W9 W11) as X9.
        pose proof (good_trans T _ _ _ W7 X9) as X7. pose proof (good_trans T _ _ _ W5 X7) as X5.
        pose proof (good_trans T _ _ _ W3 X5) as X3.
        apply (knows_more p _ H q K (proj1 U11) (proj2 U11)).
        * intros l Hl. change (rq_guest q) with gx in Hl. rewrite Es in Hl. destruct Hl as [<-|[<-|[<-|[<-|[]]]]].
          -- exact (sure_le _ _ _ _ LPGD (proj2 X5) K3).
          -- exact (sure_le _ _ _ _ LPUD (proj2 X7) K5).
          -- exact (sure_le _ _ _ _ LPMD (proj2 X9) K7).
          -- exact (sure_le _ _ _ _ LKIND (proj2 W11) K9).
        * apply HH.
          -- intros y Hy. exact (host_sure_le T HT _ _ _ (proj2 X3) (K1 y Hy)).
          -- intros l [<-|[<-|[<-|[<-|[]]]]].
             ++ exact (host_sure_le T HT _ _ _ (proj2 X5) J3).
             ++ exact (host_sure_le T HT _ _ _ (proj2 X7) J5).
             ++ exact (host_sure_le T HT _ _ _ (proj2 X9) J7).
             ++ exact (host_sure_le T HT _ _ _ (proj2 W11) J9).
          -- exact J11.
  Qed.
End MAIN.
