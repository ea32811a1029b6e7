(** Traces of resumed walks; walks of guest real addresses. *)
Require Import NArith ZArith List Bool Lia.
Require Import ZifyBool ZifyN ZifyNat.
Require Import Verif.Word Verif.Codec_Types Verif.Pwc_Model Verif.Pwc_Spec Verif.Pwc_Proofs.
Require Import Verif.Xlate_Model Verif.Xlate_Spec Verif.Xlate_Proofs Verif.Xlate_Full Verif.Resume_Spec.
Require Import Verif.Resume_Proofs Verif.Resume_Proofs2 Verif.Resume_Proofs3 Verif.Resume_Proofs4 Verif.Resume_Proofs5.
Import ListNotations.
Local Open Scope N_scope.

Lemma last_complete : forall x pre w, xlate_wf x -> records_of x = pre ++ [w] -> wk_final w = true -> wk_host w = true ->
  xlate_complete x = true.
Proof.
  intros x pre w Hx E Hf Hh. unfold xlate_complete. pose proof (records_length x Hx) as Hl.
  rewrite E in Hl. destruct (x_nwalks x) as [|n] eqn:En; [reflexivity|].
  assert (Hn : nth n (x_walks x) zero_walk = nth n (records_of x) zero_walk).
  { unfold records_of. rewrite En. clear. revert n. induction (x_walks x) as [|v l IH]; intros [|n]; cbn; try reflexivity.
    apply IH. }
  rewrite Hn, E. rewrite app_length in Hl. cbn [length] in Hl.
  rewrite app_nth2 by lia. replace (n - length pre)%nat with 0%nat by lia. cbn [nth]. now rewrite Hf, Hh.
Qed.
Lemma cut_complete : forall x t c, xlate_wf x -> records_of x = cut_records t c -> xlate_complete x = true.
Proof.
  intros x t c Hx E.
  assert (Ef : exists pre, cut_records t c = pre ++ [mk_walk true false true true (fw_hlevel t) (hw_ra (snd (fw_final t)))]).
  { unfold cut_records. rewrite app_comm_cons, !app_assoc. eexists. reflexivity. }
  destruct Ef as [pre Ef]. rewrite Ef in E. exact (last_complete x pre _ Hx E eq_refl eq_refl).
Qed.

Section TRACE.
  Variable T : tables.
  Hypothesis HT : tables_ok T.

  Lemma decode_event : forall st H e, knows T (xs_pwc st) H -> event_ok T H e ->
    Forall xlate_wf (xs_partial st) -> Forall (fun n => ~ overlap n (ev_xlate e)) (xs_partial st) ->
    exists st', xlate_decode st (ev_xlate e) (ev_msr e) true (rq_address (ev_rq e)) (page_4k (rq_real (ev_rq e)))
      = XOk (st', answer T e) /\ xs_partial st' = xs_partial st /\ knows T (xs_pwc st') (ev_rq e :: H)
      /\ erat_insert (xs_erat st) (shift_at T (rq_final (ev_rq e))) (rq_address (ev_rq e)) (page_4k (rq_real (ev_rq e)))
           (fw_radix (whole_walk T (ev_rq e))) (shift_at T (rq_guest (ev_rq e))) = Some (xs_erat st').
  Proof.
    intros st H e K (Hq & Hc & Hx & Er & El & Ep & Hm) Hp Hno.
    set (q := ev_rq e) in *. set (x := ev_xlate e) in *.
    assert (EL : partial_lookup (xs_partial st) x = XOk (None, xs_partial st)).
    { destruct (lookup_spec (xs_partial st) x Hp Hx) as [[E _]|(l1 & n & l2 & pre & E1 & _ & O & _)]; [exact E|].
      exfalso. rewrite Forall_forall in Hno. apply (Hno n); [|exact O]. rewrite E1. apply in_or_app. right. now left. }
    destruct (walk_cut T HT x Hx q Hq (xs_pwc st) H (ev_cut e) K Hc Er) as (s' & E & Ei & K').
    pose proof Hq as (_ & _ & _ & _ & _ & Q6 & Q7).
    pose proof (below_52 T HT _ _ _ (shift_at_ok T HT _) Q6) as B2.
    assert (B3 : rq_real q < 2 ^ 64) by (change (2 ^ 52) with 4503599627370496 in B2; change (2 ^ 64) with 18446744073709551616; lia).
    assert (B4 : page_4k (rq_real q) < 2 ^ 64).
    { unfold page_4k. pose proof (N.mul_div_le (rq_real q) (2 ^ 12) ltac:(discriminate)). lia. }
    unfold xlate_decode. rewrite EL, (cut_complete x _ _ Hx Er), Hm. cbn [andb negb]. rewrite El, Ep.
    change (mk_xaddr 0 (rq_lpid q) (rq_pid q) (rq_address q)) with (rq_guest q). rewrite E.
    rewrite mask_4k by exact B3. fold (page_4k (rq_real q)). rewrite N.eqb_refl.
    destruct (erat_insert_ok (xs_erat st) (shift_at T (rq_final q)) (rq_address q) (page_4k (rq_real q))
                (fw_radix (whole_walk T q)) (shift_at T (rq_guest q))
                (shift_at_ok T HT _) (shift_at_ok T HT _) Q7 B4) as (e' & Ee & _).
    rewrite Ee, Ei, Nat.eqb_refl. eexists. split; [reflexivity|]. split; [reflexivity|]. split; [exact K'|reflexivity].
  Qed.

  Lemma knows_init : knows T pwc_init [].
  Proof.
    assert (HD : forall l y, level_ok l -> dir_get (page_walk_cache pwc_init) l y = Some None).
    { intros l y [->|[->|[->|[->| ->]]]]; reflexivity. }
    assert (HR : forall s y, shift_ok s -> rpn_get (tlb_cache pwc_init) s y = Some None).
    { intros s y [->|[->|[->| ->]]]; reflexivity. }
    split; [split|split].
    - intros l y r f Hl E. rewrite HD in E by exact Hl. discriminate E.
    - intros s y r Hs E. rewrite HR in E by exact Hs. discriminate E.
    - intros l y (q & z & [] & _).
    - intros y (q & z & [] & _).
  Qed.

  Lemma decode_events : forall es st H, knows T (xs_pwc st) H -> xs_partial st = [] -> events_ok T H es ->
    decode_all st es = XOk (map (answer T) es).
  Proof.
    induction es as [|e es IH]; intros st H K Hp Hok; [reflexivity|]. destruct Hok as [Hok Hoks].
    destruct (decode_event st H e K Hok) as (st' & E & Ep & K' & _); [rewrite Hp; constructor..|].
    cbn [decode_all map]. rewrite E. rewrite (IH st' (ev_rq e :: H) K' (eq_trans Ep Hp) Hoks). reflexivity.
  Qed.
End TRACE.

Lemma trace_resumed : forall T es, tables_ok T -> events_ok T [] es ->
  decode_all xlate_init es = XOk (map (answer T) es).
Proof. intros T es HT Hok. apply (decode_events T HT es xlate_init []); [apply knows_init|reflexivity|exact Hok]. Qed.

(** Leaving out nothing. *)
Definition no_cut (t : full_walk) : cut := mk_cut (O, true) (map (fun _ => Some (O, true)) (fw_guest t)) O.
Lemma flat_map_no_cut : forall (ls : list N) (gs : list (N * host_walk)),
  flat_map cut_guest (combine (combine ls gs) (map (fun _ => Some (O, true)) gs)) = flat_map guest_records (combine ls gs).
Proof.
  induction ls as [|l ls IH]; intros [|[g h] gs]; cbn [combine flat_map map]; try reflexivity.
  rewrite IH. reflexivity.
Qed.
Lemma no_cut_full : forall t, cut_records t (no_cut t) = full_records t.
Proof.
  intro t. unfold cut_records, full_records, no_cut. cbn [ct_table ct_guest ct_final skipn].
  rewrite flat_map_no_cut. destruct (fw_table t) as [[[pa pr] h]|]; reflexivity.
Qed.

(** ** Guest real addresses *)
Section REAL.
  Variable x : xlate.
  Hypothesis Hx : xlate_wf x.
  Lemma translate_last : forall flag addr s h w ws st, host_ok h ->
    at_ x s (host_pte_records (hw_ptes h) ++ w :: ws) ->
    check_walk w flag = true -> wk_final w = true -> wk_ra w = hw_ra h ->
    (length (hw_ptes h) = 4%nat -> sub_of NESTED_RA_ADDR (w :: ws) = Some st) ->
    exists s', partition_translate x flag addr s
               = XOk (s', Some (hw_ra h, hw_ptes h, size_of (hw_ptes h) st)) /\ at_ x s' ws.
  Proof.
    intros flag addr s [ptes ra] w ws st [Hlen Hb] H Hc Hg Hra Hst. cbn [hw_ptes hw_ra] in *.
    destruct ptes as [|p1 [|p2 [|p3 [|p4 [|p5 l]]]]]; cbn [length] in Hlen; try lia;
      unfold host_pte_records in H; cbn [combine map fst snd app] in H;
      apply Forall_cons_iff in Hb as [B1 Hb]; apply Forall_cons_iff in Hb as [B2 Hb].
    - unfold partition_translate.
      destruct (partition_pte_at x Hx XLATE_PGD addr s p1 _ _ XLATE_PGD ltac:(unfold type_ok; tauto) B1 H) as (s1 & E1 & H1);
        [cbn; discriminate|reflexivity|].
      rewrite (bind_ok _ _ _ _ _ _ _ E1).
      destruct (partition_pte_at x Hx XLATE_PUD addr s1 p2 _ _ XLATE_PUD ltac:(unfold type_ok; tauto) B2 H1) as (s2 & E2 & H2);
        [reflexivity|reflexivity|].
      rewrite (bind_ok _ _ _ _ _ _ _ E2). cbn [pte_leaf pte_address pte_size]. rewrite Hg, orb_true_r.
      rewrite <- Hra. apply final_at; [exact Hx|cbn; unfold shift_ok; tauto|exact H2|exact Hc].
    - apply Forall_cons_iff in Hb as [B3 Hb]. unfold partition_translate.
      destruct (partition_pte_at x Hx XLATE_PGD addr s p1 _ _ XLATE_PGD ltac:(unfold type_ok; tauto) B1 H) as (s1 & E1 & H1);
        [cbn; discriminate|reflexivity|].
      rewrite (bind_ok _ _ _ _ _ _ _ E1).
      destruct (partition_pte_at x Hx XLATE_PUD addr s1 p2 _ _ XLATE_PUD ltac:(unfold type_ok; tauto) B2 H1) as (s2 & E2 & H2);
        [reflexivity|reflexivity|].
      rewrite (bind_ok _ _ _ _ _ _ _ E2). cbn [pte_leaf wk_guest wk_final orb].
      destruct (partition_pte_at x Hx XLATE_PMD addr s2 p3 _ _ XLATE_PMD ltac:(unfold type_ok; tauto) B3 H2) as (s3 & E3 & H3);
        [reflexivity|reflexivity|].
      rewrite (bind_ok _ _ _ _ _ _ _ E3). cbn [pte_leaf pte_address pte_size]. rewrite Hg, orb_true_r.
      rewrite <- Hra. apply final_at; [exact Hx|cbn; unfold shift_ok; tauto|exact H3|exact Hc].
    - apply Forall_cons_iff in Hb as [B3 Hb]. apply Forall_cons_iff in Hb as [B4 Hb]. unfold partition_translate.
      destruct (partition_pte_at x Hx XLATE_PGD addr s p1 _ _ XLATE_PGD ltac:(unfold type_ok; tauto) B1 H) as (s1 & E1 & H1);
        [cbn; discriminate|reflexivity|].
      rewrite (bind_ok _ _ _ _ _ _ _ E1).
      destruct (partition_pte_at x Hx XLATE_PUD addr s1 p2 _ _ XLATE_PUD ltac:(unfold type_ok; tauto) B2 H1) as (s2 & E2 & H2);
        [reflexivity|reflexivity|].
      rewrite (bind_ok _ _ _ _ _ _ _ E2). cbn [pte_leaf wk_guest wk_final orb].
      destruct (partition_pte_at x Hx XLATE_PMD addr s2 p3 _ _ XLATE_PMD ltac:(unfold type_ok; tauto) B3 H2) as (s3 & E3 & H3);
        [reflexivity|reflexivity|].
      rewrite (bind_ok _ _ _ _ _ _ _ E3). cbn [pte_leaf wk_guest wk_final orb].
      specialize (Hst eq_refl).
      destruct (partition_pte_at x Hx XLATE_PTE addr s3 p4 _ _ st ltac:(unfold type_ok; tauto) B4 H3) as (s4 & E4 & H4);
        [reflexivity|exact Hst|].
      rewrite (bind_ok _ _ _ _ _ _ _ E4). cbn [pte_leaf pte_address pte_size].
      rewrite <- Hra. apply final_at; [exact Hx| |exact H4|exact Hc].
      unfold sub_of in Hst. unfold shift_ok. destruct (existsb _ _); [injection Hst as <-; cbn; tauto|].
      destruct (existsb _ _); [injection Hst as <-; cbn; tauto|discriminate].
  Qed.
End REAL.

Definition real_walk (h : host_walk) : radix :=
  mk_radix GUEST_REAL (N.of_nat (length (hw_ptes h))) 1
    (fill 4 (hw_ptes h) :: repeat [0; 0; 0; 0] 4) [0; 0; 0; 0] [0; 0; 0; 0; 0].
Definition real_records (h : host_walk) (guest : bool) (level : N) : list walk :=
  host_pte_records (hw_ptes h) ++ [mk_walk true false guest true level (hw_ra h)].
Definition real_shift (h : host_walk) (level : N) : N :=
  match length (hw_ptes h) with 2%nat => 30 | 3%nat => 21 | _ => if level =? 0 then 12 else 16 end.

Lemma decode_real : forall st x m h guest level a r, xlate_wf x -> Forall xlate_wf (xs_partial st) ->
  Forall (fun n => ~ overlap n x) (xs_partial st) ->
  host_ok h -> (length (hw_ptes h) = 4%nat -> guest = true /\ level <= 1) ->
  records_of x = real_records h guest level -> m_hv m = false -> a < 2 ^ 64 -> r < 2 ^ 64 ->
  exists p e, xlate_decode st x m false a r
      = XOk (mk_xst p e (xs_partial st), Some (real_walk h, real_shift h level, 0))
    /\ erat_insert (xs_erat st) (real_shift h level) a r (real_walk h) (real_shift h level) = Some e.
Proof.
  intros st x m h guest level a r Hx Hp Hno Hh Hl Er Hm Ha Hr.
  assert (EL : partial_lookup (xs_partial st) x = XOk (None, xs_partial st)).
  { destruct (lookup_spec (xs_partial st) x Hp Hx) as [[E _]|(l1 & n & l2 & pre & E1 & _ & O & _)]; [exact E|].
    exfalso. rewrite Forall_forall in Hno. apply (Hno n); [|exact O]. rewrite E1. apply in_or_app. right. now left. }
  assert (H0 : at_ x (mk_pst (xs_pwc st) 0) (host_pte_records (hw_ptes h) ++ mk_walk true false guest true level (hw_ra h) :: [])).
  { split; cbn [ps_i]; [lia|exact Er]. }
  destruct (translate_last x Hx X_HOST_RA (mk_xaddr 0 (x_lpid x) (x_pid x) a) _ h _ []
              (if level =? 0 then XLATE_4K_PTE else XLATE_64K_PTE) Hh H0) as (s' & E & H').
  { destruct guest; reflexivity. }
  { reflexivity. }
  { reflexivity. }
  { intro H4. destruct (Hl H4) as [-> Hl']. rewrite sub_nested. unfold f_nra. cbn.
    destruct (lvl_case _ Hl') as [-> | ->]; reflexivity. }
  pose proof (at_end x Hx s' H') as Ei.
  assert (Es : size_of (hw_ptes h) (if level =? 0 then XLATE_4K_PTE else XLATE_64K_PTE) = real_shift h level).
  { unfold size_of, real_shift. destruct (length (hw_ptes h)) as [|[|[|[|n]]]]; try reflexivity; destruct (level =? 0); reflexivity. }
  rewrite Es in E.
  assert (Hs : shift_ok (real_shift h level)).
  { unfold real_shift, shift_ok. destruct (length (hw_ptes h)) as [|[|[|[|n]]]]; try tauto; destruct (level =? 0); tauto. }
  unfold xlate_decode. rewrite EL.
  rewrite (last_complete x _ _ Hx Er eq_refl eq_refl), Hm. cbn [andb negb].
  unfold decode_guest_real. rewrite (bind_ok _ _ _ _ _ _ _ E). unfold ret.
  assert (EW : mk_radix GUEST_REAL (N.of_nat (length (hw_ptes h))) 1 (pad_rows [hw_ptes h]) (repeat 0 4) (repeat 0 5) = real_walk h).
  { unfold real_walk, pad_rows. cbn [map]. destruct Hh as [Hh _]. unfold NR_RADIX_PTES. rewrite pad_fill by (cbn; lia). reflexivity. }
  rewrite EW.
  destruct (erat_insert_ok (xs_erat st) (real_shift h level) a r (real_walk h) (real_shift h level) Hs Hs Ha Hr) as (e' & Ee & _).
  rewrite Ee, Ei, Nat.eqb_refl. exists (ps_pwc s'), e'. now split.
Qed.
