(** Proofs for C55: whole traces. *)
Require Import NArith ZArith List Bool Lia.
Require Import ZifyBool ZifyN ZifyNat.
Require Import Verif.Word Verif.Codec_Types Verif.HtmBits_Model Verif.HtmBits_Spec Verif.HtmBits_Proofs.
Require Import Verif.Htm_Model Verif.Trace_Spec Verif.Trace_Proofs Verif.Trace8_Proofs Verif.Trace8_Proofs2 Verif.Flow_Spec.
Require Verif.Tlbdump_Proofs4 Verif.Tlb_Model Verif.Tlb_Spec Verif.Tlb_Proofs Verif.Bb_Model Verif.Bb_Spec Verif.Bb_Proofs.
Import ListNotations.
Local Open Scope N_scope.

Lemma shift_size : forall size, size = 4096 \/ size = 65536 \/ size = 16777216 ->
  pagesize_to_shift size = N.log2 size /\ 0 < N.log2 size.
Proof. intros size [->|[->| ->]]; split; reflexivity. Qed.
Lemma latest_size : forall h ea page size, Forall Tlb_Spec.op_ok h ->
  Tlb_Spec.latest h ea = Some (page, size) -> size = 4096 \/ size = 65536 \/ size = 16777216.
Proof.
  induction h as [|[a f r z|a f] h IH]; intros ea page size F L; inversion F; subst; cbn [Tlb_Spec.latest] in L;
    [discriminate| |eapply IH; eassumption].
  destruct (Tlb_Spec.latest h ea) as [[p' z']|] eqn:E; [injection L as -> ->; eapply IH; eassumption|].
  destruct (N.odd f) eqn:O; [|discriminate]. destruct (_ =? _); [|discriminate]. injection L as <- <-.
  destruct (H1 O) as (_ & _ & _ & X). exact X.
Qed.
Lemma answer_size : forall pre a fl ra size, Forall Tlb_Spec.op_ok pre ->
  Tlb_Spec.answer pre a fl = Some (ra, size) -> size = 4096 \/ size = 65536 \/ size = 16777216.
Proof.
  intros pre a fl ra size F E. unfold Tlb_Spec.answer in E. destruct (N.odd fl).
  - destruct (Tlb_Spec.latest pre a) as [[p z]|] eqn:L; [|discriminate]. injection E as _ <-. eapply latest_size; eassumption.
  - injection E as _ <-. auto.
Qed.

(** The record of the parts collected. *)
Definition first_parts (i : insn8) (real : option (N * N)) : parts8 :=
  match s_ira i, real with
  | None, Some (ra, ps) => mk_parts8 true ra ps (here (s_dea i)) 0 (here (s_dra i)) 0 0
  | _, _ => mk_parts8 (here (s_ira i)) 0 0 (here (s_dea i)) 0 (here (s_dra i)) 0 0
  end.
Lemma ishift_pos : forall w, 0 <? ishift w = true.
Proof. intros w; destruct (ishift_cases w) as [-> |[-> | ->]]; reflexivity. Qed.
Lemma dshift_pos : forall w, 0 <? dshift w = true.
Proof. intros w; destruct (dshift_cases w) as [-> |[-> | ->]]; reflexivity. Qed.
Lemma page_lor : forall p x k, p mod 2 ^ k = 0 -> N.lor p (N.land x (2 ^ k - 1)) = p + x mod 2 ^ k.
Proof.
  intros p x k M. rewrite land_low. apply lor_add with k; [exact M|]. apply N.mod_lt, N.pow_nonzero. discriminate.
Qed.
Lemma record_tells : forall i a q real,
  (s_ira i = None -> match real with Some (_, ps) => 0 < ps | None => True end) ->
  part_ok (s_dra i) (fun w => s_esid i = false -> field 64 w 0 1 <> 2 /\ dpage w mod 2 ^ dshift w = 0) ->
  tells (EInsn (s_insn i) a
           (if s_esid i then None
            else match s_ira i with Some (_, w) => Some (ipage w + a mod 2 ^ ishift w, ishift w) | None => real end)
           (data8 i) (data_real8 i))
    (RInsn (record8 q (s_esid i) (s_insn i) a
      (dra_part true i (dea_part true i (ira_part true i a (first_parts i real)))))).
Proof.
  intros i a q real RP OK. unfold tells.
  set (p := dra_part true i (dea_part true i (ira_part true i a (first_parts i real)))).
  assert (P1 : p_ira p = match s_ira i with Some _ => true | None => here real end
    /\ p_ira_addr p = match s_ira i with Some (_, w) => ipage w + a mod 2 ^ ishift w | None => match real with Some x => fst x | None => 0 end end
    /\ p_ira_ps p = match s_ira i with Some (_, w) => ishift w | None => match real with Some x => snd x | None => 0 end end
    /\ p_dea p = here (s_dea i)
    /\ p_dea_addr p = match data8 i with Some x => x | None => 0 end
    /\ p_dra p = here (s_dra i)
    /\ p_dra_page p = (if s_esid i then 0 else match s_dra i with Some (_, w) => dpage w | None => 0 end)
    /\ p_dra_ps p = (if s_esid i then 0 else match s_dra i with Some (_, w) => dshift w | None => 0 end)).
  { unfold p, dra_part, dea_part, ira_part, first_parts, data8.
    destruct (s_ira i) as [[? ?]|], (s_dea i) as [[? ?]|], (s_dra i) as [[? ?]|], real as [[? ?]|], (s_esid i);
      repeat split. }
  clearbody p. destruct P1 as (E1 & E2 & E3 & E4 & E5 & E6 & E7 & E8).
  unfold record8. cbn [q_insn q_insn_addr q_insn_ra_valid q_insn_ra q_insn_ps_valid q_insn_ps q_data_addr_valid q_data_addr q_data_ra_valid q_data_ra q_data_ps_valid q_data_ps].
  rewrite E1, E2, E3, E4, E5, E6, E7, E8. clear E1 E2 E3 E4 E5 E6 E7 E8 p.
  split; [reflexivity|]. split; [reflexivity|].
  split; [|split; [|split; [|split]]].
  - destruct (s_esid i); [destruct (s_ira i), real; reflexivity|].
    destruct (s_ira i) as [[l w]|].
    + cbn [andb negb known fst]. rewrite ishift_pos. split; reflexivity.
    + specialize (RP eq_refl). destruct real as [[ra ps]|]; cbn [here andb negb known fst snd]; [|reflexivity].
      apply N.ltb_lt in RP. rewrite RP. split; reflexivity.
  - destruct (s_esid i); [destruct (s_ira i), real; reflexivity|].
    destruct (s_ira i) as [[l w]|].
    + cbn [andb negb known snd]. rewrite ishift_pos. split; reflexivity.
    + specialize (RP eq_refl). destruct real as [[ra ps]|]; cbn [here andb negb known fst snd]; [|reflexivity].
      apply N.ltb_lt in RP. rewrite RP. split; reflexivity.
  - unfold data8. destruct (s_dea i) as [[l w]|]; cbn; [split|]; reflexivity.
  - unfold data_real8, data8. destruct (s_dra i) as [[l w]|], (s_esid i); try reflexivity.
    cbn [here andb negb known fst snd option_map]. rewrite dshift_pos. split; [reflexivity|].
    destruct OK as (_ & _ & OK). destruct (OK eq_refl) as [_ M].
    destruct (s_dea i) as [[l1 d]|]; cbn [here option_map snd]; [apply page_lor, M|].
    rewrite N.lor_0_r, N.add_0_r. reflexivity.
  - unfold data_real8. destruct (s_dra i) as [[l w]|], (s_esid i); try reflexivity.
    cbn [here andb negb known fst snd option_map]. rewrite dshift_pos. split; reflexivity.
Qed.

(** ** The flow *)
Lemma system_same : forall i, is_system_branch i = system_insn i.
Proof.
  intros i. unfold is_system_branch, system_insn. cbn [existsb]. rewrite orb_false_r.
  assert (E : N.land i 0xFFFFF001 = (i / 4096) mod 2 ^ 20 * 4096 + i mod 2).
  { change 0xFFFFF001 with (N.lor (N.shiftl (N.ones 20) 12) (N.ones 1)). rewrite N.land_lor_distr_r.
    rewrite land_field, N.land_ones. change (2 ^ 12) with 4096. change (2 ^ 1) with 2.
    symmetry. rewrite <- (lor_add 12).
    - reflexivity.
    - change (2 ^ 12) with 4096. apply N.mod_mul. discriminate.
    - assert (i mod 2 < 2) by (apply N.mod_lt; discriminate). change (2 ^ 12) with 4096. lia. }
  rewrite E. rewrite !orb_assoc. f_equal.
  rewrite <- N.bit0_odd. pose proof (N.bit0_mod i) as B. destruct (N.testbit i 0); cbn [N.b2n] in B; rewrite <- B; rewrite ?andb_true_r, ?andb_false_r; lia.
Qed.
Lemma vector_same : forall a, a < 2 ^ 64 -> (N.land a 0xfffffffffffff07f =? 0) = vector a.
Proof.
  intros a H.
  assert (E : N.land a 0xfffffffffffff07f = (a / 4096) mod 2 ^ 52 * 4096 + a mod 128).
  { change 0xfffffffffffff07f with (N.lor (N.shiftl (N.ones 52) 12) (N.ones 7)). rewrite N.land_lor_distr_r.
    rewrite land_field, N.land_ones. change (2 ^ 12) with 4096. change (2 ^ 7) with 128.
    symmetry. rewrite <- (lor_add 12).
    - reflexivity.
    - change (2 ^ 12) with 4096. apply N.mod_mul. discriminate.
    - assert (a mod 128 < 128) by (apply N.mod_lt; discriminate). change (2 ^ 12) with 4096. lia. }
  rewrite E, N.mod_small by (apply N.div_lt_upper_bound; [discriminate|exact H]). unfold vector. clear E.
  pose proof (N.div_mod a 4096 ltac:(discriminate)). assert (a mod 4096 < 4096) by (apply N.mod_lt; discriminate).
  destruct (N.ltb_spec a 4096) as [L|L].
  - rewrite N.div_small by exact L. rewrite andb_true_r. reflexivity.
  - assert (1 <= a / 4096) by (apply N.div_le_lower_bound; lia). rewrite andb_false_r. apply N.eqb_neq. lia.
Qed.
(** What reaching an address counts. *)
Definition flow (p : N * bool) (a : N) : list event :=
  if elsewhere (fst p) a then
    if snd p then [(BranchesAfterNonBranches, 1)] else if vector a then [(Interrupts, 1)] else []
  else [].

Section ALL.
  Variable qs : Tlb_Model.qsort.
  Variable full bad : bool.
  Variable stale : Z -> list N.
  Variable junk : Z -> qrec.
  Variable nwords : nat.
  Variable J : qrec -> Prop.
  Hypothesis qs_ok : Tlb_Spec.sorter qs.
  Hypothesis stale_len : forall z, length (stale z) = 8%nat.
  Hypothesis small : (Z.of_nat nwords <= 2 ^ 30)%Z.
  Hypothesis J8 : forall n esid insn addr p, J (record8 (junk n) esid insn addr p).
  Notation R := (R bad nwords J).
  Notation Sim := (Sim J).

  Lemma run_done8 : forall i p a ws s (Q : Z -> hst -> Prop) e, R ws a s ->
    insn_word insn_demunge (s_branch i) (s_raw i) (ab_addr a) = Some (s_insn i) ->
    (full = true -> forall q, tells e (RInsn (record8 q (s_esid i) (s_insn i) (ab_addr a) p))) ->
    ab_addr a < 2 ^ 64 ->
    (forall s', R ws (mk_abs (ab_addr a) (ab_ops a) (ab_log a ++ [(ab_addr a, s_insn i)]) (ab_ea a)
                             (ab_out a ++ (if full then [e] else []))
                             (ab_cnt a ++ if full then flow (ab_prev a) (ab_addr a) else [])
                             (if full then (ab_addr a, leaves8 i || elsewhere (fst (ab_prev a)) (ab_addr a)) else ab_prev a)) s' -> Q 0%Z s') ->
    wp (done8 junk full (info_of i) p) Q s.
  Proof.
    intros i p a ws s Q e RS W T AL K. unfold done8. apply wp_get.
    assert (SA : h_addr s = ab_addr a) by apply RS. rewrite SA. cbn [info_of i_branch i_opcode]. rewrite W.
    apply wp_set, wp_set.
    set (s1 := add_log (ab_addr a, s_insn i) (set_insn (s_insn i) s)).
    set (a1 := mk_abs (ab_addr a) (ab_ops a) (ab_log a ++ [(ab_addr a, s_insn i)]) (ab_ea a) (ab_out a) (ab_cnt a) (ab_prev a)).
    assert (RS1 : R ws a1 s1).
    { destruct RS as [C (S1 & S2 & S3 & S4 & S5 & S6 & S7)]. split; [exact C|]. repeat split; try assumption.
      cbn. rewrite S4. reflexivity. }
    clearbody s1. clear RS. destruct full eqn:FU; cbn [negb].
    - apply wp_get, wp_get. rewrite system_same.
      assert (PV : (h_prev_addr s1, h_prev_branch s1) = ab_prev a) by apply RS1.
      assert (P1 : h_prev_addr s1 = fst (ab_prev a)) by (rewrite <- PV; reflexivity).
      assert (P2 : h_prev_branch s1 = snd (ab_prev a)) by (rewrite <- PV; reflexivity).
      rewrite P1, P2. clear PV P1 P2. change (add64 (fst (ab_prev a)) 4) with ((fst (ab_prev a) + 4) mod 2 ^ 64).
      fold (elsewhere (fst (ab_prev a)) (ab_addr a)). rewrite (vector_same _ AL). fold (leaves8 i).
      assert (K2 : forall s2, R ws (ext a1 [] (flow (ab_prev a) (ab_addr a))) s2 -> wp
        (_ <-- hset (set_prev (ab_addr a) (leaves8 i || elsewhere (fst (ab_prev a)) (ab_addr a)));;
         nr <-- hget (fun s => c_nr (h_cur s));;
         _ <-- hset (add_out (RInsn (record8 (junk nr) (s_esid i) (s_insn i) (ab_addr a) p)));; hret 0%Z) Q s2).
      { intros s2 RS2. apply wp_set, wp_get, wp_set, wp_ret, K.
        destruct RS2 as [C (S1 & S2 & S3 & S4 & S5 & S6 & S7)]. split; [exact C|].
        set (pv := (ab_addr a, leaves8 i || elsewhere (fst (ab_prev a)) (ab_addr a))).
        apply (sim_out J e _ (mk_abs (ab_addr a) (ab_ops a) (ab_log a1) (ab_ea a) (ab_out a) (ab_cnt a ++ flow (ab_prev a) (ab_addr a)) pv)
                 (set_prev (fst pv) (snd pv) s2));
          [|split; [apply T; reflexivity|]; intros q Q0; injection Q0 as <-; apply J8].
        unfold ext in *. cbn [ab_addr ab_ops ab_log ab_ea ab_out ab_cnt ab_prev a1] in *. rewrite app_nil_r in S5.
        repeat split; try assumption. }
      unfold flow in *. destruct (elsewhere (fst (ab_prev a)) (ab_addr a));
        [destruct (snd (ab_prev a)); cbn [negb] in *; [|destruct (vector (ab_addr a))]|].
      + eapply count_ext; [exact RS1|]. exact K2.
      + eapply count_ext; [exact RS1|]. exact K2.
      + apply wp_retb, K2. rewrite ext_nil. exact RS1.
      + apply wp_retb, K2. rewrite ext_nil. exact RS1.
    - apply wp_ret, K. rewrite !app_nil_r. exact RS1.
  Qed.

  Definition after8 (i : insn8) (a : abs) : abs :=
    let A := addr8 i (ab_addr a) in
    mk_abs A (ab_ops a ++ if full then ops8 i A else []) (ab_log a ++ [(A, s_insn i)]) (ab_ea a ++ [A])
      (ab_out a ++ if full then map (fun p => EStamp (snd p)) (insn_stamps i) ++ [record_of8 i (ab_ops a) A] else [])
      (ab_cnt a ++ insn_events i full ++ if full then flow (ab_prev a) A else [])
      (if full then (A, leaves8 i || elsewhere (fst (ab_prev a)) A) else ab_prev a).
  (** What the table of pages needs. *)
  Definition top_ok (pre : list Tlb_Model.op) (o : list Tlb_Model.op) : Prop := Tlb_Spec.top_unused pre o.

  Lemma sim_cnt : forall a a' s, Sim a s -> ab_addr a' = ab_addr a -> ab_ops a' = ab_ops a ->
    ab_log a' = ab_log a -> ab_ea a' = ab_ea a -> ab_out a' = ab_out a ->
    (forall c, count_of c (ab_cnt a') = count_of c (ab_cnt a)) -> ab_prev a' = ab_prev a -> Sim a' s.
  Proof.
    intros a a' s (S1 & S2 & S3 & S4 & S5 & S6 & S7) E1 E2 E3 E4 E5 E6 E7. unfold Sim.
    rewrite E1, E2, E3, E4, E5, E7. repeat split; try assumption. intros c. rewrite E6. apply S6.
  Qed.
  Lemma set_addr_R : forall ws a s x, R ws a s ->
    R ws (mk_abs x (ab_ops a) (ab_log a) (ab_ea a) (ab_out a) (ab_cnt a) (ab_prev a)) (set_addr x s).
  Proof.
    intros ws a s x [C (S1 & S2 & S3 & S4 & S5 & S6 & S7)]. split; [exact C|]. repeat split; assumption.
  Qed.
  Lemma stamps_events_app : forall l l', stamps_events (l ++ l') = stamps_events l ++ stamps_events l'.
  Proof. intros. unfold stamps_events. apply flat_map_app. Qed.

  Lemma run_insn8 : forall i a ws s (Q : Z -> hst -> Prop),
    R (part_words (s_iea i) ++ part_words (s_ira i) ++ part_words (s_dea i) ++ part_words (s_dra i) ++ ws) a s ->
    insn8_ok i (addr8 i (ab_addr a)) -> addr8 i (ab_addr a) < 2 ^ 64 ->
    N.of_nat (length (ab_ea a)) < 2 ^ 30 -> N.of_nat (length (ab_ops a)) + 1 < 2 ^ 30 ->
    Forall Tlb_Spec.op_ok (ab_ops a) ->
    Tlb_Spec.no_mixed_overlap (ab_ops a ++ if full then ops8 i (addr8 i (ab_addr a)) else []) ->
    (full = true -> Tlb_Spec.top_unused (ab_ops a) (ops8 i (addr8 i (ab_addr a)))) ->
    (forall s', R ws (after8 i a) s' -> Q 0%Z s') ->
    wp (decode_insn8 qs stale junk full (info_word i)) Q s.
  Proof.
    intros i a ws s Q RS (SH & RAW & RM & X33 & X62 & OI & OR & OD & OX) HA LE LO OPS NM TU K.
    destruct (info_decoded i RAW X33 X62) as (DI & _ & _ & _).
    set (A := addr8 i (ab_addr a)) in *.
    unfold decode_insn8.
    eapply count_ext; [exact RS|]. clear s RS. intros s RS.
    eapply count_ext; [exact RS|]. clear s RS. intros s RS.
    rewrite DI. cbn [info_of i_valid negb i_ira i_dea i_dra i_iea].
    eapply count_ext; [exact RS|]. clear s RS. intros s RS. rewrite !ext_ext in RS.
    rewrite ?app_nil_r in RS. cbn [app] in RS.
    (* from the real address on *)
    assert (TAIL : forall software real ops1 outs1 evs1 s1,
      R (part_words (s_ira i) ++ part_words (s_dea i) ++ part_words (s_dra i) ++ ws)
        (mk_abs A (ab_ops a ++ ops1) (ab_log a) (ab_ea a) (ab_out a ++ outs1) (ab_cnt a ++ evs1) (ab_prev a)) s1 ->
      p_ira (first_parts i real) && negb software = here (s_ira i) ->
      (s_ira i = None -> match real with Some (_, ps) => 0 < ps | None => True end) ->
      ops1 ++ set_ops full i A = (if full then ops8 i A else []) ->
      (full = true -> (if s_esid i then None
            else match s_ira i with Some (_, w) => Some (ipage w + A mod 2 ^ ishift w, ishift w) | None => real end)
         = if s_esid i then None else real8 i (ab_ops a) A) ->
      outs1 = outs_of full (part_stamps (s_iea i)) ->
      (forall c, count_of c evs1 = count_of c ([(RecordsProcessed, 1); (InsnScanned, 1); (InsnProcessed, 1)] ++ stamps_events (part_stamps (s_iea i)))) ->
      N.of_nat (length ops1) <= 1 ->
      wp (ira8 qs stale junk full (info_of i) software (N.odd (reloc8 i)) (first_parts i real)) Q s1).
    { intros software real ops1 outs1 evs1 s1 RS1 P RP OE RE OU EV L1.
      eapply run_ira8; [exact qs_ok|exact stale_len|exact small|exact RS1|exact P|exact OR|exact HA|exact LE| | |].
      - cbn [ab_ops]. rewrite app_length. lia.
      - cbn [ab_ops ab_addr]. rewrite <- app_assoc, OE. exact NM.
      - cbn [ab_addr]. clear s1 RS1. intros s1 RS1.
        eapply run_dea8; [exact stale_len|exact small|exact RS1| |exact OD|].
        { unfold ira_part, first_parts. destruct (s_ira i) as [[? ?]|]; [reflexivity|]. destruct real as [[? ?]|]; reflexivity. }
        clear s1 RS1. intros s1 RS1.
        eapply run_dra8; [exact stale_len|exact small|exact RS1| |exact OX|].
        { unfold dea_part, ira_part, first_parts. destruct (s_dea i) as [[? ?]|], (s_ira i) as [[? ?]|]; try reflexivity; destruct real as [[? ?]|]; reflexivity. }
        clear s1 RS1. intros s1 RS1.
        eapply (run_done8 i _ _ ws s1 Q (record_of8 i (ab_ops a) A)); [exact RS1| | |exact HA|].
        + exact (shown_word _ _ _ _ HA SH).
        + intros FU q. unfold record_of8. rewrite <- (RE FU). rewrite FU.
          apply (record_tells i A q real RP OX).
        + intros s2 [C2 S2]. apply K. split; [exact C2|]. eapply sim_cnt; [exact S2| | | | | | |]; unfold after8; fold A;
            cbn [ext with_ea ab_addr ab_ops ab_log ab_ea ab_out ab_cnt ab_prev]; try reflexivity.
          * rewrite <- OE, app_assoc. reflexivity.
          * unfold insn_stamps. rewrite OU. rewrite <- !app_assoc. f_equal. unfold outs_of. destruct full; [|reflexivity].
            rewrite !map_app, <- !app_assoc. reflexivity.
          * intros c. unfold insn_events, insn_stamps. rewrite !stamps_events_app. rewrite !count_of_app. rewrite EV.
            rewrite !count_of_app. unfold ira_events, dra_events. unfold event. ring. }
    unfold after8 in K. fold A in K.
    destruct (s_iea i) as [[l w]|] eqn:EI; cbn [here].
    - destruct OI as (SO & U & _). eapply part_fetch; [exact stale_len|exact small|exact RS|exact SO|exact U|].
      clear s RS. intros s RS. rewrite ext_ext in RS. cbn [app] in RS.
      rewrite (iea_decoded w U).
      assert (EA : w / 4 * 4 = A) by (unfold A, addr8; rewrite EI; reflexivity). rewrite EA.
      apply wp_set. apply (set_addr_R _ _ _ A) in RS. set (s1 := set_addr A s) in *. clearbody s1. clear s.
      assert (FL : N.odd w = N.odd (reloc8 i) /\ (if N.odd w then Tlb_Model.TLB_FLAGS_RELOC else 0) = reloc8 i).
      { unfold reloc8. rewrite EI. clear. rewrite <- !N.bit0_odd, <- N.bit0_mod.
        destruct (N.testbit w 0); split; reflexivity. }
      destruct FL as [FL1 FL2]. rewrite FL2, FL1.
      assert (P0 : s_ira i <> None \/ full = false ->
        mk_parts8 (here (s_ira i)) 0 0 (here (s_dea i)) 0 (here (s_dra i)) 0 0 = first_parts i None)
        by (intros; unfold first_parts; destruct (s_ira i); reflexivity).
      destruct (full && negb (here (s_ira i))) eqn:FI.
      + apply andb_prop in FI as [FU NI]. apply negb_true_iff in NI.
        destruct (s_ira i) as [|] eqn:EIR; [discriminate|]. clear NI P0.
        apply wp_get.
        assert (O8 : ops8 i A = [Tlb_Model.OGet A (reloc8 i)]) by (unfold ops8; rewrite EIR, EI; reflexivity).
        assert (RL : reloc8 i = 0 \/ reloc8 i = 1).
        { unfold reloc8. rewrite EI. assert (w mod 2 < 2) by (apply N.mod_lt; discriminate). lia. }
        destruct (Tlbdump_Proofs4.get_good qs (ab_ops a) (h_tlb s1) A (reloc8 i)) as (t' & T1 & T2).
        * exact qs_ok.
        * destruct RS as [_ (_ & T & _)]. exact T.
        * split; [exact HA|]. intros ODD. destruct RL as [E|E]; [rewrite E in ODD; discriminate|exact E].
        * rewrite FU, O8 in NM. exact NM.
        * specialize (TU FU). rewrite O8 in TU. apply TU.
        * clear - LO. lia.
        * rewrite T1. apply wp_set.
          assert (RS2 : R (part_words None ++ part_words (s_dea i) ++ part_words (s_dra i) ++ ws)
            (mk_abs A (ab_ops a ++ [Tlb_Model.OGet A (reloc8 i)]) (ab_log a) (ab_ea a) (ab_out a ++ outs_of full l)
               (ab_cnt a ++ [(RecordsProcessed, 1); (InsnScanned, 1); (InsnProcessed, 1)] ++ stamps_events l) (ab_prev a)) (set_tlb t' s1)).
          { destruct RS as [C (S1 & S2 & S3 & S4 & S5 & S6 & S7)]. split; [exact C|]. repeat split; assumption. }
          clear RS. set (s2 := set_tlb t' s1) in *. clearbody s2. clear s1 T1.
          assert (AS : forall ra size, Tlb_Spec.answer (ab_ops a) A (reloc8 i) = Some (ra, size) ->
             pagesize_to_shift size = N.log2 size /\ 0 < N.log2 size).
          { intros ra size E. apply shift_size. eapply answer_size; eassumption. }
          destruct (Tlb_Spec.answer (ab_ops a) A (reloc8 i)) as [[ra size]|] eqn:AN.
          -- destruct (AS ra size eq_refl) as [E1 E2]. rewrite E1.
             replace (mk_parts8 true ra (N.log2 size) (here (s_dea i)) 0 (here (s_dra i)) 0 0)
               with (first_parts i (Some (ra, N.log2 size))) by (unfold first_parts; rewrite EIR; reflexivity).
             eapply TAIL; [exact RS2| | | | | | |]; try reflexivity.
             ++ apply andb_false_r.
             ++ intros _. exact E2.
             ++ unfold set_ops. rewrite EIR, FU, O8. reflexivity.
             ++ intros _. unfold real8. rewrite EIR, EI, AN. reflexivity.
          -- cbn [here]. replace (mk_parts8 false 0 0 (here (s_dea i)) 0 (here (s_dra i)) 0 0)
               with (first_parts i None) by (unfold first_parts; rewrite EIR; reflexivity).
             eapply TAIL; [exact RS2| | | | | | |]; try reflexivity.
             ++ unfold first_parts. rewrite EIR. reflexivity.
             ++ unfold set_ops. rewrite EIR, FU, O8. reflexivity.
             ++ intros _. unfold real8. rewrite EIR, EI, AN. reflexivity.
      + replace (mk_parts8 (here (s_ira i)) 0 0 (here (s_dea i)) 0 (here (s_dra i)) 0 0) with (first_parts i None)
          by (unfold first_parts; destruct (s_ira i); reflexivity).
        eapply (TAIL false None []); [cbn [ab_ops ab_log ab_ea ab_out ab_cnt ab_prev ext] in RS; rewrite app_nil_r; exact RS| | | | | | |]; try reflexivity.
        * unfold first_parts. destruct (s_ira i) as [|]; reflexivity.
        * unfold set_ops, ops8. destruct (s_ira i) as [[? ?]|]; [reflexivity|]. cbn [here negb] in FI. rewrite andb_true_r in FI. rewrite FI. reflexivity.
        * intros FU. rewrite FU in FI. unfold real8. destruct (s_ira i) as [[? ?]|]; [reflexivity|discriminate].
        * discriminate.
    - apply wp_get. assert (SA : h_addr s = ab_addr a) by apply RS. rewrite SA.
      assert (EA : add64 (ab_addr a) 4 = A) by (unfold A, addr8; rewrite EI; reflexivity). rewrite EA.
      apply wp_set. apply (set_addr_R _ _ _ A) in RS. set (s1 := set_addr A s) in *. clearbody s1. clear s SA.
      replace (mk_parts8 (here (s_ira i)) 0 0 (here (s_dea i)) 0 (here (s_dra i)) 0 0) with (first_parts i None)
        by (unfold first_parts; destruct (s_ira i); reflexivity).
      replace false with (N.odd (reloc8 i)) at 2 by (unfold reloc8; rewrite EI; reflexivity).
      eapply (TAIL false None []); [cbn [ab_ops ab_log ab_ea ab_out ab_cnt ab_prev ext part_words app] in RS; rewrite app_nil_r; exact RS| | | | | | |].
      + unfold first_parts. destruct (s_ira i) as [|]; reflexivity.
      + intros _. exact I.
      + unfold set_ops, ops8. rewrite EI. destruct (s_ira i) as [[? ?]|]; destruct full; reflexivity.
      + intros FU. unfold real8. rewrite EI. destruct (s_ira i) as [[? ?]|]; reflexivity.
      + unfold outs_of. destruct full; reflexivity.
      + reflexivity.
      + discriminate.
  Qed.
End ALL.
