(** Proofs for C55: decoding one instruction. *)
Require Import NArith ZArith List Bool Lia.
Require Import ZifyBool ZifyN ZifyNat.
Require Import Verif.Word Verif.Codec_Types Verif.HtmBits_Model Verif.HtmBits_Spec Verif.HtmBits_Proofs.
Require Import Verif.Htm_Model Verif.Trace_Spec Verif.Trace_Proofs Verif.Trace8_Proofs.
Require Verif.Tlbdump_Proofs4 Verif.Tlb_Model Verif.Tlb_Spec Verif.Tlb_Proofs Verif.Bb_Model Verif.Bb_Spec Verif.Bb_Proofs.
Import ListNotations.
Local Open Scope N_scope.

Definition ext (a : abs) (outs : list erec) (evs : list event) : abs :=
  mk_abs (ab_addr a) (ab_ops a) (ab_log a) (ab_ea a) (ab_out a ++ outs) (ab_cnt a ++ evs) (ab_prev a).
Lemma ext_nil : forall a, ext a [] [] = a.
Proof. intros []. unfold ext. cbn. rewrite !app_nil_r. reflexivity. Qed.
Lemma ext_ext : forall a o e o' e', ext (ext a o e) o' e' = ext a (o ++ o') (e ++ e').
Proof. intros. unfold ext. cbn [ab_addr ab_ops ab_log ab_ea ab_out ab_cnt ab_prev]. rewrite !app_assoc. reflexivity. Qed.
Lemma with_cnt_ext : forall c k a, with_cnt c k a = ext a [] [(c, k)].
Proof. intros. unfold with_cnt, ext. rewrite app_nil_r. reflexivity. Qed.
Definition outs_of (full : bool) (l : stamps) : list erec :=
  if full then map (fun p => EStamp (snd p)) l else [].
Lemma of_stamps_ext : forall full l a, of_stamps full l a = ext a (outs_of full l) (stamps_events l).
Proof.
  intros full. induction l as [|p l IH]; intros a; cbn [of_stamps].
  - unfold outs_of. cbn. destruct full; symmetry; apply ext_nil.
  - rewrite IH. unfold of_stamp, ext, outs_of. cbn [ab_addr ab_ops ab_log ab_ea ab_out ab_cnt ab_prev map].
    destruct full; [rewrite <- !app_assoc|rewrite !app_nil_r, <- app_assoc]; reflexivity.
Qed.
Lemma outs_app : forall full l l', outs_of full (l ++ l') = outs_of full l ++ outs_of full l'.
Proof. intros [] l l'; unfold outs_of; [apply map_app|reflexivity]. Qed.

Lemma bb_snoc : forall log a bb, Bb_Model.bb_run log = Bb_Model.BOk bb -> N.of_nat (length log) < 2 ^ 30 ->
  exists bb', Bb_Model.bb_ea_log bb a = Bb_Model.BOk bb' /\ Bb_Model.bb_run (log ++ [a]) = Bb_Model.BOk bb'.
Proof.
  intros log a bb E L.
  assert (X : forall l s, Bb_Model.bb_log_all s (l ++ [a]) =
     match Bb_Model.bb_log_all s l with
     | Bb_Model.BOk s' => Bb_Model.bb_ea_log s' a | Bb_Model.BErr e => Bb_Model.BErr e end).
  { induction l as [|x l IH]; intros s; cbn [app Bb_Model.bb_log_all].
    - destruct (Bb_Model.bb_ea_log s a); reflexivity.
    - destruct (Bb_Model.bb_ea_log s x); [apply IH|reflexivity]. }
  assert (Y : Bb_Model.bb_run (log ++ [a]) = Bb_Model.bb_ea_log bb a).
  { unfold Bb_Model.bb_run in *. destruct Bb_Model.bb_init; [|discriminate]. rewrite X, E. reflexivity. }
  destruct (Bb_Model.bb_ea_log bb a) as [bb'|e] eqn:B; [exists bb'; split; [reflexivity|exact Y]|].
  exfalso. apply Bb_Proofs.fails_iff in Y as [_ Y].
  assert (F : forall l, (length (Bb_Spec.firsts l) <= length l)%nat).
  { induction l as [|x l IH]; [reflexivity|]. cbn [Bb_Spec.firsts length].
    assert (FL : forall f (m : list N), (length (filter f m) <= length m)%nat).
    { intros f m. induction m as [|y m IHm]; [reflexivity|]. cbn [filter]. destruct (f y); cbn [length]; lia. }
    specialize (FL (fun a0 => negb (a0 =? x)) (Bb_Spec.firsts l)). lia. }
  specialize (F (log ++ [a])). rewrite app_length in F. cbn [length] in F. lia.
Qed.

Lemma ira_op_ok : forall i A l w, s_ira i = Some (l, w) -> A < 2 ^ 64 ->
  part_ok (s_ira i) (fun w => field 64 w 41 63 = 0 /\ field 64 w 38 39 <> 0 /\ ipage w mod 2 ^ ishift w = 0) ->
  Tlb_Spec.op_ok (Tlb_Model.OSet A (reloc8 i) (ipage w + A mod 2 ^ ishift w) (2 ^ ishift w)).
Proof.
  intros i A l w E HA OK. rewrite E in OK. destruct OK as (_ & U & O1 & O2 & O3).
  destruct (ira_decoded w A U O1 O2 O3) as [_ L]. intros OD.
  split; [|split; [exact HA|split; [exact L|]]].
  - unfold reloc8 in *. destruct (s_iea i) as [[? x]|]; [|discriminate]. 
    assert (x mod 2 < 2) by (apply N.mod_lt; discriminate). destruct (x mod 2) as [|[| |]]; try discriminate; lia.
  - destruct (ishift_cases w) as [-> |[-> | ->]]; auto.
Qed.

Section ONE.
  Variable qs : Tlb_Model.qsort.
  Variable full bad : bool.
  Variable stale : Z -> list N.
  Variable junk : Z -> qrec.
  Variable nwords : nat.
  Variable J : qrec -> Prop.
  Hypothesis qs_ok : Tlb_Spec.sorter qs.
  Hypothesis stale_len : forall z, length (stale z) = 8%nat.
  Hypothesis small : (Z.of_nat nwords <= 2 ^ 30)%Z.
  Notation R := (R bad nwords J).
  Notation Sim := (Sim J).

  Lemma part_fetch : forall l w ws a s B (k : option N -> H B) Q,
    R (part_words (Some (l, w)) ++ ws) a s -> stamps_ok l -> untagged w ->
    (forall s', R ws (ext a (outs_of full l) (stamps_events l)) s' -> wp (k (Some w)) Q s') ->
    wp (hbind (htm_decode_fetch stale full) k) Q s.
  Proof.
    intros l w ws a s B k Q RS OK U K. cbn [part_words] in RS. rewrite <- app_assoc in RS.
    eapply run_fetch; [exact stale_len|exact small|exact RS|exact OK|apply U|].
    rewrite of_stamps_ext. exact K.
  Qed.
  Lemma count_ext : forall c ws a s B (k : unit -> H B) Q, R ws a s ->
    (forall s', R ws (ext a [] [(c, 1)]) s' -> wp (k tt) Q s') -> wp (hbind (count c) k) Q s.
  Proof. intros c ws a s B k Q RS K. eapply run_count; [exact RS|]. rewrite with_cnt_ext. exact K. Qed.

  Variable i : insn8.
  Notation info := (info_of i).

  Definition dra_part (p : parts8) : parts8 :=
    match s_dra i with
    | None => p
    | Some (_, w) =>
        mk_parts8 (p_ira p) (p_ira_addr p) (p_ira_ps p) (p_dea p) (p_dea_addr p) full
          (if full && negb (s_esid i) then dpage w else 0) (if full && negb (s_esid i) then dshift w else 0)
    end.
  Definition dra_events : list event :=
    match s_dra i with
    | Some (_, w) =>
        if full then if s_esid i then [(Segment (field 64 w 0 1), 1); (WithDVsid, 1)] else [(WithoutDVsid, 1)]
        else []
    | None => []
    end.
  Lemma run_dra8 : forall p a ws s Q, R (part_words (s_dra i) ++ ws) a s -> p_dra p = here (s_dra i) ->
    part_ok (s_dra i) (fun w => s_esid i = false -> field 64 w 0 1 <> 2 /\ dpage w mod 2 ^ dshift w = 0) ->
    (forall s', R ws (ext a (outs_of full (part_stamps (s_dra i))) (stamps_events (part_stamps (s_dra i)) ++ dra_events)) s' ->
       wp (done8 junk full info (dra_part p)) Q s') ->
    wp (dra8 stale junk full info p) Q s.
  Proof.
    intros p a ws s Q RS P OK K. unfold dra8. rewrite P. unfold dra_events, dra_part in K.
    destruct (s_dra i) as [[l w]|]; cbn [here].
    - destruct OK as (SO & U & OK). eapply part_fetch; [exact RS|exact SO|exact U|]. clear s RS. intros s RS.
      cbn [part_stamps] in K. change (i_esid info) with (s_esid i).
      destruct full; cbn [negb andb] in *; [|apply K; rewrite app_nil_r; exact RS].
      destruct (s_esid i) eqn:ES; cbn [negb] in *.
      + unfold decode_vsid. rewrite (untagged_false w U). rewrite bits_field by lia.
        eapply count_ext; [exact RS|]. clear s RS. intros s RS.
        eapply count_ext; [exact RS|]. clear s RS. intros s RS. apply K.
        rewrite !ext_ext, ?app_nil_r in RS; rewrite ?app_nil_r, <- ?app_assoc in RS. exact RS.
      + destruct (OK eq_refl) as [O1 O2]. rewrite (dra_decoded w U O1).
        apply wp_bind.
        replace (if dshift w =? 1 then count (DataPages 12) else if dshift w =? 2 then count (DataPages 16)
                 else if dshift w =? 3 then count (DataPages 24) else hret tt) with (hret tt : H unit)
          by (destruct (dshift_cases w) as [-> |[-> | ->]]; reflexivity).
        apply wp_ret. eapply count_ext; [exact RS|]. clear s RS. intros s RS. apply K.
        rewrite !ext_ext, ?app_nil_r in RS. exact RS.
    - cbn [part_stamps part_words app] in *. apply K. unfold outs_of. destruct full; cbn; rewrite ext_nil; exact RS.
  Qed.

  Definition dea_part (p : parts8) : parts8 :=
    match s_dea i with
    | None => p
    | Some (_, w) =>
        mk_parts8 (p_ira p) (p_ira_addr p) (p_ira_ps p) full (if full && negb (s_esid i) then w else 0)
          (p_dra p) (p_dra_page p) (p_dra_ps p)
    end.
  Lemma run_dea8 : forall p a ws s Q, R (part_words (s_dea i) ++ ws) a s -> p_dea p = here (s_dea i) ->
    part_ok (s_dea i) (fun _ => True) ->
    (forall s', R ws (ext a (outs_of full (part_stamps (s_dea i))) (stamps_events (part_stamps (s_dea i)))) s' ->
       wp (dra8 stale junk full info (dea_part p)) Q s') ->
    wp (dea8 stale junk full info p) Q s.
  Proof.
    intros p a ws s Q RS P OK K. unfold dea8. rewrite P. unfold dea_part in K.
    destruct (s_dea i) as [[l w]|]; cbn [here].
    - destruct OK as (SO & U & OK). eapply part_fetch; [exact RS|exact SO|exact U|]. clear s RS. intros s RS.
      cbn [part_stamps] in K. change (i_esid info) with (s_esid i).
      destruct full; cbn [negb andb] in *; [|apply K; exact RS].
      destruct (s_esid i) eqn:ES; cbn [negb] in *.
      + unfold decode_esid. rewrite (untagged_false w U). cbn [option_map]. apply K, RS.
      + unfold decode_dea. rewrite (untagged_false w U). apply K, RS.
    - cbn [part_stamps part_words app] in *. apply K. unfold outs_of. destruct full; cbn; rewrite ext_nil; exact RS.
  Qed.

  Definition ira_part (A : N) (p : parts8) : parts8 :=
    match s_ira i with
    | None => p
    | Some (_, w) =>
        mk_parts8 full (if full then ipage w + A mod 2 ^ ishift w else 0) (if full then ishift w else 0)
          (p_dea p) (p_dea_addr p) (p_dra p) (p_dra_page p) (p_dra_ps p)
    end.
  Definition ira_events : list event :=
    match s_ira i with
    | Some (_, w) =>
        if full then [(InsnPages (ishift w), 1); (if s_esid i then WithIVsid else WithoutIVsid, 1); (WithIra, 1)]
        else []
    | None => [(WithoutIra, 1)]
    end.
  Definition set_ops (A : N) : list Tlb_Model.op :=
    match s_ira i with
    | Some (_, w) =>
        if full then [Tlb_Model.OSet A (reloc8 i) (ipage w + A mod 2 ^ ishift w) (2 ^ ishift w)] else []
    | None => []
    end.
  Definition with_ea (a : abs) (ops : list Tlb_Model.op) : abs :=
    mk_abs (ab_addr a) (ab_ops a ++ ops) (ab_log a) (ab_ea a ++ [ab_addr a]) (ab_out a) (ab_cnt a) (ab_prev a).
  Lemma run_ira8 : forall software p a ws s Q,
    R (part_words (s_ira i) ++ ws) a s -> p_ira p && negb software = here (s_ira i) ->
    part_ok (s_ira i) (fun w => field 64 w 41 63 = 0 /\ field 64 w 38 39 <> 0 /\ ipage w mod 2 ^ ishift w = 0) ->
    ab_addr a < 2 ^ 64 -> N.of_nat (length (ab_ea a)) < 2 ^ 30 -> N.of_nat (length (ab_ops a)) < 2 ^ 30 ->
    Tlb_Spec.no_mixed_overlap (ab_ops a ++ set_ops (ab_addr a)) ->
    (forall s', R ws (ext (with_ea a (set_ops (ab_addr a))) (outs_of full (part_stamps (s_ira i)))
                          (stamps_events (part_stamps (s_ira i)) ++ ira_events)) s' ->
       wp (dea8 stale junk full info (ira_part (ab_addr a) p)) Q s') ->
    wp (ira8 qs stale junk full info software (N.odd (reloc8 i)) p) Q s.
  Proof.
    intros software p a ws s Q RS P OK HA LE LO NM K. unfold ira8. apply wp_get, wp_get.
    pose proof (proj2 RS) as SIM. destruct SIM as (SA & _ & SB & _). rewrite SA.
    destruct (bb_snoc _ (ab_addr a) _ SB LE) as (bb' & B1 & B2). rewrite B1. apply wp_set.
    assert (RS' : R (part_words (s_ira i) ++ ws) (with_ea a []) (set_bb bb' s)).
    { destruct RS as [C (S1 & S2 & S3 & S4 & S5 & S6 & S7)]. split; [exact C|]. unfold with_ea. rewrite app_nil_r.
      repeat split; assumption. }
    clear RS SA SB B1 B2. set (s1 := set_bb bb' s) in *. clearbody s1. clear s bb'.
    rewrite P. pose proof (ira_op_ok i (ab_addr a)) as OO. unfold ira_events, set_ops, ira_part in *.
    destruct (s_ira i) as [[l w]|]; cbn [here].
    - destruct OK as (SO & U & O1 & O2 & O3).
      eapply part_fetch; [exact RS'|exact SO|exact U|]. clear s1 RS'. intros s RS. cbn [part_stamps] in K.
      destruct full; cbn [negb]; [|apply K; rewrite app_nil_r; exact RS].
      destruct (ira_decoded w (ab_addr a) U O1 O2 O3) as [D L]. rewrite D.
      eapply count_ext; [exact RS|]. clear s RS. intros s RS.
      eapply count_ext; [exact RS|]. clear s RS. intros s RS. apply wp_get. change (i_esid info) with (s_esid i) in RS.
      destruct (Tlbdump_Proofs4.set_good qs (ab_ops a) (h_tlb s) (ab_addr a) (reloc8 i) (ipage w + ab_addr a mod 2 ^ ishift w) (2 ^ ishift w)) as (t' & T1 & T2).
      + exact qs_ok.
      + destruct RS as [_ (_ & T & _)]. cbn [ext with_ea ab_ops] in T. rewrite app_nil_r in T. exact T.
      + apply (OO l w eq_refl HA). split; [exact SO|]. repeat split; try assumption; apply U.
      + exact NM.
      + exact LO.
      + assert (FL : (if N.odd (reloc8 i) then Tlb_Model.TLB_FLAGS_RELOC else 0) = reloc8 i).
        { unfold reloc8. destruct (s_iea i) as [[? x]|]; [|reflexivity].
          assert (x mod 2 < 2) by (apply N.mod_lt; discriminate). destruct (x mod 2) as [|[| |]]; try lia; reflexivity. }
        rewrite FL, T1. apply wp_set.
        assert (RS2 : R ws (ext (with_ea a [Tlb_Model.OSet (ab_addr a) (reloc8 i) (ipage w + ab_addr a mod 2 ^ ishift w) (2 ^ ishift w)])
            (outs_of true l) (stamps_events l ++ [(InsnPages (ishift w), 1); (if s_esid i then WithIVsid else WithoutIVsid, 1)])) (set_tlb t' s)).
        { rewrite !ext_ext, ?app_nil_r in RS; rewrite ?app_nil_r, <- ?app_assoc in RS.
          destruct RS as [C (S1 & S2 & S3 & S4 & S5 & S6 & S7)]. split; [exact C|]. 
          repeat split; try assumption. }
        clear RS. set (s2 := set_tlb t' s) in *. clearbody s2. clear s T1.
        eapply count_ext; [exact RS2|]. clear s2 RS2. intros s RS. apply K.
        rewrite !ext_ext, ?app_nil_r in RS; rewrite ?app_nil_r, <- ?app_assoc in RS. exact RS.
    - cbn [part_stamps part_words app] in *. eapply count_ext; [exact RS'|]. clear s1 RS'. intros s RS. apply K.
      unfold outs_of. destruct full; cbn; exact RS.
  Qed.
End ONE.
