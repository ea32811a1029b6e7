(** Round trip, crash and failed extension: proofs of C01-C03, C49. *)
Require Import Arith NArith List Bool Lia ZifyBool ZifyN ZifyNat.
Require Import Verif.Word Verif.Codec_Types Verif.Writer_Model Verif.Writer_Spec Verif.Writer_Proofs
  Verif.Branch_Model Verif.Reader_Model Verif.Reader_Spec Verif.Reader_Proofs Verif.Reader_Proofs3
  Verif.Codec_Spec Verif.Codec_Proofs Verif.Codec_Proofs2 Verif.Codec_Proofs3.
Import ListNotations.
Local Open Scope N_scope.

Lemma emitted_frames magic r rs :
  frames (r :: rs) ->
  emitted None magic (r :: rs) = inr (hdr_bytes magic r ++ chain_bytes r rs).
Proof.
  intros (T & S & _ & (H1 & H2) & F). cbn [emitted].
  rewrite write_header_bytes by assumption. now rewrite (emitted_chain magic rs r S F).
Qed.

(** Reading header, flushed records and whatever follows. *)
Lemma read_frames magic r rs slack tail :
  magic < 2 ^ 32 -> frames (r :: rs) ->
  let bytes := hdr_bytes magic r ++ chain_bytes r rs ++ tail in
  (exists s0 b0, qtreader_initialize bytes = ROk (s0, b0) /\ r_magic s0 = magic /\
                 r_version s0 = QTWRITER_VERSION) /\
  exists l s,
    read_trace false false slack bytes
    = (l ++ fst (read_loop (S (length tail)) slack s tail),
       snd (read_loop (S (length tail)) slack s tail)) /\
    map view_of l = flushed (first_trans r) r rs /\
    rel s (final (first_trans r) r rs) (last rs r) /\ typed (last rs r) /\ shifts_ok (last rs r) /\
    (q_insn (last rs r) = 0 -> r_prefixed s = true) /\
    r_prefixed s = prefixed_after false r rs.
Proof.
  intros Hm (T & S & Z & H & F) bytes.
  destruct (header_back magic r (chain_bytes r rs ++ tail) Hm T S H) as (s0 & E0 & R0 & P0 & M0 & V0).
  split. { exists s0, (chain_bytes r rs ++ tail). auto. }
  destruct (loop_chain slack tail rs r (first_trans r) (set_info false false s0) R0 T S F)
    as (l & s & E & V & R & Tl & Sl & Zl & Pl).
  { intros E. now destruct Z. }
  exists l, s. unfold read_trace, qtreader_initialize, bytes. rewrite E0.
  rewrite E. split; [reflexivity|]. split; [assumption|]. split; [assumption|].
  split; [assumption|]. split; [assumption|]. split; [assumption|].
  rewrite Pl. cbn [set_info r_prefixed]. now rewrite P0.
Qed.

Lemma last_cons_rs (r : qrec) rs : last (r :: rs) zero_qrec = last rs r.
Proof. destruct rs; [reflexivity|]. apply (last_default (q :: rs)). discriminate. Qed.

Lemma empty_typed : typed (successor zero_qrec) /\ shifts_ok (successor zero_qrec) /\ header_frames (successor zero_qrec).
Proof.
  destruct (successor_typed zero_qrec). split; [assumption|]. split; [assumption|].
  split; [|unfold storable]; cbn; congruence.
Qed.

(** Closing a non-empty trace emits the pending record. *)
Lemma close_bytes st r :
  winv st -> pend st = Some r -> shifts_ok r ->
  (q_data_ra_valid r = true -> storable (q_radix_data r)) ->
  qtwriter_close st true = inr (w_out st ++ stored r (successor r)).
Proof.
  intros H P S Sd. unfold qtwriter_close.
  pose proof (write_record_bytes st true (close_rec st) H) as W.
  assert (Ew : w_prev st = r /\ w_header st = true).
  { unfold pend in P. destruct (w_header st); [|discriminate]. injection P. auto. }
  destruct Ew as [Ew _]. rewrite successor_close, Ew in *. rewrite P in W.
  destruct (successor_typed r) as [Ts Ss].
  destruct (pair_walk_cond _ _ (successor_pair r Sd)) as (_ & _ & _ & A & B).
  rewrite (store_record_stored r _ S Ss A B) in W.
  destruct (qtwriter_write_record st true (successor r)) as [st'|st'|e].
  - destruct W as (bs & Eb & Eo & _). injection Eb as <-. now rewrite Eo.
  - destruct W as [_ W]. exfalso. apply W. now left.
  - destruct W as [W _]. discriminate.
Qed.

Lemma round_trip magic rs slack :
  magic < 2 ^ 32 -> frames rs -> closes rs -> (4 <= length slack)%nat ->
  exists bytes,
    write_trace magic rs = inr bytes /\
    map view_of (fst (read_trace false false slack bytes)) = expected rs /\
    snd (read_trace false false slack bytes) = EndFalse /\
    exists s b, qtreader_initialize bytes = ROk (s, b) /\ r_magic s = magic /\
                r_version s = QTWRITER_VERSION.
Proof.
  intros Hm F C L. unfold write_trace.
  destruct rs as [|r rs].
  - (* only a header *)
    destruct empty_typed as (T & S & H).
    assert (E : qtwriter_close (qtwriter_open magic) true = inr (hdr_bytes magic (successor zero_qrec))).
    { unfold qtwriter_close.
      pose proof (write_record_bytes (qtwriter_open magic) true (close_rec (qtwriter_open magic)) (open_inv magic)) as W.
      rewrite successor_close in *. change (w_prev (qtwriter_open magic)) with zero_qrec in *.
      change (pend (qtwriter_open magic)) with (@None qrec) in W.
      change (w_magic (qtwriter_open magic)) with magic in W.
      rewrite write_header_bytes in W by (assumption || apply H).
      destruct (qtwriter_write_record _ _ _) as [st'|st'|e].
      - destruct W as (bs & Eb & Eo & _). injection Eb as <-. now rewrite Eo.
      - destruct W as [_ W]. exfalso. apply W. now left.
      - destruct W as [W _]. discriminate. }
    cbn [map write_all]. rewrite E. eexists. split; [reflexivity|].
    destruct (header_back magic (successor zero_qrec) [] Hm T S H) as (s0 & E0 & R0 & P0 & M0 & V0).
    rewrite app_nil_r in E0.
    assert (E1 : read_trace false false slack (hdr_bytes magic (successor zero_qrec)) = ([], EndFalse)).
    { unfold read_trace, qtreader_initialize. rewrite E0. eapply nil_end; eassumption. }
    rewrite E1. split; [reflexivity|]. split; [reflexivity|].
    exists s0, []. auto.
  - destruct (write_all_true (r :: rs) (qtwriter_open magic) (hdr_bytes magic r ++ chain_bytes r rs) (open_inv magic))
      as (st & E & Eo & Hw & Em & Ep).
    { apply (emitted_frames magic), F. }
    rewrite E. cbn [w_out qtwriter_open app] in Eo.
    unfold closes in C. rewrite last_cons_rs in C. cbv zeta in C.
    pose proof (successor_pair _ C) as Pp. destruct (successor_typed (last rs r)) as [Ts Ss].
    destruct (read_frames magic r rs slack (stored (last rs r) (successor (last rs r))) Hm F)
      as (I & l & s & Er & V & R & Tl & Sl & Zl & _).
    rewrite (close_bytes st (last rs r) Hw Ep Sl C).
    eexists. split; [reflexivity|]. rewrite Eo, <- app_assoc.
    destruct (next_stored s _ _ (successor (last rs r)) slack [] R Tl Ts Sl Ss Pp Zl) as (rr & En & Vn & Rn & _).
    rewrite app_nil_r in En.
    rewrite Er. cbn [fst snd].
    assert (El : read_loop (S (length (stored (last rs r) (successor (last rs r))))) slack s
                   (stored (last rs r) (successor (last rs r))) = ([rr], EndFalse)).
    { cbn [read_loop]. rewrite En.
      unfold stored at 1. rewrite app_length. unfold put32 at 1. rewrite put_be_length. cbn [Nat.add].
      rewrite (nil_end _ _ _ slack _ Rn L). reflexivity. }
    rewrite El. cbn [fst snd]. split; [|split; [reflexivity|exact I]].
    rewrite map_app, V. cbn [map]. rewrite Vn. cbn [expected]. now rewrite expected_from_flushed.
Qed.

(** ** Crash: the mapping is not closed, the file keeps its zero tail *)
Definition last_flushed (rs : list qrec) : qrec := last (removelast rs) zero_qrec.

Lemma prefixed_after_flushed r rs :
  prefixed_after false r rs = is_prefix_word (q_insn (last_flushed (r :: rs))).
Proof.
  unfold prefixed_after, last_flushed. destruct rs as [|q rs]; [reflexivity|].
  change (removelast (r :: q :: rs)) with (r :: removelast (q :: rs)).
  f_equal. f_equal. apply last_default. discriminate.
Qed.

Lemma removelast_expected r rs : removelast (expected (r :: rs)) = flushed (first_trans r) r rs.
Proof. cbn [expected]. rewrite expected_from_flushed, removelast_last. reflexivity. Qed.

Lemma crash magic rs slack k :
  magic < 2 ^ 32 -> frames rs -> (4 <= length slack)%nat ->
  is_prefix_word (q_insn (last_flushed rs)) = false ->
  exists st,
    write_all (qtwriter_open magic) (map (fun r => (r, true)) rs) = inr st /\
    map view_of (fst (read_trace false false slack (w_out st ++ repeat 0 k))) = removelast (expected rs) /\
    snd (read_trace false false slack (w_out st ++ repeat 0 k)) = EndFalse.
Proof.
  intros Hm F L Pf. destruct rs as [|r rs].
  - eexists. split; [reflexivity|]. cbn [w_out qtwriter_open app].
    unfold read_trace, qtreader_initialize. rewrite header_zeros. split; reflexivity.
  - destruct (write_all_true (r :: rs) (qtwriter_open magic) (hdr_bytes magic r ++ chain_bytes r rs) (open_inv magic))
      as (st & E & Eo & Hw & Em & Ep).
    { apply (emitted_frames magic), F. }
    exists st. split; [exact E|]. cbn [w_out qtwriter_open app] in Eo. rewrite Eo, <- app_assoc.
    destruct (read_frames magic r rs slack (repeat 0 k) Hm F) as (_ & l & s & Er & V & R & Tl & Sl & Zl & Pl).
    rewrite Er. cbn [fst snd].
    rewrite (zeros_end s _ _ slack k _ R); [|rewrite Pl, prefixed_after_flushed; exact Pf|exact L].
    cbn [fst snd]. rewrite app_nil_r. split; [|reflexivity]. now rewrite removelast_expected.
Qed.

(** After a prefix word the zero tail is first taken for its suffix. *)
Lemma core_zeros s k :
  (x_ps_v (promote (r_cur s) (r_nxt s)) = true -> x_ps (promote (r_cur s) (r_nxt s)) < 64) ->
  exists r, parse_core s (repeat 0 (6 + k)) = ROk ((r,
      mk_rs (r_version s) (r_magic s) (add64 (r_next_addr s) 4) (r_branch_info s) (r_tlbie_info s)
            false (if r_prefixed s then 0 else r_suffix s) (promote (r_cur s) (r_nxt s))
            (mk_xl false (x_rpn (r_nxt s)) false (x_ps (r_nxt s)) false (x_gps (r_nxt s)) (x_radix (r_nxt s)))
            (r_lpid_present s) (r_lpid s) (r_pid_present s) (r_pid s)), repeat 0 k) /\
    q_insn (o_q r) = 0 /\ q_insn_addr (o_q r) = r_next_addr s.
Proof.
  intros H. unfold parse_core.
  assert (G32 : get32 (repeat 0 (6 + k)) = ROk (0, repeat 0 (2 + k))) by reflexivity.
  assert (G16 : get16 (repeat 0 (2 + k)) = ROk (0, repeat 0 k)) by reflexivity.
  eexists. split.
  - erewrite bind_ok by (apply ra_res_ok, H).
    erewrite bind_ok by exact G32. erewrite bind_ok by exact G16.
    change (has 0 F_EXT) with false. cbn [opt andb]. 
    do 2 (erewrite bind_ok by reflexivity).
    change (has 0 F_NODE) with false. change (has 0 F_TERMINATION) with false.
    change (has 0 F_PROCESSOR) with false. change (has 0 F_DATA_ADDRESS) with false.
    change (has 0 F_DATA_VSID) with false. change (has 0 F_DATA_RPN) with false.
    change (has 0 F_IAR) with false. change (has 0 F_IAR_VSID) with false.
    change (has 0 F_IAR_RPN) with false. change (has 0 F_REGISTER_TRACE) with false.
    change (has 0 F2_EXT2) with false. change (has 0 F2_SEQ_RPN) with false.
    change (has 0 F2_ERROR_CODE) with false. change (has 0 F2_SEQ_PAGE_SIZE) with false.
    change (has 0 F2_IAR_PAGE_SIZE) with false. change (has 0 F2_DATA_PAGE_SIZE) with false.
    change (has 0 F2_INSN_GPAGE_SIZE) with false. change (has 0 F2_DATA_GPAGE_SIZE) with false.
    cbn [opt andb orb ra_res].
    do 21 (erewrite bind_ok by reflexivity). reflexivity.
  - split; reflexivity.
Qed.

Lemma crash_prefix magic rs slack k :
  magic < 2 ^ 32 -> frames rs -> (4 <= length slack)%nat ->
  is_prefix_word (q_insn (last_flushed rs)) = true ->
  exists st ph l,
    write_all (qtwriter_open magic) (map (fun r => (r, true)) rs) = inr st /\
    read_trace false false slack (w_out st ++ repeat 0 (6 + k)) = (l ++ [ph], EndFalse) /\
    map view_of l = removelast (expected rs) /\
    q_insn (o_q ph) = 0 /\ q_insn_addr (o_q ph) = q_insn_addr (last rs zero_qrec).
Proof.
  intros Hm F L Pf. destruct rs as [|r rs]; [discriminate|].
  destruct (write_all_true (r :: rs) (qtwriter_open magic) (hdr_bytes magic r ++ chain_bytes r rs) (open_inv magic))
      as (st & E & Eo & Hw & Em & Ep).
  { apply (emitted_frames magic), F. }
  destruct (read_frames magic r rs slack (repeat 0 (6 + k)) Hm F) as (_ & l & s & Er & V & R & Tl & Sl & Zl & Pl).
  destruct (core_zeros s k (rel_ps _ _ _ R)) as (ph & Ec & Ei & Ea).
  exists st, ph, l. split; [exact E|]. cbn [w_out qtwriter_open app] in Eo. rewrite Eo, <- app_assoc, Er.
  rewrite prefixed_after_flushed, Pf in Pl.
  set (s2 := mk_rs _ _ _ _ _ _ _ _ _ _ _ _ _) in Ec.
  assert (R2 : exists t2 q2, rel s2 t2 q2).
  { exists (final (first_trans r) r rs).
    exists (mk_qrec 0 (add64 (r_next_addr s) 4) false 0 false 0 false 0 false 0 false 0
          false false false 0 false 0 zero_radix zero_radix).
    destruct R as (Ra & Rb & Rl & (Rr & Rp & Rg) & Rs & Rw & Rt & Rn & R64).
    unfold s2, rel. cbn [r_next_addr r_branch_info r_tlbie_info r_cur r_nxt x_radix q_insn_addr].
    split; [reflexivity|]. split; [assumption|]. split; [assumption|]. split.
    - unfold promote at 1 3 5 7 9 11. cbn [x_rpn_v x_rpn x_ps_v x_ps x_gps_v x_gps]. rewrite !orb_false_r. auto.
    - split; [assumption|]. split; [assumption|]. split; [assumption|]. split; [|assumption].
      intros E2. unfold promote. cbn [x_radix]. rewrite E2. cbn. auto. }
  destruct R2 as (t2 & q2 & R2).
  assert (El : read_loop (S (length (repeat 0 (6 + k)))) slack s (repeat 0 (6 + k)) = ([ph], EndFalse)).
  { cbn [read_loop]. unfold qtreader_next_record. rewrite skip_headers_none; [|rewrite repeat_length; lia|now right].
    unfold parse_record. erewrite bind_ok by exact Ec. cbn [fst snd].
    rewrite annotate_none by apply R. unfold lift, bind, ret.
    rewrite repeat_length. cbn [Nat.add]. rewrite (zeros_end s2 t2 q2); auto. }
  rewrite El. cbn [fst snd]. split; [reflexivity|]. split; [now rewrite removelast_expected|].
  split; [exact Ei|]. rewrite Ea, last_cons_rs. apply R.
Qed.

(** ** Runs in which extending the file may fail *)
Lemma failed_extension magic l st slack :
  magic < 2 ^ 32 -> (4 <= length slack)%nat ->
  write_all (qtwriter_open magic) l = inr st ->
  let rs := accepted (qtwriter_open magic) l in
  frames rs -> closes rs -> 
  (exists bytes, qtwriter_close st true = inr bytes /\
     map view_of (fst (read_trace false false slack bytes)) = expected rs /\
     snd (read_trace false false slack bytes) = EndFalse) /\
  write_trace magic rs = qtwriter_close st true.
Proof.
  intros Hm L E rs F C.
  pose proof (write_all_bytes l _ (open_inv magic)) as W. rewrite E in W.
  destruct W as (Eb & Ep & Em). fold rs in Eb, Ep.
  pose proof (write_all_inv l _ (open_inv magic)) as Hw. rewrite E in Hw.
  assert (EC : write_trace magic rs = qtwriter_close st true).
  { unfold write_trace. cbn [w_out qtwriter_open eapp] in Eb.
    change (pend (qtwriter_open magic)) with (@None qrec) in Eb, Ep.
    destruct rs as [|r rs'].
    - cbn [map write_all]. cbn in Eb, Ep. injection Eb as Eb.
      unfold qtwriter_close.
      pose proof (write_record_bytes (qtwriter_open magic) true (close_rec (qtwriter_open magic)) (open_inv magic)) as W1.
      pose proof (write_record_bytes st true (close_rec st) Hw) as W2.
      rewrite Ep in W2. change (pend (qtwriter_open magic)) with (@None qrec) in W1.
      rewrite Em in W2. change (w_magic (qtwriter_open magic)) with magic in W1, W2.
      assert (Hp : w_prev st = zero_qrec).
      { clear -E Ep Hw. revert E Ep. assert (G : forall s l, winv s -> pend s = None -> w_prev s = zero_qrec ->
          forall st, write_all s l = inr st -> pend st = None -> w_prev st = zero_qrec).
        { clear. intros s l. revert s. induction l as [|[r g] l IH]; intros s Hs Hp Hz st E Ep; cbn in E.
          - now injection E as <-.
          - pose proof (write_record_bytes s g r Hs) as W.
            destruct (qtwriter_write_record s g r) as [s'|s'|e]; [| |discriminate].
            + exfalso. destruct W as (_ & _ & _ & Hp' & _ & Hw' & _).
              clear -E Ep Hp' Hw'.
              assert (G : forall l s, winv s -> pend s <> None -> forall st, write_all s l = inr st -> pend st <> None).
              { clear. induction l as [|[r g] l IH]; intros s Hs Hp st E; cbn in E.
                - now injection E as <-.
                - pose proof (write_record_bytes s g r Hs) as W.
                  destruct (qtwriter_write_record s g r) as [s'|s'|e]; [| |discriminate].
                  + destruct W as (_ & _ & _ & Hp' & _ & Hw' & _). eapply IH; [exact Hw'| |exact E]. now rewrite Hp'.
                  + destruct W as [-> _]. eapply IH; eassumption. }
              eapply G; [exact Hw'| |exact E|exact Ep]. now rewrite Hp'.
            + destruct W as [-> _]. eapply IH; eassumption. }
        intros E Ep. eapply G; [apply open_inv|reflexivity|reflexivity|exact E|exact Ep]. }
      rewrite !successor_close, Hp in *. change (w_prev (qtwriter_open magic)) with zero_qrec in *.
      destruct (qtwriter_write_record (qtwriter_open magic) true (successor zero_qrec)) as [s1|s1|e1];
      [| destruct W1 as [_ W1]; exfalso; apply W1; now left|].
      + destruct W1 as (b1 & E1 & O1 & _).
        destruct (qtwriter_write_record st true (successor zero_qrec)) as [s2|s2|e2].
        * destruct W2 as (b2 & E2 & O2 & _). rewrite O1, O2, <- Eb. cbn [w_out qtwriter_open app].
          rewrite E1 in E2. injection E2 as ->. reflexivity.
        * destruct W2 as [_ W2]; exfalso; apply W2; now left.
        * destruct W2 as [W2 _]. congruence.
      + destruct W1 as [W1 _].
        destruct (qtwriter_write_record st true (successor zero_qrec)) as [s2|s2|e2].
        * destruct W2 as (b2 & E2 & O2 & _). congruence.
        * destruct W2 as [_ W2]; exfalso; apply W2; now left.
        * destruct W2 as [W2 _]. congruence.
    - change (w_magic (qtwriter_open magic)) with magic in Eb.
      assert (Eb' : emitted None magic (r :: rs') = inr (w_out st)).
      { destruct (emitted None magic (r :: rs')); [discriminate|]. exact Eb. }
      destruct (write_all_true (r :: rs') (qtwriter_open magic) (w_out st) (open_inv magic) Eb')
        as (st1 & E1 & Eo1 & Hw1 & Em1 & Ep1).
      rewrite E1. cbn [w_out qtwriter_open app] in Eo1.
      assert (Ep2 : pend st = Some (last rs' r)).
      { rewrite Ep. destruct (rev (r :: rs')) as [|z zs] eqn:Er.
        - apply (f_equal (@length qrec)) in Er. rewrite rev_length in Er. discriminate.
        - f_equal. rewrite <- last_cons_rs. apply (f_equal (@rev qrec)) in Er. rewrite rev_involutive in Er.
          rewrite Er. cbn [rev]. now rewrite last_last. }
      destruct F as (T & S & Z & H & F).
      unfold closes in C. rewrite last_cons_rs in C. cbv zeta in C.
      assert (Sl : shifts_ok (last rs' r)).
      { clear -S F. revert r S F. induction rs' as [|x xs IH]; intros r S F; [exact S|].
        destruct F as (_ & Sx & _ & _ & F).
        destruct xs as [|y ys]; [exact Sx|].
        change (last (x :: y :: ys) r) with (last (y :: ys) r).
        rewrite (last_default (y :: ys) ltac:(discriminate) r x). now apply IH. }
      rewrite (close_bytes st _ Hw Ep2 Sl C), (close_bytes st1 _ Hw1 Ep1 Sl C). now rewrite Eo1. }
  split; [|exact EC].
  destruct (round_trip magic rs slack Hm F C L) as (bytes & E1 & E2 & E3 & _).
  exists bytes. rewrite <- EC. auto.
Qed.
