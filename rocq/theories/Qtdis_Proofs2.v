(** Proofs for C61: written traces, and -d 1. *)
Require Import Arith NArith List Bool Lia ZifyBool ZifyN ZifyNat.
Require Import Verif.Word Verif.Codec_Types Verif.Writer_Model Verif.Writer_Proofs Verif.Reader_Model Verif.Reader_Spec
  Verif.Reader_Proofs Verif.Reader_Proofs2 Verif.Reader_Proofs3.
Require Import Verif.Codec_Spec Verif.Codec_Proofs Verif.Codec_Proofs2 Verif.Codec_Proofs3 Verif.Codec_Proofs4.
Require Import Verif.Qtdis_Model Verif.Qtdis_Spec Verif.Qtdis_Proofs.
Import ListNotations.
Local Open Scope N_scope.

Lemma cons_inj : forall A (a b : A) l m, a :: l = b :: m -> a = b /\ l = m.
Proof. intros A a b l m H. split; congruence. Qed.
Lemma view_word : forall r v, view_of r = v -> word r = v_insn v /\ o_next_addr r = v_next v.
Proof. intros r v <-. split; reflexivity. Qed.
Lemma expected_firsts : forall n rs p t l, (length rs <= n)%nat -> map view_of l = expected_from t p rs ->
  (whole l = true -> at_addresses (q_insn_addr p) (insns l) = map q_insn_addr (firsts (p :: rs)))
  /\ (whole l = true -> map (fun i => word (fst i)) (insns l) = map q_insn (firsts (p :: rs)))
  /\ whole l = complete (p :: rs).
Proof.
  induction n as [|n IH]; intros rs p t l L E.
  - destruct rs; [|cbn in L; lia]. cbn [expected_from] in E.
    destruct l as [|r [|? ?]]; try discriminate. cbn [map] in E. apply cons_inj in E as [E _].
    destruct (view_word r _ E) as [W A]. cbn [v_insn v_next expected_one] in W, A.
    cbn [insns whole firsts complete]. unfold prefix, is_prefix_word in *. rewrite W.
    destruct (q_insn p / 2 ^ 26 =? 1); cbn [map at_addresses whole firsts complete insns fst]; rewrite ?W; repeat split; try discriminate; auto.
  - destruct rs as [|c rs].
    + apply (IH [] p t l); [cbn; lia|exact E].
    + cbn [expected_from] in E. destruct l as [|r l]; try discriminate. cbn [map] in E. apply cons_inj in E as [E E'].
      destruct (view_word r _ E) as [W A]. cbn [v_insn v_next expected_one] in W, A.
      cbn [length] in L.
      cbn [insns whole firsts complete]. 
      assert (PP : prefix r = is_prefix_word (q_insn p)) by (unfold prefix; rewrite W; reflexivity).
      rewrite PP. destruct (is_prefix_word (q_insn p)).
      * destruct rs as [|c2 rs].
        -- cbn [expected_from] in E'. destruct l as [|r2 [|? ?]]; try discriminate.
           cbn [map at_addresses whole firsts complete insns fst]. rewrite W. auto.
        -- cbn [expected_from] in E'. destruct l as [|r2 l]; try discriminate.
           cbn [map] in E'. apply cons_inj in E' as [E1 E2]. destruct (view_word r2 _ E1) as [W2 A2].
           cbn [v_insn v_next expected_one] in W2, A2. cbn [length] in L.
           destruct (IH rs c2 _ l ltac:(lia) E2) as (H1 & H2 & H3).
           cbn [map at_addresses fst]. change (behind (r, Some r2)) with (o_next_addr r2). rewrite A2, W.
           split; [|split; [|exact H3]].
           ++ intros V. rewrite (H1 V). reflexivity.
           ++ intros V. rewrite (H2 V). reflexivity.
      * destruct (IH rs c _ l ltac:(lia) E') as (H1 & H2 & H3).
        cbn [map at_addresses fst]. change (behind (r, None)) with (o_next_addr r). rewrite A, W.
        split; [|split; [|exact H3]].
        -- intros V. rewrite (H1 V). reflexivity.
        -- intros V. rewrite (H2 V). reflexivity.
Qed.

Lemma written_start : forall magic r rs bytes, magic < 2 ^ 32 -> frames (r :: rs) -> closes (r :: rs) ->
  write_trace magic (r :: rs) = inr bytes ->
  exists s b, qtreader_initialize bytes = ROk (s, b) /\ r_next_addr s = q_insn_addr r.
Proof.
  intros magic r rs bytes Hm F C E. unfold write_trace in E.
  destruct (write_all_true (r :: rs) (qtwriter_open magic) (hdr_bytes magic r ++ chain_bytes r rs) (open_inv magic))
    as (st & Ew & Eo & Hw & Em & Ep).
  { apply (emitted_frames magic), F. }
  rewrite Ew in E. cbn [w_out qtwriter_open app] in Eo.
  unfold closes in C. rewrite last_cons_rs in C. cbv zeta in C.
  destruct (read_frames magic r rs [] (stored (last rs r) (successor (last rs r))) Hm F)
    as (I & l & s & Er & V & R & Tl & Sl & Zl & _).
  rewrite (close_bytes st (last rs r) Hw Ep Sl C) in E. injection E as <-.
  destruct F as (T & S & Z & H & F). rewrite Eo, <- app_assoc.
  destruct (header_back magic r (chain_bytes r rs ++ stored (last rs r) (successor (last rs r))) Hm T S H)
    as (s0 & E0 & R0 & _).
  exists s0, (chain_bytes r rs ++ stored (last rs r) (successor (last rs r))).
  split; [exact E0|]. destruct R0 as [R0 _]. exact R0.
Qed.

(** The reader's answer for a written trace, as [items] *)
Lemma written_items : forall o magic rs slack, dump_nr o = 0 -> magic < 2 ^ 32 -> frames rs -> closes rs -> complete rs = true ->
  (4 <= length slack)%nat ->
  exists bytes x, write_trace magic rs = inr bytes /\ read_qt o slack bytes = (flat_map (emit o) x, QDone)
    /\ map fst x = map q_insn_addr (firsts rs) /\ map (fun i => hd 0 (snd i)) x = map q_insn (firsts rs)
    /\ (Forall (fun r => is_prefix_word (q_insn r) = false) rs -> x = map (fun r => (q_insn_addr r, [q_insn r])) rs).
Proof.
  intros o magic rs slack D Hm F C P L.
  destruct (round_trip magic rs slack Hm F C L) as (bytes & Ew & Ev & Ee & s & b & Ei & _).
  destruct (read_trace false false slack bytes) as [l e] eqn:R. cbn [fst snd] in *. subst e.
  exists bytes. destruct rs as [|r rs].
  - exists []. destruct l; [|discriminate].
    split; [exact Ew|]. split; [|repeat split; auto].
    rewrite (listing o slack bytes [] s b D Ei R eq_refl). reflexivity.
  - destruct (written_start magic r rs bytes Hm F C Ew) as (s' & b' & Ei' & A).
    rewrite Ei' in Ei. injection Ei as -> ->.
    cbn [expected] in Ev. destruct (expected_firsts (length rs) rs r _ l (le_n _) Ev) as (H1 & H2 & H3).
    rewrite P in H3. rewrite H3 in *.
    exists (items (r_next_addr s) [] (insns l)). split; [exact Ew|].
    split; [apply (listing o slack bytes l s b D Ei' R H3)|].
    assert (A1 : map fst (items (r_next_addr s) [] (insns l)) = map q_insn_addr (firsts (r :: rs))).
    { rewrite items_fst, A. apply H1. reflexivity. }
    assert (A2 : map (fun i => hd 0 (snd i)) (items (r_next_addr s) [] (insns l)) = map q_insn (firsts (r :: rs))).
    { rewrite items_hd. apply H2. reflexivity. }
    split; [exact A1|]. split; [exact A2|].
    intros NP.
    assert (FI : forall l, Forall (fun r => is_prefix_word (q_insn r) = false) l -> firsts l = l).
    { clear. intros l H. induction H as [|x l N H IH]; [reflexivity|]. cbn [firsts]. rewrite N, IH. reflexivity. }
    rewrite (FI _ NP) in A1, A2.
    assert (NI : map snd (items (r_next_addr s) [] (insns l)) = map (fun w => [w]) (map q_insn (r :: rs))).
    { rewrite <- A2.
      assert (NL : Forall (fun i => snd i = None) (insns l)).
      { assert (NW : Forall (fun x => prefix x = false) l).
        { clear - Ev NP. revert NP Ev. generalize (first_trans r). intros t. revert t r l.
          induction rs as [|c rs IH]; intros t r l NP Ev; cbn [expected_from] in Ev.
          - destruct l as [|x [|? ?]]; try discriminate. apply cons_inj in Ev as [Ev _]. constructor; [|constructor].
            destruct (view_word x _ Ev) as [W _]. unfold prefix. rewrite W. inversion NP; assumption.
          - destruct l as [|x l]; try discriminate. apply cons_inj in Ev as [Ev Ev']. inversion NP; subst. constructor.
            + destruct (view_word x _ Ev) as [W _]. unfold prefix. rewrite W. assumption.
            + eapply (IH _ c l); eassumption. }
        clear - NW. induction NW as [|x l' N H IH]; [constructor|]. cbn [insns]. rewrite N. constructor; auto. }
      assert (G : forall l ws a, Forall (fun i => snd i = None) l ->
        map snd (items a ws l) = map (fun w => [w]) (map (fun i => hd 0 (snd i)) (items a ws l))).
      { clear. intros l ws a H. unfold items. revert ws a.
        induction H as [|[x [y|]] l N H IH]; intros ws a; [reflexivity|discriminate|]. cbn. rewrite IH. reflexivity. }
      apply G, NL. }
    clear - A1 NI. revert A1 NI. generalize (items (r_next_addr s) [] (insns l)). generalize (r :: rs).
    induction l0 as [|q l0 IH]; intros [|[a w] x] A1 NI; try discriminate; [reflexivity|].
    cbn [map fst snd] in *. injection A1 as -> A1. injection NI as -> NI. rewrite (IH x A1 NI). reflexivity.
Qed.

Lemma written_listing : forall magic rs slack, magic < 2 ^ 32 -> frames rs -> closes rs -> complete rs = true ->
  (4 <= length slack)%nat ->
  exists bytes x, write_trace magic rs = inr bytes /\ read_qt (mk_options 0 false false) slack bytes = (x, QDone)
    /\ map (fun l => (fst l, hd 0 (snd l))) (lines x) = map (fun r => (q_insn_addr r, q_insn r)) (firsts rs)
    /\ (Forall (fun r => is_prefix_word (q_insn r) = false) rs -> lines x = map (fun r => (q_insn_addr r, [q_insn r])) rs).
Proof.
  intros magic rs slack Hm F C P L.
  destruct (written_items (mk_options 0 false false) magic rs slack eq_refl Hm F C P L) as (bytes & x & Ew & Er & H1 & H2 & H3).
  exists bytes. eexists. split; [exact Ew|]. split; [exact Er|].
  rewrite flat_lines by reflexivity. split; [|exact H3].
  clear - H1 H2. revert H1 H2. generalize (firsts rs). intros l. revert x.
  induction l as [|q l IH]; intros [|[a w] x] A1 NI; try discriminate; [reflexivity|].
  cbn [map fst snd] in *. injection A1 as -> A1. injection NI as -> NI. rewrite (IH x A1 NI). reflexivity.
Qed.
Lemma written_logs : forall o magic rs slack, dump_nr o = 0 -> magic < 2 ^ 32 -> frames rs -> closes rs -> complete rs = true ->
  (4 <= length slack)%nat ->
  exists bytes x, write_trace magic rs = inr bytes /\ read_qt o slack bytes = (x, QDone)
    /\ (stats o = true -> logged x = map (fun r => (q_insn_addr r, q_insn r)) (firsts rs))
    /\ (blocks o = true -> counted x = map q_insn_addr (firsts rs)).
Proof.
  intros o magic rs slack D Hm F C P L.
  destruct (written_items o magic rs slack D Hm F C P L) as (bytes & x & Ew & Er & H1 & H2 & H3).
  exists bytes. eexists. split; [exact Ew|]. split; [exact Er|]. split; intros B.
  - rewrite flat_logged by exact B.
    clear - H1 H2. revert H1 H2. generalize (firsts rs). intros l. revert x.
    induction l as [|q l IH]; intros [|[a w] x] A1 NI; try discriminate; [reflexivity|].
    cbn [map fst snd] in *. injection A1 as -> A1. injection NI as -> NI. rewrite (IH x A1 NI). reflexivity.
  - rewrite flat_counted by exact B. exact H1.
Qed.

(** ** -d 1 *)
Definition data_lines (l : list (rrec * option rrec)) : list (N * option N) :=
  flat_map (fun i => let q := o_q (fst i) in
    if q_data_addr_valid q then [(q_data_addr q, optb (q_data_ps_valid q) (2 ^ q_data_ps q))] else []) l.
Lemma loop_dump : forall o slack, dump_nr o = 1 -> forall n s b l, (length b < n)%nat ->
  (exists ws, knows s ws) -> read_loop n slack s b = (l, EndFalse) -> whole l = true ->
  snd (read_qt_loop n o slack s b (r_next_addr s)) = QShift
  \/ exists x, read_qt_loop n o slack s b (r_next_addr s) = (x, QDone)
    /\ map (fun f => fst (fst f)) (fetches x) = at_addresses (r_next_addr s) (insns l)
    /\ accesses x = data_lines (insns l).
Proof.
  intros o slack D n. induction n as [n IH] using lt_wf_ind. intros s b l L [ws K] R W.
  destruct n as [|n]; [lia|]. cbn [read_loop] in R. cbn [read_qt_loop].
  destruct (qtreader_next_record slack s b) as [[[r s1] b1]| |f] eqn:E1;
    [|injection R as <-; right; exists []; auto|discriminate].
  destruct (next_knows _ _ _ _ _ _ _ K E1) as (K1 & N1 & P1).
  apply next_record_progress in E1 as (pre & EB & LP).
  destruct (read_loop n slack s1 b1) as [l1 e1] eqn:R1. injection R as <- ->.
  rewrite P1. cbn [whole insns] in *.
  assert (PR : forall a, print_qt_record o s1 r a = inr QShift \/ exists y, print_qt_record o s1 r a = inl y /\
    map (fun f => fst (fst f)) (fetches y) = [a]
    /\ accesses y = (let q := o_q r in if q_data_addr_valid q then [(q_data_addr q, optb (q_data_ps_valid q) (2 ^ q_data_ps q))] else [])).
  { intros a. unfold print_qt_record. rewrite D. cbn [N.eqb Pos.eqb].
    destruct (page_size (x_ps_v (r_nxt s1)) (x_ps (r_nxt s1))) as [is|]; [|left; reflexivity]. cbv zeta.
    destruct (q_data_addr_valid (o_q r)).
    - unfold page_size. destruct (q_data_ps_valid (o_q r)).
      + destruct (_ <? 64); [|left; reflexivity]. rewrite N.shiftl_1_l. right. eexists. split; [reflexivity|]. auto.
      + right. eexists. split; [reflexivity|]. auto.
    - right. eexists. split; [reflexivity|]. auto. }
  assert (FA : forall y z, fetches (y ++ z) = fetches y ++ fetches z) by (intros; apply flat_map_app).
  assert (AA : forall y z, accesses (y ++ z) = accesses y ++ accesses z) by (intros; apply flat_map_app).
  specialize (PR (r_next_addr s)).
  destruct (prefix r) eqn:PF; cbn [negb].
  - destruct n as [|n]; [subst b; rewrite app_length in L; lia|]. cbn [read_loop] in R1.
    destruct (qtreader_next_record slack s1 b1) as [[[r2 s2] b2]| |f] eqn:E2;
      [|injection R1 as <-; discriminate|discriminate].
    destruct (next_knows _ _ _ _ _ _ _ K1 E2) as (K2 & N2 & P2).
    apply next_record_progress in E2 as (pre2 & EB2 & LP2).
    destruct (read_loop n slack s2 b2) as [l2 e2] eqn:R2. injection R1 as <- ->.
    destruct PR as [->|(y & -> & G1 & G2)]; [left; reflexivity|].
    assert (L2 : (length b2 < n)%nat) by (subst b b1; rewrite !app_length in L; lia).
    assert (LS : (length b2 < S n)%nat) by lia.
    rewrite (read_loop_fuel n (S n) slack s2 b2 L2 LS) in R2.
    destruct (IH (S n) ltac:(lia) s2 b2 l2 LS (ex_intro _ _ K2) R2 W) as [H|(x & H & H1 & H2)].
    + left. destruct (read_qt_loop (S n) o slack s2 b2 (r_next_addr s2)) as [x2 e2]. exact H.
    + right. rewrite H. eexists. split; [reflexivity|]. rewrite FA, AA, map_app, H1, H2, G1, G2, N2. auto.
  - destruct PR as [->|(y & -> & G1 & G2)]; [left; reflexivity|].
    assert (L1 : (length b1 < n)%nat) by (subst b; rewrite app_length in L; lia).
    destruct (IH n ltac:(lia) s1 b1 l1 L1 (ex_intro _ _ K1) R1 W) as [H|(x & H & H1 & H2)].
    + left. destruct (read_qt_loop n o slack s1 b1 (r_next_addr s1)) as [x2 e2]. exact H.
    + right. rewrite H. eexists. split; [reflexivity|]. rewrite FA, AA, map_app, H1, H2, G1, G2, N1. auto.
Qed.
Lemma dump_ok : forall st bl slack bytes l s b,
  qtreader_initialize bytes = ROk (s, b) -> read_trace false false slack bytes = (l, EndFalse) -> whole l = true ->
  snd (read_qt (mk_options 1 st bl) slack bytes) = QShift
  \/ exists x, read_qt (mk_options 1 st bl) slack bytes = (x, QDone)
    /\ map (fun f => fst (fst f)) (fetches x) = at_addresses (r_next_addr s) (insns l)
    /\ accesses x = data_lines (insns l).
Proof.
  intros st bl slack bytes l s b E R W. unfold read_qt. unfold read_trace in R. rewrite E in *.
  apply (loop_dump (mk_options 1 st bl) slack eq_refl (S (length b)) (set_info false false s) b l (Nat.lt_succ_diag_r _)
    (ex_intro _ _ (init_knows _ _ _ E)) R W).
Qed.

Lemma listing_lines : forall slack bytes l s b,
  qtreader_initialize bytes = ROk (s, b) -> read_trace false false slack bytes = (l, EndFalse) -> whole l = true ->
  exists x, read_qt (mk_options 0 false false) slack bytes = (x, QDone)
    /\ lines x = combine (at_addresses (r_next_addr s) (insns l)) (shown_words [] (insns l)).
Proof.
  intros slack bytes l s b E R W. eexists. split; [apply (listing (mk_options 0 false false) slack bytes l s b eq_refl E R W)|].
  apply flat_lines; reflexivity.
Qed.
Lemma items_logged : forall l a ws, map (fun x : N * list N => (fst x, hd 0 (snd x))) (items a ws l)
  = combine (at_addresses a l) (map (fun i => word (fst i)) l).
Proof.
  intros l a ws. unfold items. revert a ws. induction l as [|[r [r2|]] l IH]; intros a ws; [reflexivity| |]; cbn; rewrite IH; reflexivity.
Qed.
Lemma flat_none : forall o x, (stats o || blocks o = true -> lines (flat_map (emit o) x) = [])
  /\ (stats o = false -> logged (flat_map (emit o) x) = []) /\ (blocks o = false -> counted (flat_map (emit o) x) = []).
Proof.
  intros o x. induction x as [|[a w] x (H1 & H2 & H3)]; [auto|]. cbn [flat_map]. unfold lines, logged, counted in *.
  rewrite !flat_map_app.
  split; [|split]; intros B; [rewrite (H1 B)|rewrite (H2 B)|rewrite (H3 B)]; unfold emit; rewrite B;
    destruct (stats o), (blocks o); (reflexivity || discriminate).
Qed.
Lemma listing_logs : forall st bl slack bytes l s b,
  qtreader_initialize bytes = ROk (s, b) -> read_trace false false slack bytes = (l, EndFalse) -> whole l = true ->
  exists x, read_qt (mk_options 0 st bl) slack bytes = (x, QDone)
    /\ (st || bl = true -> lines x = [])
    /\ logged x = (if st then combine (at_addresses (r_next_addr s) (insns l)) (map (fun i => word (fst i)) (insns l)) else [])
    /\ counted x = (if bl then at_addresses (r_next_addr s) (insns l) else []).
Proof.
  intros st bl slack bytes l s b E R W. eexists. split; [apply (listing (mk_options 0 st bl) slack bytes l s b eq_refl E R W)|].
  destruct (flat_none (mk_options 0 st bl) (items (r_next_addr s) [] (insns l))) as (H1 & H2 & H3).
  split; [exact H1|]. split.
  - destruct st; [|apply H2; reflexivity]. rewrite flat_logged by reflexivity. apply items_logged.
  - destruct bl; [|apply H3; reflexivity]. rewrite flat_counted by reflexivity. apply items_fst.
Qed.
