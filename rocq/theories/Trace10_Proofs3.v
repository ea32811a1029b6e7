(** Proofs for C56: translation. *)
Require Import NArith ZArith List Bool Lia.
Require Import ZifyBool ZifyN ZifyNat.
Require Import Verif.Word Verif.Codec_Types Verif.HtmBits_Model Verif.HtmBits_Spec Verif.HtmBits_Proofs.
Require Import Verif.Branch_Model Verif.Branch_Spec Verif.Branch_Proofs.
Require Import Verif.Pwc_Model Verif.Pwc_Spec Verif.Pwc_Proofs Verif.Xlate_Model Verif.Xlate_Spec Verif.Xlate_Proofs Verif.Xlate_Full.
Require Import Verif.Htm_Model Verif.Trace_Spec Verif.Trace_Proofs Verif.Trace8_Proofs Verif.Trace8_Proofs2 Verif.Trace8_Proofs3.
Require Import Verif.Trace10_Spec Verif.Trace10_Proofs Verif.Trace10_Proofs2.
Require Verif.Resume_Spec Verif.Resume_Proofs Verif.Resume_Proofs3 Verif.Resume_Proofs4 Verif.Resume_Proofs5 Verif.Resume_Proofs6.
Require Verif.Tlb_Model Verif.Tlb_Spec Verif.Tlb_Proofs Verif.Bb_Model Verif.Bb_Spec Verif.Bb_Proofs.
Import ListNotations.
Local Open Scope N_scope.

(** ** Words *)
Lemma shown10_word : forall iea b raw insn, iea < 2 ^ 64 -> shown10 iea b raw insn ->
  insn_word insn_demunge_p10 b raw iea = Some insn.
Proof.
  intros iea b raw insn I H.
  destruct H as [w H|w H H0|x0 x13 x14 li lk H H0 H1|x0 x13 x14 li lk H H0|x0 x9 x14 bo bi bd lk H H0 H1 H2 H3
    |x0 x9 x14 bo bi bd lk H H0 H1 H2|x0 x23 x4 x9 x14 x19 x23_31 type bo bi bh lk tar H H0 H1 H2 H3 H4 H5 H6 H7
    |hi lo j H H0 H1 H2 H3].
  - rewrite plain_word. destruct ((_ =? _) && (_ =? _)) eqn:E; [|reflexivity].
    exfalso. apply H. apply andb_true_iff in E as [E1 E2]. apply N.eqb_eq in E1, E2. split; assumption.
  - rewrite plain_word. rewrite H, H0. reflexivity.
  - exact (proj1 (p10_i_word x0 x13 x14 li lk iea H) I H0 H1).
  - exact (proj2 (p10_i_word x0 x13 x14 li lk iea H) H0).
  - exact (proj1 (p10_b_word x0 x9 x14 bo bi bd lk iea H H0 H1) I H2 H3).
  - assert (B : bi < 2 ^ 5) by (eapply N.lt_trans; [exact H0|reflexivity]).
    exact (proj2 (p10_b_word x0 x9 x14 bo bi bd lk iea H B H1) H0 H2).
  - exact (p10_xl_word x0 x23 x4 x9 x14 x19 x23_31 type bo bi bh lk tar iea H H0 H1 H2 H3 H4 H5 H6 H7).
  - exact (p10_system_word hi lo j iea H H0 H1 H2 H3).
Qed.
Lemma system_branch : forall w, is_system_branch w = true <->
  In w [0x4c0000a4; 0x4c000024; 0x4c000224; 0x44000002; 0x44000022]
  \/ field 32 w 0 19 = 0x44000 /\ ibm_bit 32 w 31 = true.
Proof.
  intros w. unfold is_system_branch. rewrite !orb_true_iff, !N.eqb_eq. cbn [In].
  assert (X : N.land w 0xFFFFF001 = 0x44000001 <-> field 32 w 0 19 = 0x44000 /\ ibm_bit 32 w 31 = true).
  { change 0xFFFFF001 with (N.lor (N.shiftl (N.ones 20) 12) (N.ones 1)). rewrite N.land_lor_distr_r, land_field, N.land_ones.
    assert (M : w mod 2 ^ 1 < 2) by (apply N.mod_lt; discriminate).
    rewrite lor_disjoint_add by (eapply N.lt_le_trans; [exact M|discriminate]).
    unfold field, ibm_bit. change (32 - 1 - 19) with 12. change (19 - 0 + 1) with 20. change (32 - 1 - 31) with 0.
    assert (B : N.testbit w 0 = true <-> w mod 2 ^ 1 = 1).
    { change (2 ^ 1) with 2. rewrite <- N.bit0_mod. destruct (N.testbit w 0); cbn; split; congruence. }
    rewrite B. revert M. generalize (w / 2 ^ 12 mod 2 ^ 20) (w mod 2 ^ 1). intros x y M. change (2 ^ 12) with 4096. lia. }
  rewrite X. clear X.
  split; [intros [[[[[E|E]|E]|E]|E]|E]|intros [[E|[E|[E|[E|[E|[]]]]]]|E]]; auto 8.
Qed.
Lemma addr_join : forall q o, o < 128 -> N.lor (q * 128) ((q * 128 + o) mod 256) = q * 128 + o.
Proof.
  intros q o O.
  assert (E : (q * 128 + o) mod 256 = q mod 2 * 128 + o).
  { rewrite (N.div_mod' q 2) at 1. pose proof (N.mod_lt q 2 ltac:(discriminate)) as M.
    replace ((2 * (q / 2) + q mod 2) * 128 + o) with ((q mod 2 * 128 + o) + q / 2 * 256) by lia.
    rewrite N.mod_add by discriminate. apply N.mod_small. lia. }
  rewrite E. rewrite <- !(lor_add 7) by (try exact O; change (2 ^ 7) with 128; apply N.mod_mul; discriminate).
  rewrite N.lor_assoc. f_equal. change 128 with (2 ^ 7). rewrite <- !N.shiftl_mul_pow2, <- N.shiftl_lor. f_equal.
  change 2 with (2 ^ 1). rewrite <- N.land_ones. apply N.bits_inj. intros n. rewrite N.lor_spec, N.land_spec.
  destruct (N.testbit q n); [|rewrite andb_false_l]; reflexivity.
Qed.
Lemma line_mask : forall a, N.ldiff a 0x7f = a / 128 * 128.
Proof.
  intros a. change 0x7f with (N.ones 7). rewrite N.ldiff_ones_r, N.shiftl_mul_pow2, N.shiftr_div_pow2. reflexivity.
Qed.
Lemma real_lor : forall r a h, r mod 4096 = 0 -> 12 <= h -> r mod 2 ^ h / 4096 = a mod 2 ^ h / 4096 ->
  N.lor r (N.land a (2 ^ h - 1)) = r + a mod 4096.
Proof.
  intros r a h R0 H12 E. rewrite land_low.
  assert (P : 2 ^ h = 4096 * 2 ^ (h - 12)) by (change 4096 with (2 ^ 12); rewrite <- N.pow_add_r; f_equal; lia).
  assert (MM : forall x, x mod 2 ^ h mod 4096 = x mod 4096).
  { intros x. rewrite P, N.mod_mul_r by (try apply N.pow_nonzero; discriminate).
    rewrite N.mul_comm, N.mod_add by discriminate. apply N.mod_mod. discriminate. }
  assert (A : a mod 2 ^ h = r mod 2 ^ h + a mod 4096).
  { pose proof (N.div_mod' (a mod 2 ^ h) 4096) as X. rewrite MM, <- E in X.
    pose proof (N.div_mod' (r mod 2 ^ h) 4096) as Y. rewrite MM, R0, N.add_0_r in Y.
    etransitivity; [exact X|]. f_equal. symmetry. exact Y. }
  assert (L : a mod 4096 < 2 ^ 12) by (apply N.mod_lt; discriminate).
  rewrite A. rewrite <- (lor_add 12 (r mod 2 ^ h)); [|change (2 ^ 12) with 4096; rewrite MM; exact R0|exact L].
  rewrite N.lor_assoc. replace (N.lor r (r mod 2 ^ h)) with r.
  - apply (lor_add 12); [exact R0|exact L].
  - rewrite <- N.land_ones. apply N.bits_inj. intros n. rewrite N.lor_spec, N.land_spec.
    destruct (N.testbit r n); [|rewrite andb_false_l]; reflexivity.
Qed.

(** ** Translations *)
Definition rec_ok (rec : radix) : Prop :=
  1 <= rx_walks rec <= 5 /\ length (rx_guest_real rec) = 5%nat /\ Forall (fun g => g < 2 ^ 64) (rx_guest_real rec).
Definition hist_ok (o : eop) : Prop :=
  match o with EIns host _ _ rec guest => rec_ok rec /\ shift_ok host /\ shift_ok guest | EGet _ _ _ => True end.
Definition tr_ok (t : trans) : Prop :=
  let '(rec, h, g) := t in h = 0 \/ rec_ok rec /\ shift_ok h /\ (g = 0 \/ shift_ok g).
Lemma no_trans_ok : tr_ok no_trans. Proof. left. reflexivity. Qed.

Lemma matches_in : forall h s a r rec host guest, In (rec, host, guest) (e_matches h s a r) ->
  exists a' r', In (EIns host a' r' rec guest) h.
Proof.
  induction h as [|o h IH]; intros s a r rec host guest I; [destruct I|].
  destruct o as [host' a' r' rec' guest'|s' a' r']; cbn [e_matches] in I.
  - destruct (_ && _).
    + destruct I as [I|I]; [injection I as -> -> ->; exists a', r'; now left|].
      destruct (IH _ _ _ _ _ _ I) as (x & y & J). exists x, y. now right.
    + destruct (IH _ _ _ _ _ _ I) as (x & y & J). exists x, y. now right.
  - destruct (IH _ _ _ _ _ _ I) as (x & y & J). exists x, y. now right.
Qed.
Lemma answer_ok : forall h s a r v, Forall hist_ok h -> e_answer h s a r = Some v ->
  rec_ok (ev_rec v) /\ shift_ok (ev_host v) /\ shift_ok (ev_guest v).
Proof.
  intros h s a r v OK E. unfold e_answer in E. destruct (e_matches h s a r) as [|[[rec0 host0] guest0] l] eqn:M; [discriminate|].
  assert (G : forall rec host guest, In (rec, host, guest) ((rec0, host0, guest0) :: l) ->
    rec_ok rec /\ shift_ok host /\ shift_ok guest).
  { intros rec host guest I. rewrite <- M in I. destruct (matches_in _ _ _ _ _ _ _ I) as (x & y & J).
    rewrite Forall_forall in OK. apply (OK _ J). }
  destruct (last l (rec0, host0, guest0)) as [[rec host1] guest] eqn:L. injection E as <-. cbn [ev_rec ev_host ev_guest].
  assert (I : In (rec, host1, guest) ((rec0, host0, guest0) :: l)).
  { rewrite <- L. clear. destruct l as [|p l] using rev_ind; [now left|]. rewrite last_last. right. apply in_or_app. right. now left. }
  destruct (G _ _ _ I) as (G1 & _ & G2). destruct (G rec0 host0 guest0 (or_introl eq_refl)) as (_ & G3 & _).
  repeat split; try assumption; apply G1.
Qed.
Lemma seen_ok : forall h a r v, Forall hist_ok h -> seen h a r = Some v ->
  rec_ok (ev_rec v) /\ shift_ok (ev_host v) /\ shift_ok (ev_guest v).
Proof.
  intros h a r v OK. unfold seen.
  destruct (e_answer h 30 a r) as [v0|] eqn:E0; [intros [= <-]; exact (answer_ok _ _ _ _ _ OK E0)|].
  destruct (e_answer h 21 a r) as [v1|] eqn:E1; [intros [= <-]; exact (answer_ok _ _ _ _ _ OK E1)|].
  destruct (e_answer h 16 a r) as [v2|] eqn:E2; [intros [= <-]; exact (answer_ok _ _ _ _ _ OK E2)|].
  intros E. exact (answer_ok _ _ _ _ _ OK E).
Qed.
Lemma shift_nz : forall s, shift_ok s -> s <> 0 /\ 12 <= s /\ s <= 64 /\ existsb (N.eqb s) [12; 16; 21; 30] = true.
Proof. intros s [->|[->|[->| ->]]]; repeat split; discriminate. Qed.

(** The word in the guest page at another offset. *)
Lemma low_word : forall s g a, s = 0 \/ shift_ok s -> g < 2 ^ 64 ->
  N.lor (N.land g (N.lxor (sub64 (2 ^ s mod w64) 1) (w64 - 1))) (N.land a (sub64 (2 ^ s mod w64) 1))
  = g / 2 ^ s * 2 ^ s + a mod 2 ^ s
  /\ g / 2 ^ s * 2 ^ s + a mod 2 ^ s < 2 ^ 64.
Proof.
  intros s g a [->|S] G.
  - change (sub64 (2 ^ 0 mod w64) 1) with 0. change (N.lxor 0 (w64 - 1)) with (N.ones 64). rewrite N.land_ones, N.land_0_r, N.lor_0_r.
    change (2 ^ 0) with 1. rewrite N.mod_1_r, N.div_1_r, N.mul_1_r, N.add_0_r, N.mod_small by exact G. split; [reflexivity|exact G].
  - rewrite (replace_low s g a S), (N.mod_small g) by exact G. split; [reflexivity|].
    destruct (shift_nz s S) as (_ & _ & S64 & _).
    assert (P : 2 ^ 64 = 2 ^ (64 - s) * 2 ^ s) by (rewrite <- N.pow_add_r; f_equal; lia).
    assert (Q : g / 2 ^ s < 2 ^ (64 - s)).
    { apply N.div_lt_upper_bound; [apply N.pow_nonzero; discriminate|]. rewrite N.mul_comm, <- P. exact G. }
    assert (M : a mod 2 ^ s < 2 ^ s) by (apply N.mod_lt, N.pow_nonzero; discriminate).
    rewrite P. revert Q M. generalize (g / 2 ^ s), (a mod 2 ^ s), (2 ^ s), (2 ^ (64 - s)). clear. intros x y b c Q M. nia.
Qed.
Lemma at_offset_ok : forall rec s a, rec_ok rec -> s = 0 \/ shift_ok s ->
  exists g, nth_error (rx_guest_real rec) (N.to_nat (rx_walks rec - 1)) = Some g
  /\ rx_walks rec =? 0 = false
  /\ mk_radix (rx_type rec) (rx_nr_ptes rec) (rx_walks rec) (rx_host_ptes rec) (rx_host_real rec)
       (set_nth (rx_guest_real rec) (N.to_nat (rx_walks rec - 1))
          (N.lor (N.land g (N.lxor (sub64 (2 ^ s mod w64) 1) (w64 - 1))) (N.land a (sub64 (2 ^ s mod w64) 1))))
     = at_offset rec s a
  /\ rec_ok (at_offset rec s a).
Proof.
  intros rec s a (W & L & F) SH.
  assert (N0 : (N.to_nat (rx_walks rec - 1) < 5)%nat) by lia.
  destruct (nth_error (rx_guest_real rec) (N.to_nat (rx_walks rec - 1))) as [g|] eqn:E.
  2: { apply nth_error_None in E. lia. }
  exists g. assert (G : g < 2 ^ 64). { rewrite Forall_forall in F. apply F. eapply nth_error_In, E. }
  destruct (low_word s g a SH G) as [E1 E2].
  assert (X : at_offset rec s a = mk_radix (rx_type rec) (rx_nr_ptes rec) (rx_walks rec) (rx_host_ptes rec) (rx_host_real rec)
     (firstn (N.to_nat (rx_walks rec - 1)) (rx_guest_real rec) ++ (g / 2 ^ s * 2 ^ s + a mod 2 ^ s)
       :: skipn (S (N.to_nat (rx_walks rec - 1))) (rx_guest_real rec))).
  { unfold at_offset. replace (N.to_nat (rx_walks rec) - 1)%nat with (N.to_nat (rx_walks rec - 1)) by lia.
    cbv zeta. rewrite (nth_error_nth _ _ 0 E). reflexivity. }
  split; [reflexivity|]. split; [lia|]. split; [rewrite X, E1; reflexivity|].
  rewrite X. unfold rec_ok. cbn [rx_walks rx_guest_real]. split; [exact W|]. split.
  - rewrite app_length. cbn [length]. rewrite firstn_length, skipn_length, L. lia.
  - pose proof (firstn_skipn (N.to_nat (rx_walks rec - 1)) (rx_guest_real rec)) as FS. rewrite <- FS in F.
    apply Forall_app in F as [F1 F2]. apply Forall_app. split; [exact F1|]. constructor; [exact E2|].
    destruct (skipn (N.to_nat (rx_walks rec - 1)) (rx_guest_real rec)) as [|y l] eqn:SK.
    + rewrite skipn_all2; [constructor|]. apply (f_equal (@length N)) in SK. rewrite skipn_length in SK. cbn in SK. lia.
    + inversion F2; subst. replace (skipn (S (N.to_nat (rx_walks rec - 1))) (rx_guest_real rec)) with l; [assumption|].
      revert SK. generalize (N.to_nat (rx_walks rec - 1)) (rx_guest_real rec). clear. intros n. induction n as [|n IH]; intros [|z m] SK; cbn in *; try discriminate.
      * injection SK as _ ->. reflexivity.
      * apply IH, SK.
Qed.

(** *** Looking up *)
Lemma search_seen : forall h e a r, e_inv h e -> a < 2 ^ 64 -> r < 2 ^ 64 ->
  erat_search e host_page_sizes a r = XOk (seen h a r).
Proof.
  intros h e a r I A B. unfold host_page_sizes. cbn [erat_search]. unfold erat_get.
  rewrite !erat_align_ok by (try assumption; unfold shift_ok; tauto).
  rewrite !I by (try assumption; unfold shift_ok; tauto). unfold seen.
  destruct (e_answer h 30 a r); [reflexivity|]. destruct (e_answer h 21 a r); [reflexivity|].
  destruct (e_answer h 16 a r); [reflexivity|]. destruct (e_answer h 12 a r); reflexivity.
Qed.
Lemma lookup_seen : forall h e m reloc a r, e_inv h e -> Forall hist_ok h -> a < 2 ^ 64 -> r < 2 ^ 64 ->
  xlate_lookup e m reloc a r = XOk (snd (translate h (m_hv m) reloc None a r))
  /\ tr_ok (or_none (snd (translate h (m_hv m) reloc None a r))).
Proof.
  intros h e m reloc a r I OK A B. unfold xlate_lookup, translate. cbn [snd]. destruct (m_hv m).
  - split; [reflexivity|exact no_trans_ok].
  - rewrite (search_seen h e a r I A B). pose proof (seen_ok h a r) as SK. destruct (seen h a r) as [v|]; [|split; [reflexivity|exact no_trans_ok]].
    destruct (SK v OK eq_refl) as (K1 & K2 & K3). cbv zeta. destruct reloc.
    + destruct (at_offset_ok (ev_rec v) (ev_guest v) a K1 (or_intror K3)) as (g & G1 & G2 & G3 & G4).
      rewrite G2, G1, G3. split; [reflexivity|]. right. repeat split; try assumption; try apply G4. now right.
    + split; [reflexivity|]. right. repeat split; try assumption; try apply K1. now left.
Qed.

(** *** Walks explained by page tables *)
Section EXPLAINED.
  Import Verif.Resume_Spec.
  Variable T : tables.
  Hypothesis HT : tables_ok T.
  Lemma whole_host : forall y r, host_ok (mk_hw (hw_ptes (host_at T y)) r).
  Proof.
    intros y r. unfold host_ok. cbn [hw_ptes host_at]. split.
    - rewrite map_length, Resume_Proofs4.steps_length. unfold depth. destruct (tb_leaf T _ y); [|destruct (tb_leaf T _ y)]; lia.
    - apply Forall_map, Forall_forall. intros l I. apply Resume_Proofs.entry_at_bound; [exact HT|].
      exact (Resume_Proofs3.steps_level T HT y l I).
  Qed.
  Lemma whole_ok : forall q, request_ok T q -> fw_ok (whole_walk T q).
  Proof.
    intros q (Q1 & Q2 & _ & Q4 & _). unfold fw_ok. split; [|split; [|split]].
    - unfold all_hosts, whole_walk. cbn [fw_table fw_guest fw_final snd]. repeat (apply Forall_app; split).
      + destruct (rq_table q) as [[pa pr]|]; [|constructor]. constructor; [|constructor]. exact (whole_host _ (real_at T _)).
      + rewrite map_map. apply Forall_map, Forall_forall. intros l _. exact (whole_host _ (real_at T _)).
      + constructor; [|constructor]. apply whole_host.
    - unfold whole_walk. cbn [fw_guest]. apply Forall_map, Forall_forall. intros l I. cbn [fst].
      apply Resume_Proofs.entry_at_bound; [exact HT|]. exact (Resume_Proofs3.steps_level T HT _ l I).
    - unfold whole_walk. cbn [fw_guest fw_glevel]. rewrite map_length, Resume_Proofs4.steps_length.
      assert (D : (depth T (rq_guest q) <= 4)%nat) by (unfold depth; destruct (tb_leaf T _ _); [|destruct (tb_leaf T _ _)]; lia).
      destruct (Nat.eq_dec (depth T (rq_guest q)) 4) as [E|E]; [right; split; [exact E|apply Q2, E]|left; lia].
    - unfold whole_walk at 1. cbn [fw_hlevel]. destruct (N.le_gt_cases (rq_hlevel q) 1) as [L|L]; [now left|right].
      assert (D : forall y, In y (hosts T q) -> (depth T y < 4)%nat).
      { intros y I. specialize (Q4 y I). unfold depth in *. destruct (tb_leaf T _ y); [lia|]. destruct (tb_leaf T _ y); [lia|].
        specialize (Q4 eq_refl). lia. }
      unfold all_hosts, whole_walk, hosts in *. cbn [fw_table fw_guest fw_final snd hw_ptes].
      repeat (apply Forall_app; split).
      + destruct (rq_table q) as [[pa pr]|]; [|constructor]. constructor; [|constructor]. cbn [host_at hw_ptes].
        rewrite map_length, Resume_Proofs4.steps_length. apply D, in_or_app. left. now left.
      + rewrite map_map. apply Forall_map, Forall_forall. intros l I. cbn [snd host_at hw_ptes].
        rewrite map_length, Resume_Proofs4.steps_length. apply D, in_or_app. right. apply in_or_app. left. apply in_map, I.
      + constructor; [|constructor]. cbn [host_at hw_ptes]. rewrite map_length, Resume_Proofs4.steps_length.
        apply D, in_or_app. right. apply in_or_app. right. now left.
  Qed.
  Lemma kind_shift : forall l, l <= 1 -> (if l =? 0 then 12 else 16) = covers (kind_of_level l).
  Proof. intros l L. unfold kind_of_level. destruct (l =? 0); reflexivity. Qed.
  Lemma whole_shifts : forall q, request_ok T q ->
    host_shift (whole_walk T q) = shift_at T (rq_final q) /\ guest_shift (whole_walk T q) = shift_at T (rq_guest q).
  Proof.
    intros q (Q1 & Q2 & _ & Q4 & _). unfold host_shift, guest_shift, whole_walk, shift_at.
    cbn [fw_final fw_guest fw_glevel fw_hlevel snd hw_ptes host_at]. rewrite !map_length, !Resume_Proofs4.steps_length.
    specialize (Q4 (rq_final q)). split.
    - unfold hosts in Q4. specialize (Q4 ltac:(apply in_or_app; right; apply in_or_app; right; now left)).
      unfold depth in *. destruct (tb_leaf T _ (rq_final q)); [reflexivity|]. destruct (tb_leaf T _ (rq_final q)); [reflexivity|].
      destruct (Q4 eq_refl) as [L ->]. apply kind_shift, L.
    - clear Q4. unfold depth in *. destruct (tb_leaf T _ (rq_guest q)); [lia|]. destruct (tb_leaf T _ (rq_guest q)); [reflexivity|].
      destruct (Q2 eq_refl) as [L ->]. apply kind_shift, L.
  Qed.
  Lemma wide : 2 ^ 52 < 2 ^ 64. Proof. reflexivity. Qed.
  Lemma whole_small : forall q, request_ok T q ->
    fst (fw_final (whole_walk T q)) < 2 ^ 64 /\ Forall (fun g => hw_ra (snd g) < 2 ^ 64) (fw_guest (whole_walk T q)).
  Proof.
    intros q (_ & _ & _ & _ & Q5 & _). unfold whole_walk. cbn [fw_final fw_guest fst]. split.
    - eapply N.lt_trans; [|exact wide]. eapply (Resume_Proofs5.below_52 T HT); [|exact Q5]. apply (Resume_Proofs3.shift_at_ok T HT).
    - apply Forall_map, Forall_forall. intros l _. cbn [snd host_at hw_ra].
      eapply N.lt_trans; [apply (Resume_Proofs4.real_at_page T HT)|exact wide].
  Qed.
End EXPLAINED.
Definition tables_good (tb : option Resume_Spec.tables) : Prop :=
  match tb with Some T => Resume_Spec.tables_ok T | None => True end.
Definition knowing (tb : option Resume_Spec.tables) (p : pwc) (H : list Resume_Spec.request) : Prop :=
  match tb with Some T => Resume_Proofs5.knows T p H | None => True end.
Lemma knowing_start : forall tb, knowing tb pwc_init [].
Proof. intros [T|]; [apply Resume_Proofs6.knows_init|exact I]. Qed.
Lemma given_walk : forall tb h d y hv reloc a r, tables_good tb -> xl_ok d y -> given_ok tb h hv reloc (Some y) a r ->
  fw_ok (y_walk y) /\ fst (fw_final (y_walk y)) < 2 ^ 64 /\ Forall (fun g => hw_ra (snd g) < 2 ^ 64) (fw_guest (y_walk y)).
Proof.
  intros tb h d y hv reloc a r HT (_ & _ & _ & _ & _ & _ & FT) (_ & _ & _ & G). destruct tb as [T|].
  - destruct G as (Q & W & _). split; [rewrite W; apply whole_ok; assumption|]. rewrite W. apply whole_small; assumption.
  - destruct G as [FO E]. split; [exact FO|]. set (t := y_walk y) in *.
    assert (SM : forall w, In w (full_records t) -> wk_ra w < 2 ^ 64).
    { intros w I. rewrite <- E in I. unfold y_records in I. apply in_map_iff in I as (p & P1 & P2).
      inversion FT as [|? ? _ FT']; subst. rewrite Forall_forall in FT'. destruct (FT' _ P2) as [(_ & W & _) _].
      eapply N.lt_trans; [exact W|reflexivity]. }
    destruct FO as (_ & _ & LEN & _). assert (L3 : (length (fw_guest t) = 3 \/ length (fw_guest t) = 4)%nat) by tauto. split.
    + apply (SM (mk_walk true false true false (fw_glevel t) (fst (fw_final t)))).
      unfold full_records. apply in_or_app. right. apply in_or_app. right. now left.
    + apply Forall_forall. intros g I. apply In_nth_error in I as (n & N0).
      assert (LT : (n < 4)%nat). { assert (X : nth_error (fw_guest t) n <> None) by congruence. apply nth_error_Some in X. lia. }
      assert (LV : exists lv, In (lv, g) (combine [6; 4; 2; 0] (fw_guest t))).
      { destruct (fw_guest t) as [|g0 [|g1 [|g2 [|g3 [|g4 l]]]]]; cbn [length] in L3; try lia;
          destruct n as [|[|[|[|n]]]]; cbn in N0; try discriminate; try lia; injection N0 as <-; cbn; eauto 8. }
      destruct LV as (lv & LV). apply (SM (mk_walk false false true true lv (hw_ra (snd g)))).
      unfold full_records. apply in_or_app. right. apply in_or_app. left. apply in_flat_map. exists (lv, g). split; [exact LV|].
      destruct g as [g h0]. cbn [guest_records]. right. apply in_or_app. right. now left.
Qed.
Lemma walk_rec_ok : forall t, fw_ok t -> fst (fw_final t) < 2 ^ 64 -> rec_ok (fw_radix t).
Proof.
  intros t (_ & G & LEN & _) FIN.
  assert (GL : Forall (fun g => g < 2 ^ 64) (map fst (fw_guest t) ++ [fst (fw_final t)])).
  { apply Forall_app. split; [|constructor; [exact FIN|constructor]]. apply Forall_map. exact G. }
  assert (L3 : (length (fw_guest t) = 3 \/ length (fw_guest t) = 4)%nat) by tauto.
  unfold rec_ok, fw_radix. cbn [rx_walks rx_guest_real].
  rewrite app_length, map_length. cbn [length]. split; [lia|]. split.
  - unfold fill. rewrite firstn_length, app_length, repeat_length. lia.
  - unfold fill. apply Forall_forall. intros g I.
    assert (J : In g ((map fst (fw_guest t) ++ [fst (fw_final t)]) ++ repeat 0 5)).
    { rewrite <- (firstn_skipn 5 ((map fst (fw_guest t) ++ [fst (fw_final t)]) ++ repeat 0 5)). apply in_or_app. now left. }
    apply in_app_or in J as [J|J]; [rewrite Forall_forall in GL; apply GL, J|]. apply repeat_spec in J. subst. reflexivity.
Qed.
Lemma decode_walk : forall tb H st d y m a r, tables_good tb -> knowing tb (xs_pwc st) H ->
  xl_ok d y -> xs_partial st = [] ->
  given_ok tb H (m_hv m) true (Some y) a r -> a < 2 ^ 64 -> r < 2 ^ 64 -> r mod 4096 = 0 ->
  exists p e, xlate_decode st (xlate_of y) m true a r
    = XOk (mk_xst p e [], Some (fw_radix (y_walk y), host_shift (y_walk y), guest_shift (y_walk y)))
  /\ erat_insert (xs_erat st) (host_shift (y_walk y)) a r (fw_radix (y_walk y)) (guest_shift (y_walk y)) = Some e
  /\ knowing tb p (asked y a :: H).
Proof.
  intros tb H st d y m a r HT KN OK P (HV & _ & RA & G) A B AL.
  destruct (xlate_of_wf d y OK) as [WF RE].
  assert (X : r / 4096 * 4096 = r) by (pose proof (N.div_mod' r 4096); lia).
  destruct tb as [T|].
  - destruct G as (Q & W & c & C & E). rewrite E in RE.
    destruct (whole_shifts T (asked y a) Q) as [S1 S2]. rewrite <- W in S1, S2.
    destruct (Resume_Proofs6.decode_event T HT st H (Resume_Spec.mk_event (asked y a) c (xlate_of y) m)) as (st' & D & D1 & D2 & D3);
      [exact KN| |rewrite P; constructor|rewrite P; constructor|].
    { unfold Resume_Spec.event_ok. cbn [Resume_Spec.ev_rq Resume_Spec.ev_cut Resume_Spec.ev_xlate Resume_Spec.ev_msr].
      rewrite <- W. repeat (split; [assumption|]). split; [reflexivity|]. split; [reflexivity|exact HV]. }
    unfold Resume_Spec.answer in D. cbn [Resume_Spec.ev_rq Resume_Spec.ev_cut Resume_Spec.ev_xlate Resume_Spec.ev_msr] in *.
    rewrite <- W, <- S1, <- S2 in D, D3. unfold Resume_Spec.page_4k, asked in D, D3. cbn [Resume_Spec.rq_address Resume_Spec.rq_real] in D, D3.
    rewrite RA in D, D3. change (2 ^ 12) with 4096 in D, D3. rewrite X in D, D3.
    exists (xs_pwc st'), (xs_erat st'). rewrite P in D1. split; [|split; [exact D3|exact D2]].
    rewrite D. destruct st' as [p' e' l']. cbn in D1. subst l'. reflexivity.
  - destruct G as [FO E]. rewrite E in RE.
    pose proof (decode_full st (xlate_of y) (y_walk y) m a r WF ltac:(rewrite P; constructor) ltac:(rewrite P; constructor) FO RE HV A B
      ltac:(rewrite RA; exact B)) as D.
    rewrite RA, P in D. change (2 ^ 12) with 4096 in D.
    rewrite X, N.eqb_refl in D. destruct D as (p & e & D1 & D2). exists p, e. split; [exact D1|]. split; [exact D2|exact I].
Qed.
Lemma decode_given : forall tb H h st d y m a r, tables_good tb -> knowing tb (xs_pwc st) H ->
  xl_ok d y -> xs_partial st = [] -> e_inv h (xs_erat st) -> Forall hist_ok h ->
  given_ok tb H (m_hv m) true (Some y) a r -> a < 2 ^ 64 -> r < 2 ^ 64 -> r mod 4096 = 0 ->
  exists p e, xlate_decode st (xlate_of y) m true a r
    = XOk (mk_xst p e [], Some (fw_radix (y_walk y), host_shift (y_walk y), guest_shift (y_walk y)))
  /\ e_inv (h ++ [EIns (host_shift (y_walk y)) a r (fw_radix (y_walk y)) (guest_shift (y_walk y))]) e
  /\ Forall hist_ok (h ++ [EIns (host_shift (y_walk y)) a r (fw_radix (y_walk y)) (guest_shift (y_walk y))])
  /\ tr_ok (fw_radix (y_walk y), host_shift (y_walk y), guest_shift (y_walk y))
  /\ knowing tb p (asked y a :: H).
Proof.
  intros tb H h st d y m a r HT KN OK P I HO G A B AL.
  destruct (given_walk tb H d y _ _ a r HT OK G) as (FO & FIN & _).
  destruct (decode_walk tb H st d y m a r HT KN OK P G A B AL) as (p & e & D1 & D2 & KN').
  exists p, e. split; [exact D1|].
  destruct (shifts_ok (y_walk y)) as [S1 S2]. pose proof (walk_rec_ok (y_walk y) FO FIN) as RO.
  destruct (e_step h (xs_erat st) (host_shift (y_walk y)) a r (fw_radix (y_walk y)) (guest_shift (y_walk y)) I) as (e' & E1 & E2).
  - split; [|split; assumption]. destruct (N.min_spec (host_shift (y_walk y)) (guest_shift (y_walk y))) as [[_ ->]|[_ ->]]; assumption.
  - rewrite E1 in D2. injection D2 as ->. split; [exact E2|]. split; [|split; [|exact KN']].
    + apply Forall_app. split; [exact HO|]. constructor; [|constructor]. repeat split; try assumption; apply RO.
    + right. repeat split; try assumption; try apply RO. now right.
Qed.
