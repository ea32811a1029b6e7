(** Records at their layout positions (C51). *)
Require Import NArith ZArith List Bool Lia Arith.
Require Import ZifyBool ZifyN ZifyNat.
Require Import Verif.Word Verif.Codec_Types Verif.Branch_Model
  Verif.Reader_Model Verif.Reader_Spec Verif.Reader_Proofs Verif.Reader_Proofs2
  Verif.Layout_Spec Verif.Layout_Fields Verif.Layout_Proofs Verif.Layout_Proofs2.
Import ListNotations.
Local Open Scope nat_scope.

Lemma term_in o b v r : o <= length b -> parse_term (skipn o b) = ROk (v, r) ->
  r = skipn (o + 2) b /\ fst (fst v) = byte_at b o /\ snd (fst v) = byte_at b (o + 1) /\
  In (byte_at b (o + 1)) [0x40; 0x80; 0x08; 0x10]%N /\ o + 2 <= length b.
Proof.
  intros L E. unfold parse_term in E.
  step E x. apply get8_in in E0 as (-> & -> & L1); [|lia].
  step E y. apply get8_in in E0 as (-> & -> & L2); [|lia].
  rewrite <- Nat.add_assoc in *. cbn [Nat.add] in *.
  unfold T_MAX_INST_DEPTH, T_MAX_BRANCH_DEPTH, T_UNCONDITIONAL, T_EXCEPTION in E.
  destruct (_ || _) eqn:T1; [|destruct ((_ =? 8)%N || _) eqn:T2; [|discriminate]];
    apply ret_pos in E as [-> ->]; cbn [fst snd]; repeat split; auto; cbn [In]; lia.
Qed.
Lemma opt_term_in c d o b v r : o <= length b -> opt c parse_term d (skipn o b) = ROk (v, r) ->
  r = skipn (o + len c 2) b /\ fst (fst v) = (if c then byte_at b o else fst (fst d)) /\
  snd (fst v) = (if c then byte_at b (o + 1) else snd (fst d)) /\
  (c = true -> In (byte_at b (o + 1)) [0x40; 0x80; 0x08; 0x10]%N) /\ o + len c 2 <= length b.
Proof.
  intros L E. destruct c; cbn [opt len] in *.
  - apply term_in in E; [|exact L]. intuition.
  - apply ret_pos in E as [-> ->]. rewrite Nat.add_0_r. repeat split; auto. discriminate.
Qed.
Lemma opt_term_at c d o b : o + len c 2 <= length b ->
  (c = true -> In (byte_at b (o + 1)) [0x40; 0x80; 0x08; 0x10]%N) ->
  exists v, opt c parse_term d (skipn o b) = ROk (v, skipn (o + len c 2) b).
Proof.
  intros L H. destruct c; cbn [opt len] in *; [|eexists; now rewrite Nat.add_0_r].
  unfold parse_term. erewrite bind_at by (apply get_at; lia). erewrite bind_at by (apply get_at; lia).
  rewrite !be_val1. specialize (H eq_refl).
  unfold T_MAX_INST_DEPTH, T_MAX_BRANCH_DEPTH, T_UNCONDITIONAL, T_EXCEPTION.
  rewrite <- Nat.add_assoc. cbn [Nat.add].
  destruct H as [<-|[<-|[<-|[<-|[]]]]]; cbn [N.eqb Pos.eqb orb]; eexists; reflexivity.
Qed.

Lemma real_addr_spec rpn psv ps ea v : (ps < 256)%N -> real_addr rpn psv ps ea = Some v ->
  v = real_of rpn psv ps ea.
Proof.
  intros B E. unfold real_addr, real_of in *.
  assert (u8 ps = ps) as U by (unfold u8; apply N.mod_small; exact B). rewrite U in E.
  set (sh := if psv then ps else 16%N) in *. clearbody sh.
  destruct (sh <? 64)%N eqn:S64; [|discriminate].
  apply (f_equal (fun o => match o with Some x => x | None => v end)) in E. cbv beta iota in E. rewrite <- E.
  rewrite <- N.pred_sub, N.shiftl_1_l, <- N.ones_equiv, N.land_ones, N.shiftl_mul_pow2.
  unfold u64. change w64 with (2 ^ 64)%N. replace (2 ^ 64)%N with (2 ^ (64 - sh) * 2 ^ sh)%N
    by (rewrite <- N.pow_add_r; f_equal; lia).
  rewrite N.mul_mod_distr_r by (apply N.pow_nonzero; discriminate).
  apply lor_disjoint_add. apply N.mod_lt. apply N.pow_nonzero; discriminate.
Qed.
Lemma ra_res_in valid rpn psv ps ea b v r : (ps < 256)%N -> ra_res valid rpn psv ps ea b = ROk (v, r) ->
  r = b /\ (valid = true -> v = real_of rpn psv ps ea) /\ (valid = false -> v = 0%N).
Proof.
  intros B E. unfold ra_res in E. destruct valid.
  - destruct (real_addr _ _ _ _) eqn:R; [|discriminate]. apply ret_pos in E as [-> ->].
    repeat split; [|discriminate]. intros _. now apply real_addr_spec.
  - apply ret_pos in E as [-> ->]. repeat split; auto; discriminate.
Qed.

Lemma core_layout s b r s' rest : is_bytes b -> parse_core s b = ROk ((r, s'), rest) ->
  record_flags_ok b /\ off_end b (r_version s) <= length b /\
  rest = skipn (off_end b (r_version s)) b /\ rec_fields s b r s' /\ insn_fields s r s'.
Proof.
  intros HB E. unfold parse_core in E. cbv zeta in E.
  step E ra. rename E0 into HRA.
  assert (x = b) as ->.
  { unfold ra_res in HRA. destruct (x_rpn_v _); [destruct (real_addr _ _ _ _); [|discriminate]|];
    now apply ret_pos in HRA as [-> _]. }
  change b with (skipn 0 b) in E at 1.
  step E insn. apply get_in in E0 as (-> & Hin & L); [|lia].
  step E fl. apply get_in in E0 as (-> & Hfl & L1); [|lia].
  assert (fl = f_flags b) as -> by exact Hfl. clear Hfl L. cbn [Nat.add] in *.
  fold (f_ext b) in E.
  step E fl2. apply opt_get_in in E0 as (-> & Hfl2 & L2); [|lia].
  assert (fl2 = f_flags2 b) as -> by exact Hfl2. clear Hfl2 L1.
  fold (f_ext2 b) in E.
  step E fl3. apply opt_get_in in E0 as (-> & Hfl3 & L3); [|lia].
  assert (fl3 = f_flags3 b) as ->.
  { rewrite Hfl3. unfold f_flags3, f_ext2. destruct (f_ext b); [reflexivity|]. reflexivity. }
  clear Hfl3 L2. change (6 + len (f_ext b) 2 + len (f_ext2 b) 2) with (off_node b) in *.
  step E u1. apply guard_pos in E0 as [-> G1].
  step E u2. apply guard_pos in E0 as [-> G2].
  step E node. apply opt_get_in in E0 as (-> & Hnode & L4); [|lia].
  fold (off_term b) in *.
  step E tm. apply opt_term_in in E0 as (-> & Htn & Htc & Hti & L5); [|lia].
  step E u3. apply opt_get_in in E0 as (-> & _ & L6); [|lia].
  change (off_term b + len (has (f_flags b) F_TERMINATION) 2 + len (has (f_flags b) F_PROCESSOR) 1)
    with (off_daddr b) in *.
  step E daddr. apply opt_get_in in E0 as (-> & Hda & L7); [|lia].
  step E u4. apply opt_skip_in in E0 as (-> & L8); [|lia].
  change (off_daddr b + len (has (f_flags b) F_DATA_ADDRESS) 8 + len (has (f_flags b) F_DATA_VSID) 7)
    with (off_dwalk b) in *.
  fold (f_dwalk b) in E. fold (f_iwalk b) in E. rewrite !mode_at_eq in E.
  step E drx. pose proof (opt_walk_pos _ _ _ _ _ _ _ _ _ _ E0) as HW.
  assert (Hdrx : f_dwalk b = false -> drx = zero_radix).
  { intros HF. rewrite HF in E0. cbn [opt] in E0. now apply ret_pos in E0 as [_ ->]. }
  clear E0. apply bind_inv in E as (drpn & bb0 & E0 & E).
  assert (H2 : bb0 = skipn (off_iar b) b /\
               drpn = pick (has (f_flags b) F_DATA_RPN) (u32_at b (off_drpn b)) 0%N /\
               off_iar b <= length b).
  { destruct HW as [[-> HC]| ->].
    - apply andb_true_iff in HC as [HC _]. rewrite HC in E0. discriminate.
    - change (off_iar b) with (off_drpn b + len (has (f_flags b) F_DATA_RPN) 4).
      change (off_dwalk b + _) with (off_drpn b) in E0.
      destruct (has (f_flags b) F_DATA_RPN) eqn:R; cbn [opt len pick] in *.
      + destruct (get_pos _ _ _ _ _ E0) as [(-> & -> & L9)|X]; [auto|discriminate].
      + apply ret_pos in E0 as [-> ->]. rewrite Nat.add_0_r. repeat split; auto.
        unfold off_drpn, f_dwalk. rewrite R. cbn [andb len]. lia. }
  destruct H2 as (-> & Hdrpn & L9). clear E0 HW.
  step E next. apply opt_get_in in E0 as (-> & Hnext & L10); [|lia].
  step E u5. apply opt_skip_in in E0 as (-> & L11); [|lia].
  change (off_iar b + len (has (f_flags b) F_IAR) 8 + len (has (f_flags b) F_IAR_VSID) 7)
    with (off_iwalk b) in *.
  step E rx. pose proof (opt_walk_pos _ _ _ _ _ _ _ _ _ _ E0) as HW.
  assert (Hrx : f_iwalk b = false -> rx = x_radix (r_nxt s)).
  { intros HF. rewrite HF in E0. cbn [opt] in E0. now apply ret_pos in E0 as [_ ->]. }
  clear E0. apply bind_inv in E as (rpn & bb1 & E0 & E).
  assert (H2 : bb1 = skipn (off_regs b) b /\
               rpn = pick (has (f_flags b) F_IAR_RPN) (u32_at b (off_irpn b)) (x_rpn (r_nxt s)) /\
               off_regs b <= length b).
  { destruct HW as [[-> HC]| ->].
    - apply andb_true_iff in HC as [HC _]. rewrite HC in E0. discriminate.
    - change (off_regs b) with (off_irpn b + len (has (f_flags b) F_IAR_RPN) 4).
      change (off_iwalk b + _) with (off_irpn b) in E0.
      destruct (has (f_flags b) F_IAR_RPN) eqn:R; cbn [opt len pick] in *.
      + destruct (get_pos _ _ _ _ _ E0) as [(-> & -> & L12)|X]; [auto|discriminate].
      + apply ret_pos in E0 as [-> ->]. rewrite Nat.add_0_r. repeat split; auto.
        unfold off_irpn, f_iwalk. rewrite R. cbn [andb len]. lia. }
  destruct H2 as (-> & Hrpn & L12). clear E0 HW.
  apply bind_inv in E as (rg & bb2 & E0 & E).
  assert (H2 : bb2 = skipn (off_srpn b (r_version s)) b /\
               rg = pick (has (f_flags b) F_REGISTER_TRACE)
                      (regs_spec b (off_regs b) (0x7000000 <=? r_version s)%N) zero_regs /\
               off_srpn b (r_version s) <= length b).
  { unfold off_srpn. destruct (has (f_flags b) F_REGISTER_TRACE); cbn [opt pick] in *.
    - apply regs_layout in E0 as (-> & -> & L13); [auto|lia].
    - apply ret_pos in E0 as [-> ->]. auto. }
  destruct H2 as (-> & Hrg & L13). clear E0.
  step E srpn. apply opt_get_in in E0 as (-> & Hsrpn & L14); [|lia].
  step E u6. apply opt_get_in in E0 as (-> & _ & L15); [|lia].
  fold (off_sps b (r_version s)) in *.
  step E sps. apply opt_get_in in E0 as (-> & Hsps & L16); [|lia].
  fold (off_ps b (r_version s)) in *.
  step E ps. apply opt_get_in in E0 as (-> & Hps & L17); [|lia].
  fold (off_dps b (r_version s)) in *.
  step E dps. apply opt8_in in E0 as (-> & Hdps & L18); [|lia].
  fold (off_gps b (r_version s)) in *.
  step E dra. apply ra_res_in in E0 as (-> & Hdra & _).
  2: { rewrite Hdps. destruct (has (f_flags2 b) F2_DATA_PAGE_SIZE); [now apply byte_bound|reflexivity]. }
  step E gps. apply opt_get_in in E0 as (-> & Hgps & L19); [|lia].
  fold (off_dgps b (r_version s)) in *.
  step E dgps. apply opt8_in in E0 as (-> & Hdgps & L20); [|lia].
  fold (off_end b (r_version s)) in *.
  apply ret_pos in E as [-> E]. apply pair_equal_spec in E as [-> ->].
  split; [|split; [exact L20|split; [reflexivity|split]]].
  - unfold record_flags_ok. repeat split; [| |exact Hti].
    + apply N.eqb_eq in G1. eapply land_within; [apply mask_sound|now apply u16_bound|exact G1].
      vm_compute. reflexivity.
    + apply N.eqb_eq in G2. eapply land_within; [apply mask_sound| |exact G2].
      * vm_compute. reflexivity.
      * unfold f_flags2. destruct (f_ext b); [now apply u16_bound|reflexivity].
  - unfold rec_fields. cbv zeta.
    cbn [o_q o_regs o_node_valid o_node o_term_code o_term_node o_next_addr q_insn q_insn_addr
         q_data_addr_valid q_data_addr q_data_ra_valid q_data_ra q_data_ps_valid q_data_ps
         q_gdata_ps_valid q_gdata_ps q_radix_data r_nxt r_next_addr x_rpn_v x_rpn x_ps_v x_ps x_gps_v
         x_gps x_radix].
    fold (u32_at b (off_srpn b (r_version s))) in Hsrpn.
    rewrite be_val1 in Hps, Hgps.
    repeat (split; [first [assumption|reflexivity|idtac]|]); auto.
    + rewrite be_val1 in Hnode. intros HN. rewrite HN in Hnode. exact Hnode.
    + now rewrite H in Htn.
    + now rewrite H in Htc.
    + intros HD. rewrite HD in *. rewrite Hdra by reflexivity. rewrite Hdrpn. cbn [pick].
      f_equal. rewrite Hda. destruct (has (f_flags b) F_DATA_ADDRESS); reflexivity.
    + destruct (has (f_flags b) F_IAR_RPN); cbn [pick orb] in *; [auto|].
      intros HS. rewrite HS in Hsrpn |- *. exact Hsrpn.
    + intros HS. rewrite HS in Hps. exact Hps.
    + intros HS. rewrite HS in Hgps. exact Hgps.
  - unfold insn_fields. cbv zeta.
    cbn [o_q q_insn_ra_valid q_insn_ra q_insn_ps_valid q_insn_ps q_ginsn_ps_valid q_ginsn_ps q_insn_addr
         r_cur].
    unfold promote in *. cbn [x_rpn_v x_rpn x_ps_v x_ps x_gps_v x_gps x_radix] in *.
    repeat (split; [first [reflexivity|idtac]|]); auto.
    + intros HV. now rewrite HV.
    + intros HV. now rewrite HV.
    + intros HV HL. rewrite HV in HRA.
      unfold ra_res in HRA.
      destruct (real_addr _ _ _ _) eqn:R in HRA; [|discriminate].
      apply ret_pos in HRA as [_ ->].
      assert (R' : real_addr (if x_rpn_v (r_nxt s) then x_rpn (r_nxt s) else x_rpn (r_cur s))
                (x_ps_v (r_cur s) || x_ps_v (r_nxt s))
                (if x_ps_v (r_cur s) || x_ps_v (r_nxt s)
                 then if x_ps_v (r_nxt s) then x_ps (r_nxt s) else x_ps (r_cur s) else 0%N)
                (r_next_addr s) = Some n).
      { rewrite <- R. unfold real_addr. destruct (x_ps_v (r_cur s) || x_ps_v (r_nxt s)); reflexivity. }
      apply real_addr_spec in R'; auto.
Qed.

Lemma ra_res_at valid rpn psv ps ea b :
  (valid = true -> psv = true -> ps mod 256 < 64)%N -> exists v, ra_res valid rpn psv ps ea b = ROk (v, b).
Proof.
  intros H. unfold ra_res, real_addr. destruct valid; [|eexists; reflexivity].
  assert ((if psv then u8 ps else 16) <? 64 = true)%N as ->.
  { destruct psv; [|reflexivity]. specialize (H eq_refl eq_refl). unfold u8. apply N.ltb_lt. exact H. }
  eexists. reflexivity.
Qed.

Lemma core_accepts s b : record_flags_ok b -> record_counts_ok b (r_version s) ->
  page_shifts_ok s b -> off_end b (r_version s) <= length b ->
  exists x, parse_core s b = ROk (x, skipn (off_end b (r_version s)) b).
Proof.
  intros (F1 & F2 & F3) (HD & HI & HR) (P1 & P2) L. unfold parse_core. cbv zeta.
  set (v := r_version s) in *.
  pose proof L as L1. unfold off_end in L1.
  assert (L2 : off_dgps b v <= length b) by lia. pose proof L2 as L3. unfold off_dgps in L3.
  assert (L4 : off_gps b v <= length b) by lia. pose proof L4 as L5. unfold off_gps in L5.
  assert (L6 : off_dps b v <= length b) by lia. pose proof L6 as L7. unfold off_dps in L7.
  assert (L8 : off_ps b v <= length b) by lia. pose proof L8 as L9. unfold off_ps in L9.
  assert (L10 : off_sps b v <= length b) by lia. pose proof L10 as L11. unfold off_sps in L11.
  assert (L12 : off_srpn b v <= length b) by lia. pose proof L12 as L13. unfold off_srpn in L13.
  assert (L14 : off_regs b <= length b).
  { destruct (has (f_flags b) F_REGISTER_TRACE); [|exact L13].
    unfold regs_end, o_so, o_fo, o_go, o_si, o_fi, o_gi in L13. lia. }
  pose proof L14 as L15. change (off_regs b) with (off_irpn b + len (has (f_flags b) F_IAR_RPN) 4) in L15.
  assert (L16 : off_irpn b <= length b) by lia. pose proof L16 as L17. unfold off_irpn in L17.
  assert (L18 : off_iwalk b <= length b) by lia. pose proof L18 as L19. unfold off_iwalk in L19.
  assert (L20 : off_iar b <= length b) by lia. pose proof L20 as L21.
  change (off_iar b) with (off_drpn b + len (has (f_flags b) F_DATA_RPN) 4) in L21.
  assert (L22 : off_drpn b <= length b) by lia. pose proof L22 as L23. unfold off_drpn in L23.
  assert (L24 : off_dwalk b <= length b) by lia. pose proof L24 as L25. unfold off_dwalk in L25.
  assert (L26 : off_daddr b <= length b) by lia. pose proof L26 as L27.
  change (off_daddr b) with (off_node b + len (has (f_flags b) F_NODE) 1
     + len (has (f_flags b) F_TERMINATION) 2 + len (has (f_flags b) F_PROCESSOR) 1) in L27.
  assert (L28 : off_node b <= length b) by lia. unfold off_node in L28.
  edestruct (ra_res_at (x_rpn_v (promote (r_cur s) (r_nxt s)))) as [ra ER];
    [|erewrite bind_at by exact ER].
  { exact P1. }
  change b with (skipn 0 b) at 1.
  erewrite bind_at by (apply get_at; lia). cbn [Nat.add].
  erewrite bind_at by (apply get_at; lia). cbn [Nat.add].
  change (be_val (firstn 2 (skipn 4 b))) with (f_flags b). fold (f_ext b).
  erewrite bind_at by (apply opt_get_at; lia).
  change (if f_ext b then be_val (firstn 2 (skipn 6 b)) else 0%N) with (f_flags2 b). fold (f_ext2 b).
  erewrite bind_at by (apply opt_get_at; lia).
  assert (EF : (if f_ext2 b then be_val (firstn 2 (skipn (6 + len (f_ext b) 2) b)) else 0%N) = f_flags3 b).
  { unfold f_flags3, f_ext2. destruct (f_ext b); reflexivity. }
  rewrite EF. clear EF. change (6 + len (f_ext b) 2 + len (f_ext2 b) 2) with (off_node b).
  rewrite (within_land (f_flags b) UNHANDLED_FLAGS _
    (mask_complete UNHANDLED_FLAGS [15; 14; 13; 12; 11; 10; 9; 8; 7; 6; 5; 4; 3; 0]%N eq_refl) F1).
  rewrite (within_land (f_flags2 b) UNHANDLED_FLAGS2 _
    (mask_complete UNHANDLED_FLAGS2 [14; 12; 9; 8; 5; 3; 2; 1; 0]%N eq_refl) F2).
  change (guard (0 =? 0)%N) with (ret tt). do 2 erewrite bind_at by reflexivity.
  erewrite bind_at by (apply opt_get_at; lia). fold (off_term b).
  edestruct (opt_term_at (has (f_flags b) F_TERMINATION)) as [tm ET]; [| |erewrite bind_at by exact ET].
  { unfold off_term; lia. }
  { exact F3. }
  erewrite bind_at by (apply opt_get_at; unfold off_term; lia).
  change (off_term b + len (has (f_flags b) F_TERMINATION) 2 + len (has (f_flags b) F_PROCESSOR) 1)
    with (off_daddr b).
  erewrite bind_at by (apply opt_get_at; lia).
  erewrite bind_at by (apply opt_skip_at; lia).
  change (off_daddr b + len (has (f_flags b) F_DATA_ADDRESS) 8 + len (has (f_flags b) F_DATA_VSID) 7)
    with (off_dwalk b).
  fold (f_dwalk b). fold (f_iwalk b). rewrite !mode_at_eq.
  edestruct (opt_walk_at (f_dwalk b)) as [drx EX]; [| |erewrite bind_at by exact EX].
  { exact HD. }
  { exact L23. }
  change (off_dwalk b + _) with (off_drpn b).
  erewrite bind_at by (apply opt_get_at; lia).
  change (off_drpn b + len (has (f_flags b) F_DATA_RPN) 4) with (off_iar b).
  erewrite bind_at by (apply opt_get_at; lia).
  erewrite bind_at by (apply opt_skip_at; lia).
  change (off_iar b + len (has (f_flags b) F_IAR) 8 + len (has (f_flags b) F_IAR_VSID) 7)
    with (off_iwalk b).
  edestruct (opt_walk_at (f_iwalk b)) as [rx EY]; [| |erewrite bind_at by exact EY].
  { exact HI. }
  { exact L17. }
  change (off_iwalk b + _) with (off_irpn b).
  erewrite bind_at by (apply opt_get_at; lia).
  change (off_irpn b + len (has (f_flags b) F_IAR_RPN) 4) with (off_regs b).
  assert (ER2 : exists g, opt (has (f_flags b) F_REGISTER_TRACE) (do_parse_regs v) zero_regs (skipn (off_regs b) b)
                = ROk (g, skipn (off_srpn b v) b)).
  { unfold off_srpn. destruct (has (f_flags b) F_REGISTER_TRACE); cbn [opt].
    - apply regs_accepts; [exact (HR eq_refl)|exact L13].
    - eexists. reflexivity. }
  destruct ER2 as [g EG]. erewrite bind_at by exact EG.
  erewrite bind_at by (apply opt_get_at; lia).
  erewrite bind_at by (apply opt_get_at; lia). fold (off_sps b v).
  erewrite bind_at by (apply opt_get_at; lia). fold (off_ps b v).
  erewrite bind_at by (apply opt_get_at; lia). fold (off_dps b v).
  erewrite bind_at by (apply opt_get_at; lia). fold (off_gps b v).
  rewrite !be_val1.
  match goal with |- context [ra_res ?x1 ?x2 ?x3 ?x4 ?x5] =>
    destruct (ra_res_at x1 x2 x3 x4 x5 (skipn (off_gps b v) b)) as [dra EZ] end.
  { intros HA HB. rewrite HB. specialize (P2 HA HB). rewrite N.mod_small by lia. exact P2. }
  erewrite bind_at by exact EZ.
  erewrite bind_at by (apply opt_get_at; lia). fold (off_dgps b v).
  erewrite bind_at by (apply opt_get_at; lia). fold (off_end b v).
  eexists. reflexivity.
Qed.

(** ** The call *)
Lemma annotate_same s r r' : annotate s r = ROk r' ->
  o_q r' = o_q r /\ o_regs r' = o_regs r /\ o_node_valid r' = o_node_valid r /\ o_node r' = o_node r /\
  o_term_code r' = o_term_code r /\ o_term_node r' = o_term_node r /\ o_next_addr r' = o_next_addr r.
Proof.
  intros E. unfold annotate in E.
  destruct (if q_branch (o_q r) && r_branch_info s then annotate_branch (q_insn (o_q r)) (q_cond (o_q r))
            else ROk (o_direct r, o_btype r)) as [[d bt]| |]; try discriminate.
  destruct (if r_tlbie_info s then annotate_tlbie (r_lpid s) (q_insn (o_q r)) (o_regs r)
            else ROk (o_tlbie r)) as [tl| |]; try discriminate.
  assert (r' = mk_rrec (o_q r) (o_taken r) d bt (o_regs r) tl (o_node_valid r) (o_node r)
                 (o_term_code r) (o_term_node r) (o_next_addr r)) as -> by congruence.
  repeat split.
Qed.
Lemma annotate_off s r : r_branch_info s = false -> r_tlbie_info s = false ->
  exists r', annotate s r = ROk r'.
Proof.
  intros H1 H2. unfold annotate. rewrite H1, H2, andb_false_r. eexists. reflexivity.
Qed.

Lemma no_header slack s b fuel : 4 <= length b -> u32_at b 0 <> 0%N \/ r_prefixed s = true ->
  skip_headers fuel slack s b = ROk (s, b).
Proof.
  intros L H. assert (E : peek32 slack b = Some (u32_at b 0)).
  { unfold peek32, u32_at. cbn [skipn]. rewrite firstn_app.
    replace (4 - length b) with 0 by lia. rewrite firstn_O, app_nil_r, firstn_length.
    replace (Nat.min 4 (length b)) with 4 by lia. reflexivity. }
  destruct fuel; cbn [skip_headers]; rewrite E;
    (replace ((u32_at b 0 =? 0)%N && negb (r_prefixed s)) with false;
     [reflexivity|destruct H as [H| ->]; [apply N.eqb_neq in H; now rewrite H|now rewrite andb_false_r]]).
Qed.

Lemma record_layout slack s b r s' rest :
  is_bytes b -> 4 <= length b -> u32_at b 0 <> 0%N \/ r_prefixed s = true ->
  qtreader_next_record slack s b = ROk ((r, s'), rest) ->
  record_flags_ok b /\ off_end b (r_version s) <= length b /\
  rest = skipn (off_end b (r_version s)) b /\ rec_fields s b r s' /\ insn_fields s r s'.
Proof.
  intros HB L H E. unfold qtreader_next_record in E. rewrite no_header in E by assumption.
  unfold parse_record in E. apply bind_inv in E as ([r0 s0] & c1 & E0 & E). cbn [fst snd] in E.
  apply bind_inv in E as (r1 & c2 & E1 & E). unfold lift in E1. destruct (annotate s r0) as [ra| |] eqn:EA; try discriminate.
  assert (ra = r1 /\ c2 = c1) as [-> ->] by (split; congruence).
  apply ret_pos in E as [-> E]. apply pair_equal_spec in E as [-> ->].
  apply core_layout in E0; [|exact HB].
  apply annotate_same in EA as (A1 & A2 & A3 & A4 & A5 & A6 & A7).
  destruct E0 as (B1 & B2 & B3 & B4 & B5). split; [exact B1|split; [exact B2|split; [exact B3|]]].
  unfold rec_fields, insn_fields in *. rewrite A1, A2, A3, A4, A5, A6, A7. split; assumption.
Qed.
Lemma record_accepts slack s b :
  4 <= length b -> u32_at b 0 <> 0%N \/ r_prefixed s = true ->
  r_branch_info s = false -> r_tlbie_info s = false ->
  record_flags_ok b -> record_counts_ok b (r_version s) -> page_shifts_ok s b ->
  off_end b (r_version s) <= length b ->
  exists x, qtreader_next_record slack s b = ROk (x, skipn (off_end b (r_version s)) b).
Proof.
  intros L H H1 H2 F C PS LE. unfold qtreader_next_record. rewrite no_header by assumption.
  destruct (core_accepts s b F C PS LE) as [[r0 s0] E]. unfold parse_record.
  erewrite bind_at by exact E. cbn [fst snd].
  destruct (annotate_off s r0 H1 H2) as [r1 EA].
  unfold bind, lift. rewrite EA. eexists. reflexivity.
Qed.
