(** The reader takes every field from its layout position (C51). *)
Require Import NArith ZArith List Bool Lia Arith.
Require Import ZifyBool ZifyN ZifyNat.
Require Import Verif.Word Verif.Codec_Types Verif.Branch_Model
  Verif.Reader_Model Verif.Reader_Spec Verif.Reader_Proofs Verif.Reader_Proofs2 Verif.Layout_Spec Verif.Layout_Fields.
Import ListNotations.
Local Open Scope nat_scope.

(** ** Flag words *)
Lemma land_within v m l : (forall i, N.testbit m i = false -> In i l \/ (16 <= i)%N) ->
  (v < 2 ^ 16)%N -> N.land v m = 0%N -> bits_within v l.
Proof.
  intros Hm Hv H i Hi. assert (N.testbit m i = false).
  { pose proof (N.land_spec v m i) as E. rewrite H, Hi, N.bits_0 in E. now destruct (N.testbit m i). }
  destruct (Hm i H0); auto. exfalso.
  rewrite (N.bits_above_log2 v i) in Hi; [discriminate|].
  destruct (N.eq_dec v 0) as [->|Z]; [change (N.log2 0) with 0%N; lia|].
  apply N.log2_lt_pow2; [lia|]. eapply N.lt_le_trans; [exact Hv|]. apply N.pow_le_mono_r; lia.
Qed.
Lemma within_land v m l : (forall i, In i l -> N.testbit m i = false) ->
  bits_within v l -> N.land v m = 0%N.
Proof.
  intros Hm H. apply N.bits_inj. intros i. rewrite N.land_spec, N.bits_0.
  destruct (N.testbit v i) eqn:E; [|reflexivity]. rewrite (Hm i); auto.
Qed.
Lemma mask_sound m l :
  forallb (fun i => N.testbit m i || existsb (N.eqb i) l) (map N.of_nat (seq 0 16)) = true ->
  forall i, N.testbit m i = false -> In i l \/ (16 <= i)%N.
Proof.
  intros H i Hi. destruct (N.leb_spec 16 i); [now right|]. left.
  rewrite forallb_forall in H. specialize (H i).
  rewrite Hi in H. cbn [orb] in H. apply existsb_exists in H as (j & Hj & E).
  - apply N.eqb_eq in E. now subst j.
  - apply in_map_iff. exists (N.to_nat i). split; [lia|]. apply in_seq. lia.
Qed.
Lemma mask_complete m l : forallb (fun i => negb (N.testbit m i)) l = true ->
  forall i, In i l -> N.testbit m i = false.
Proof. rewrite forallb_forall. intros H i Hi. apply H in Hi. now destruct (N.testbit m i). Qed.

Lemma be_val_bound n : forall l, is_bytes l -> (be_val (firstn n l) < 256 ^ N.of_nat n)%N.
Proof.
  unfold be_val. intros l H.
  assert (G : forall l a k, is_bytes l -> length l <= k ->
    (fold_left (fun a b => a * 256 + b) l a < (a + 1) * 256 ^ N.of_nat k)%N).
  { clear. induction l as [|x l IH]; intros a k Hl L; cbn [fold_left].
    - assert (256 ^ N.of_nat k <> 0)%N by (apply N.pow_nonzero; discriminate). nia.
    - inversion_clear Hl. cbn [length] in L. destruct k; [lia|].
      specialize (IH (a * 256 + x)%N k H0 ltac:(lia)).
      rewrite Nat2N.inj_succ, N.pow_succ_r'. nia. }
  specialize (G (firstn n l) 0%N n). rewrite N.mul_1_l in G. apply G.
  - apply Forall_forall. intros x Hx. rewrite <- (firstn_skipn n l) in H.
    apply Forall_app in H as [H _]. rewrite Forall_forall in H. auto.
  - rewrite firstn_length. lia.
Qed.
Lemma is_bytes_skipn n l : is_bytes l -> is_bytes (skipn n l).
Proof. intros H. rewrite <- (firstn_skipn n l) in H. now apply Forall_app in H. Qed.
Lemma u16_bound b o : is_bytes b -> (u16_at b o < 2 ^ 16)%N.
Proof. intros H. apply (be_val_bound 2). now apply is_bytes_skipn. Qed.
Lemma byte_bound b o : is_bytes b -> (byte_at b o < 256)%N.
Proof. intros H. rewrite <- be_val1. apply (be_val_bound 1). now apply is_bytes_skipn. Qed.

(** ** Stepping with known length *)
Lemma get_in n o b v r : o <= length b -> get n (skipn o b) = ROk (v, r) ->
  r = skipn (o + n) b /\ v = be_val (firstn n (skipn o b)) /\ o + n <= length b.
Proof.
  intros L E. pose proof (get_pos' _ _ _ _ _ E) as [-> ->].
  apply get_pos in E as [(_ & _ & H)| ->]; repeat split; auto; lia.
Qed.
Lemma opt_get_in c n d o b v r : o <= length b -> opt c (get n) d (skipn o b) = ROk (v, r) ->
  r = skipn (o + len c n) b /\ v = (if c then be_val (firstn n (skipn o b)) else d) /\
  o + len c n <= length b.
Proof.
  intros L E. destruct c; cbn [opt len] in *; [now apply get_in|].
  injection E as <- <-. rewrite Nat.add_0_r. auto.
Qed.
Lemma skip_in n o b v r : o <= length b -> skip n (skipn o b) = ROk (v, r) ->
  r = skipn (o + n) b /\ o + n <= length b.
Proof.
  intros L E. pose proof (skip_pos _ _ _ _ _ E) as ->. split; [reflexivity|].
  unfold skip in E. destruct (_ <? _) eqn:H; [discriminate|]. rewrite skipn_length in H. lia.
Qed.
Lemma opt_skip_in c n d o b v r : o <= length b -> opt c (skip n) d (skipn o b) = ROk (v, r) ->
  r = skipn (o + len c n) b /\ o + len c n <= length b.
Proof.
  intros L E. destruct c; cbn [opt len] in *; [now apply skip_in in E|].
  injection E as <- <-. rewrite Nat.add_0_r. auto.
Qed.

(** Success from length. *)
Lemma get_at n o b : o + n <= length b ->
  get n (skipn o b) = ROk (be_val (firstn n (skipn o b)), skipn (o + n) b).
Proof.
  intros L. unfold get. rewrite skipn_length, skipn_add.
  destruct (Nat.ltb_spec (length b - o) n); [lia|reflexivity].
Qed.
Lemma opt_get_at c n d o b : o + len c n <= length b ->
  opt c (get n) d (skipn o b) = ROk (if c then be_val (firstn n (skipn o b)) else d, skipn (o + len c n) b).
Proof.
  intros L. destruct c; cbn [opt len] in *; [now apply get_at|]. now rewrite Nat.add_0_r.
Qed.
Lemma skip_at n o b : o + n <= length b -> skip n (skipn o b) = ROk (tt, skipn (o + n) b).
Proof.
  intros L. unfold skip. rewrite skipn_length, skipn_add.
  destruct (Nat.ltb_spec (length b - o) n); [lia|reflexivity].
Qed.
Lemma opt_skip_at c n o b : o + len c n <= length b ->
  opt c (skip n) tt (skipn o b) = ROk (tt, skipn (o + len c n) b).
Proof.
  intros L. destruct c; cbn [opt len] in *; [now apply skip_at|]. now rewrite Nat.add_0_r.
Qed.
Lemma bind_at {A B} (p : P A) (k : A -> P B) b a b' : p b = ROk (a, b') -> bind p k b = k a b'.
Proof. intros H. unfold bind. now rewrite H. Qed.

Lemma read_arr_at n : forall cap o b, n <= cap -> o + 8 * n <= length b ->
  exists v, read_arr n cap (skipn o b) = ROk (v, skipn (o + 8 * n) b).
Proof.
  induction n; intros cap o b Hc L; cbn [read_arr].
  - exists []. unfold ret. f_equal. f_equal. f_equal. lia.
  - destruct cap; [lia|]. erewrite bind_at by (apply get_at; lia).
    destruct (IHn cap (o + 8) b) as [v E]; [lia..|].
    erewrite bind_at by exact E. eexists. unfold ret. do 2 f_equal. f_equal. lia.
Qed.
Lemma read_rows_at w : forall nr rc cc o b, w <= rc -> nr <= cc -> o + 8 * (w * nr) <= length b ->
  exists v, read_rows w nr rc cc (skipn o b) = ROk (v, skipn (o + 8 * (w * nr)) b).
Proof.
  induction w; intros nr rc cc o b Hr Hc L; cbn [read_rows].
  - exists []. unfold ret. do 3 f_equal. lia.
  - destruct rc; [lia|]. cbn [Nat.pred]. cbn [Nat.mul] in L.
    destruct (read_arr_at nr cc o b) as [v1 E1]; [lia..|].
    erewrite bind_at by exact E1.
    destruct (IHw nr rc cc (o + 8 * nr) b) as [v E]; [lia..|].
    erewrite bind_at by exact E. eexists. unfold ret. do 2 f_equal. f_equal. lia.
Qed.
Lemma skipn_nth o : forall (b : list N), o < length b -> skipn o b = nth o b 0%N :: skipn (S o) b.
Proof.
  induction o as [|o IH]; intros [|x b] L; cbn [length] in L; try lia; [reflexivity|].
  cbn [nth]. rewrite <- IH by lia. reflexivity.
Qed.
Lemma get_count_at hm gm k o b : o + len (counted hm gm) 1 <= length b ->
  get_count hm gm k (skipn o b)
  = ROk (if counted hm gm then byte_at b o else if (hm =? 0)%N then k else 0%N,
         skipn (o + len (counted hm gm) 1) b).
Proof.
  intros L. unfold get_count, MODE_RADIX, byte_at. unfold counted in *.
  destruct ((hm =? 0)%N && (gm =? 0)%N); cbn [len] in *.
  - rewrite skipn_nth by lia. now rewrite Nat.add_1_r.
  - rewrite Nat.add_0_r. destruct (hm =? 0)%N; reflexivity.
Qed.
Lemma walk_len_min hm gm b o : len (counted hm gm) 2 <= walk_len hm gm b o.
Proof. unfold walk_len. destruct (counted hm gm); cbn [len]; lia. Qed.
Lemma parse_walk_at hm gm st old o b :
  walk_counts_ok hm gm b o -> o + walk_len hm gm b o <= length b ->
  exists v, parse_walk hm gm st old (skipn o b) = ROk (v, skipn (o + walk_len hm gm b o) b).
Proof.
  intros H L. pose proof (walk_len_min hm gm b o) as M. unfold parse_walk.
  erewrite bind_at by (apply get_count_at; destruct (counted hm gm); cbn [len] in *; lia).
  erewrite bind_at by (apply get_count_at; destruct (counted hm gm); cbn [len] in *; lia).
  unfold walk_counts_ok in H. unfold walk_len in *. clear M.
  destruct (counted hm gm); cbn [len].
  - specialize (H eq_refl) as [H1 H2].
    set (nr := byte_at b o) in *. set (w := byte_at b (o + 1)) in *. clearbody nr w.
    unfold NR_RADIX_PTES, MAX_RADIX_WALKS.
    destruct (w =? 1)%N eqn:W1; [|destruct (1 <? w)%N eqn:W2].
    + replace (N.to_nat w =? 1)%nat with true in * by lia.
      destruct (read_arr_at (N.to_nat nr) 4 (o + 1 + 1) b) as [v E]; [lia..|].
      erewrite bind_at by exact E. eexists. unfold ret. do 2 f_equal. f_equal. lia.
    + replace (N.to_nat w =? 1)%nat with false in * by lia.
      replace (1 <? N.to_nat w)%nat with true in * by lia.
      destruct (read_rows_at (N.to_nat w) (N.to_nat nr) 5 4 (o + 1 + 1) b) as [v E]; [lia..|].
      erewrite bind_at by exact E.
      edestruct (read_arr_at (N.to_nat (w - 1)) (5 - 1)) as [v1 E1]; [| |erewrite bind_at by exact E1]; [lia..|].
      edestruct (read_arr_at (N.to_nat w) 5) as [v2 E2]; [| |erewrite bind_at by exact E2]; [lia..|].
      eexists. unfold ret. do 2 f_equal. f_equal. lia.
    + replace (N.to_nat w =? 1)%nat with false in * by lia.
      replace (1 <? N.to_nat w)%nat with false in * by lia.
      eexists. unfold ret. do 2 f_equal. f_equal. lia.
  - rewrite !Nat.add_0_r. destruct (hm =? 0)%N.
    + change (1 =? 1)%N with true. cbv iota.
      destruct (read_arr_at 4 4 o b) as [v E]; [lia..|].
      change (N.to_nat (N.of_nat NR_RADIX_PTES)) with 4. change NR_RADIX_PTES with 4.
      erewrite bind_at by exact E. eexists. unfold ret. do 2 f_equal.
    + change (0 =? 1)%N with false. change (1 <? 0)%N with false. cbv iota.
      eexists. unfold ret. do 2 f_equal. f_equal. lia.
Qed.
Lemma opt_walk_at c hm gm st old d o b :
  (c = true -> walk_counts_ok hm gm b o) -> o + len c (walk_len hm gm b o) <= length b ->
  exists v, opt c (parse_walk hm gm st old) d (skipn o b) = ROk (v, skipn (o + len c (walk_len hm gm b o)) b).
Proof.
  intros H L. destruct c; cbn [opt len] in *; [apply parse_walk_at; auto|].
  eexists. now rewrite Nat.add_0_r.
Qed.

(** ** Headers *)
Ltac step E x := apply bind_inv in E as (x & ? & ?E & E).

Lemma header_flags2 v : (v < 2 ^ 16)%N -> has v F2_FILE_HEADER = true -> (N.land v 0xFFFC =? 0)%N = true ->
  v = 2%N \/ v = 3%N.
Proof.
  intros L H1 H2. apply N.eqb_eq in H2. unfold has, F2_FILE_HEADER in H1.
  assert (E : v = (N.land v 0xFFFC + v mod 4)%N).
  { change (2 ^ 16)%N with 65536%N in L.
    assert (v mod 4 = N.land v 3)%N as -> by (change 3%N with (N.ones 2); now rewrite N.land_ones).
    rewrite N.add_nocarry_lxor.
    - rewrite N.lxor_lor.
      + rewrite <- N.land_lor_distr_r. change (N.lor 0xFFFC 3) with (N.ones 16).
        rewrite N.land_ones, N.mod_small; auto.
      + apply N.bits_inj. intros i. rewrite !N.land_spec.
        replace (N.testbit 0) with (fun _ : N => false) by reflexivity. cbv beta.
        destruct (N.testbit v i); [|reflexivity]. cbn [andb]. rewrite <- N.land_spec.
        change (N.land 0xFFFC 3) with 0%N. apply N.bits_0.
    - apply N.bits_inj. intros i. rewrite !N.land_spec, N.bits_0.
      destruct (N.testbit v i); [|reflexivity]. cbn [andb]. rewrite <- N.land_spec.
      change (N.land 0xFFFC 3) with 0%N. apply N.bits_0. }
  rewrite H2 in E. cbn [N.add] in E. clear H2.
  assert (v < 4)%N by (rewrite E; apply N.mod_lt; discriminate). clear E L.
  destruct v as [|[[p|p|]|[p|p|]|]]; try (cbn in H1; discriminate); try lia; auto.
Qed.

Lemma header_layout s b s' rest : is_bytes b -> parse_header s b = ROk (s', rest) ->
  header_flags_ok b /\ h_end b <= length b /\ rest = skipn (h_end b) b /\ hdr_fields s b s'.
Proof.
  intros HB E. unfold parse_header in E. change b with (skipn 0 b) in E at 1.
  step E insn. apply get_in in E0 as (-> & Hin & L); [|lia].
  step E u1. apply guard_pos in E0 as [-> G1].
  step E fl. apply get_in in E0 as (-> & Hfl & L1); [|lia].
  step E u2. apply guard_pos in E0 as [-> G2].
  step E fl2. apply get_in in E0 as (-> & Hfl2 & L2); [|lia].
  step E u3. apply guard_pos in E0 as [-> G3].
  step E u4. apply guard_pos in E0 as [-> G4].
  cbn [Nat.add] in *. clear L L1.
  change (be_val (firstn 2 (skipn 6 b))) with (h_flags2 b) in Hfl2. subst fl2.
  fold (h_ext2 b) in E.
  step E fl3. apply opt_get_in in E0 as (-> & Hf3 & L3); [|lia].
  assert (fl3 = h_flags3 b) as -> by exact Hf3. clear Hf3.
  step E hf. apply get_in in E0 as (-> & Hhf & L4); [|lia].
  assert (hf = h_hf b) as -> by exact Hhf. clear Hhf.
  replace (8 + len (h_ext2 b) 2 + 2) with (h_off_magic b) in * by (unfold h_off_magic; lia).
  step E u5. apply guard_pos in E0 as [-> G5].
  step E magic. apply opt_get_in in E0 as (-> & Hm & L5); [|lia].
  fold (h_off_version b) in *.
  step E version. apply opt_get_in in E0 as (-> & Hv & L6); [|lia].
  fold (h_off_iar b) in *.
  step E addr. apply opt_get_in in E0 as (-> & Ha & L7); [|lia].
  step E u6. apply opt_skip_in in E0 as (-> & L8); [|lia].
  change (h_off_iar b + len (has (h_hf b) HDR_IAR) 8 + len (has (h_hf b) HDR_IAR_VSID) 7)
    with (h_walk_off b) in *.
  fold (h_has_walk b) in E. rewrite !mode_at_eq in E.
  step E rx. pose proof (opt_walk_pos _ _ _ _ _ _ _ _ _ _ E0) as HW.
  assert (Hrx : h_has_walk b = false -> rx = x_radix (r_nxt s)).
  { intros HF. rewrite HF in E0. cbn [opt] in E0. now apply ret_pos in E0 as [_ ->]. }
  clear E0. step E rpn.
  assert (H2 : x0 = skipn (h_off_ps b) b /\
               rpn = pick (has (h_hf b) HDR_IAR_RPN) (u32_at b (h_off_rpn b)) (x_rpn (r_nxt s)) /\
               h_off_ps b <= length b).
  { destruct HW as [[-> HC]| ->].
    - unfold h_has_walk in HC. apply andb_true_iff in HC as [HC _]. rewrite HC in E0. discriminate.
    - change (h_walk_off b + _) with (h_off_rpn b) in E0.
      unfold h_off_ps. destruct (has (h_hf b) HDR_IAR_RPN) eqn:R; cbn [opt len pick] in *.
      + destruct (get_pos _ _ _ _ _ E0) as [(-> & -> & L9)|X]; [auto|discriminate].
      + apply ret_pos in E0 as [-> ->]. rewrite Nat.add_0_r. repeat split; auto.
        unfold h_off_rpn, h_walk_bytes, h_has_walk. rewrite R. cbn [andb len]. lia. }
  destruct H2 as (-> & Hrpn & L9). clear E0 HW.
  step E ps. apply opt_get_in in E0 as (-> & Hps & L10); [|lia].
  fold (h_off_gps b) in *.
  step E gps. apply opt_get_in in E0 as (-> & Hgps & L11); [|lia].
  step E ptcr. apply opt_get_in in E0 as (-> & _ & L12); [|lia].
  fold (h_off_lpid b) in *.
  step E lpid. apply opt_get_in in E0 as (-> & Hlpid & L13); [|lia].
  fold (h_off_pid b) in *.
  step E pid. apply opt_get_in in E0 as (-> & Hpid & L14); [|lia].
  fold (h_off_comment b) in *.
  step E clen. apply opt_get_in in E0 as (-> & Hc & L15); [|lia].
  step E u7. apply skip_in in E0 as (-> & L16); [|lia].
  assert (EE : h_off_comment b + len (has (h_hf b) HDR_COMMENT) 2 + N.to_nat clen = h_end b).
  { unfold h_end. rewrite Hc. fold (u16_at b (h_off_comment b)).
    destruct (has (h_hf b) HDR_COMMENT); cbn [len]; [lia|]. change (N.to_nat 0) with 0. lia. }
  rewrite EE in *. cbv zeta in E. apply ret_pos in E as [-> ->].
  split; [|split; [exact L16|split; [reflexivity|]]].
  - unfold header_flags_ok. repeat split.
    + change (u32_at b 0) with (be_val (firstn 4 (skipn 0 b))). rewrite <- Hin. lia.
    + change (u16_at b 4) with (be_val (firstn 2 (skipn 4 b))). rewrite <- Hfl.
      unfold F_EXT in G2. lia.
    + change (u16_at b 6) with (h_flags2 b). apply header_flags2; auto. now apply u16_bound.
    + apply N.eqb_eq in G5. eapply land_within; [apply mask_sound|now apply u16_bound|exact G5].
      vm_compute. reflexivity.
  - unfold hdr_fields. cbv zeta.
    cbn [r_magic r_version r_next_addr r_nxt r_cur x_rpn_v x_rpn x_ps_v x_ps x_gps_v x_gps x_radix
         r_lpid_present r_lpid r_pid_present r_pid r_branch_info r_tlbie_info r_prefixed r_suffix].
    rewrite <- !be_val1.
    repeat (split; [first [assumption|reflexivity|idtac]|]); try reflexivity.
    intros HL. rewrite HL in Hlpid. subst lpid. reflexivity.
Qed.

Lemma header_accepts s b : header_flags_ok b -> header_counts_ok b -> h_end b <= length b ->
  exists x, parse_header s b = ROk x.
Proof.
  intros (F0 & F1 & F2 & F3) HC L. unfold parse_header.
  unfold h_end in L.
  assert (L0 : h_off_comment b + len (has (h_hf b) HDR_COMMENT) 2 +
     N.to_nat (if has (h_hf b) HDR_COMMENT then u16_at b (h_off_comment b) else 0%N) <= length b)
    by (destruct (has (h_hf b) HDR_COMMENT); cbn [len]; [lia|]; change (N.to_nat 0) with 0; lia).
  clear L.
  assert (L1 : h_off_comment b <= length b) by lia.
  pose proof L1 as L2. unfold h_off_comment in L2.
  assert (L3 : h_off_pid b <= length b) by lia. pose proof L3 as L4. unfold h_off_pid in L4.
  assert (L5 : h_off_lpid b <= length b) by lia. pose proof L5 as L6. unfold h_off_lpid in L6.
  assert (L7 : h_off_gps b <= length b) by lia. pose proof L7 as L8. unfold h_off_gps in L8.
  assert (L9 : h_off_ps b <= length b) by lia. pose proof L9 as L10. unfold h_off_ps in L10.
  assert (L11 : h_off_rpn b <= length b) by lia. pose proof L11 as L12. unfold h_off_rpn, h_walk_bytes in L12.
  assert (L13 : h_walk_off b <= length b) by lia. pose proof L13 as L14. unfold h_walk_off in L14.
  change b with (skipn 0 b) at 1.
  erewrite bind_at by (apply get_at; lia). fold (u32_at b 0). rewrite F0.
  change (guard (0 =? 0)%N) with (ret tt). erewrite bind_at by reflexivity.
  cbn [Nat.add].
  erewrite bind_at by (apply get_at; lia). fold (u16_at b 4). rewrite F1.
  change (guard (1 =? F_EXT)%N) with (ret tt). erewrite bind_at by reflexivity.
  cbn [Nat.add].
  erewrite bind_at by (apply get_at; lia). fold (u16_at b 6).
  assert (G1 : has (u16_at b 6) F2_FILE_HEADER = true) by (destruct F2 as [-> | ->]; reflexivity).
  assert (G2 : (N.land (u16_at b 6) 0xFFFC =? 0)%N = true) by (destruct F2 as [-> | ->]; reflexivity).
  rewrite G1, G2. cbn [guard]. erewrite bind_at by reflexivity. erewrite bind_at by reflexivity.
  cbn [Nat.add]. fold (h_flags2 b). fold (h_ext2 b).
  erewrite bind_at by (apply opt_get_at; lia).
  change (if h_ext2 b then be_val (firstn 2 (skipn 8 b)) else 0%N) with (h_flags3 b).
  erewrite bind_at by (apply get_at; lia).
  change (be_val (firstn 2 (skipn (8 + len (h_ext2 b) 2) b))) with (h_hf b).
  rewrite (within_land (h_hf b) UNHANDLED_HDR_FLAGS _ (mask_complete UNHANDLED_HDR_FLAGS [15; 14; 13; 12; 11; 6; 4; 1]%N eq_refl) F3).
  change (guard (0 =? 0)%N) with (ret tt). erewrite bind_at by reflexivity.
  replace (8 + len (h_ext2 b) 2 + 2) with (10 + len (h_ext2 b) 2) by lia.
  do 3 erewrite bind_at by (apply opt_get_at; lia).
  erewrite bind_at by (apply opt_skip_at; lia).
  match goal with |- context [skipn ?o b] => change o with (h_walk_off b) end.
  rewrite !mode_at_eq. fold (h_has_walk b).
  edestruct (opt_walk_at (h_has_walk b)) as [rx ER]; [| |erewrite bind_at by exact ER].
  { intros W. unfold h_has_walk in W. apply andb_true_iff in W as [W1 W2]. apply HC; auto. }
  { lia. }
  change (h_walk_off b + _) with (h_off_rpn b).
  erewrite bind_at by (apply opt_get_at; lia). fold (h_off_ps b).
  erewrite bind_at by (apply opt_get_at; lia). fold (h_off_gps b).
  erewrite bind_at by (apply opt_get_at; lia).
  erewrite bind_at by (apply opt_get_at; lia). fold (h_off_lpid b).
  erewrite bind_at by (apply opt_get_at; lia). fold (h_off_pid b).
  erewrite bind_at by (apply opt_get_at; lia). fold (h_off_comment b).
  erewrite bind_at by (apply opt_get_at; lia).
  fold (u16_at b (h_off_comment b)).
  erewrite bind_at by (apply skip_at; lia).
  eexists. reflexivity.
Qed.
