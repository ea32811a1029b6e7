(** Proofs for C55: POWER8 and POWER9 instruction records. *)
Require Import NArith ZArith List Bool Lia.
Require Import ZifyBool ZifyN ZifyNat.
Require Import Verif.Word Verif.Codec_Types Verif.HtmBits_Model Verif.HtmBits_Spec Verif.HtmBits_Proofs.
Require Import Verif.Htm_Model Verif.Trace_Spec Verif.Trace_Proofs.
Require Verif.Tlb_Model Verif.Tlb_Spec Verif.Tlb_Proofs Verif.Bb_Model Verif.Bb_Spec Verif.Bb_Proofs.
Import ListNotations.
Local Open Scope N_scope.

(** ** Words *)
Lemma pack_field : forall l n s e w x, fits l -> nth_error l n = Some (w, x) ->
  wid (skipn (S n) l) = 63 - e -> e - s + 1 = w -> s <= e -> e <= 63 -> field 64 (pack l) s e = x.
Proof.
  intros l n s e w x F NT W E S1 E1. unfold field. change (64 - 1) with 63. rewrite <- W, E.
  exact (pack_nth l n w x F NT).
Qed.
Definition info_parts (i : insn8) : list (N * N) :=
  [(20, s_raw i / 2 ^ 12); (12, s_raw i mod 2 ^ 12); (1, b1 (s_branch i)); (3, s_x33 i); (20, 0xABCDE); (1, 1);
   (1, b1 (here (s_iea i))); (1, b1 (here (s_ira i))); (1, b1 (here (s_dea i)));
   (1, b1 (here (s_dra i))); (1, b1 (s_esid i)); (2, s_x62 i)].
Definition info_parts2 (i : insn8) : list (N * N) := (32, s_raw i) :: tl (tl (info_parts i)).
Lemma info_pack : forall i, info_word i = pack (info_parts2 i) /\ info_word i = pack (info_parts i).
Proof.
  intros i. unfold info_word, info_parts2, info_parts. cbn [pack fst snd wid tl].
  pose proof (N.div_mod (s_raw i) (2 ^ 12) ltac:(discriminate)) as E.
  set (h := s_raw i / 2 ^ 12) in *. set (l := s_raw i mod 2 ^ 12) in *. clearbody h l.
  change (2 ^ 12) with 4096 in *. cbn [N.add Pos.add Pos.succ N.pow Pos.pow Pos.iter Pos.mul].
  split; lia.
Qed.
Lemma info_fits : forall i, s_raw i < 2 ^ 32 -> s_x33 i < 8 -> s_x62 i < 4 ->
  fits (info_parts i) /\ fits (info_parts2 i).
Proof.
  intros i H1 H2 H3.
  assert (T : fits (tl (tl (info_parts i)))).
  { unfold info_parts, fits. cbn [tl]. repeat constructor; cbn [fst snd]; try apply b1_lt; try assumption; reflexivity. }
  split; [|constructor; [exact H1|exact T]].
  unfold info_parts. constructor; [|constructor; [|exact T]]; cbn [fst snd].
  - apply N.div_lt_upper_bound; [discriminate|]. exact H1.
  - apply N.mod_lt. discriminate.
Qed.
Lemma bit_b1 : forall v b x, b <= 63 -> field 64 v b b = b1 x -> bit v b = x.
Proof. intros v b x H E. unfold bit. rewrite bits_field by lia. rewrite E. destruct x; reflexivity. Qed.

Definition info_of (i : insn8) : info8 :=
  mk_info8 (s_raw i) (s_branch i) true (here (s_iea i)) (here (s_ira i)) (here (s_dea i)) (here (s_dra i)) (s_esid i).
Lemma info_decoded : forall i, 0 < s_raw i < 2 ^ 32 -> s_x33 i < 8 -> s_x62 i < 4 ->
  decode_info8 (info_word i) = Some (info_of i)
  /\ field 64 (info_word i) 36 55 = 0xABCDE /\ field 64 (info_word i) 0 19 = field 32 (s_raw i) 0 19
  /\ info_word i < 2 ^ 64.
Proof.
  intros i H1 H2 H3. destruct (info_fits i ltac:(lia) H2 H3) as [F F2]. destruct (info_pack i) as [P2 P].
  assert (L : info_word i < 2 ^ 64) by (rewrite P; apply (pack_lt _ F)).
  assert (R0 : field 64 (info_word i) 0 31 = s_raw i).
  { rewrite P2. eapply (pack_field _ 0); [exact F2|reflexivity|reflexivity|reflexivity|lia|lia]. }
  assert (T : field 64 (info_word i) 36 55 = 0xABCDE).
  { rewrite P. eapply (pack_field _ 4); [exact F|reflexivity|reflexivity|reflexivity|lia|lia]. }
  split; [|split; [exact T|split; [|exact L]]].
  - unfold decode_info8. rewrite !bits_field by lia. rewrite T, R0. rewrite N.eqb_refl. cbn [negb].
    replace (s_raw i =? 0) with false by lia. unfold info_of. f_equal.
    assert (B : forall n b x, nth_error (info_parts i) n = Some (1, b1 x) ->
       wid (skipn (S n) (info_parts i)) = 63 - b -> b <= 63 -> bit (info_word i) b = x).
    { intros n b x NT W B. apply bit_b1; [exact B|]. rewrite P.
      eapply pack_field; [exact F|exact NT|exact W|lia|lia|exact B]. }
    rewrite (B 2%nat 32 (s_branch i)), (B 5%nat 56 true), (B 6%nat 57 (here (s_iea i))), (B 7%nat 58 (here (s_ira i))),
      (B 8%nat 59 (here (s_dea i))), (B 9%nat 60 (here (s_dra i))), (B 10%nat 61 (s_esid i)); try reflexivity; lia.
  - rewrite P. assert (E : field 64 (pack (info_parts i)) 0 19 = s_raw i / 2 ^ 12).
    { eapply (pack_field _ 0); [exact F|reflexivity|reflexivity|reflexivity|lia|lia]. }
    rewrite E. unfold field. change (32 - 1 - 19) with 12. change (19 - 0 + 1) with 20.
    rewrite N.mod_small; [reflexivity|]. apply N.div_lt_upper_bound; [discriminate|]. change (2 ^ 12 * 2 ^ 20) with (2 ^ 32). lia.
Qed.

Lemma untagged_false : forall w, untagged w -> tagged w = false.
Proof. intros w (_ & H1 & H2). unfold tagged. rewrite !bits_field by lia. apply N.eqb_neq in H1, H2. rewrite H1, H2. reflexivity. Qed.

Lemma shown_word : forall iea b raw insn, iea < 2 ^ 64 -> shown8 iea b raw insn ->
  insn_word insn_demunge b raw iea = Some insn.
Proof.
  intros iea b raw insn I H.
  destruct H as [w H|w H H0|x0 x31 li lk H H0 H1|x0 x31 li lk H H0|x0 x30 x31 type bo bi bd lk H H0 H1 H2 H3 H4
    |x0 x30 x31 type bo bi bd lk H H0 H1 H2 H3|x0 type m x6 x17 tar bo bi bh x21 lk H H0 H1 H2 H3 H4 H5 H6].
  - rewrite plain_word. destruct ((_ =? _) && (_ =? _)) eqn:E; [|reflexivity].
    exfalso. apply H. apply andb_true_iff in E as [E1 E2]. apply N.eqb_eq in E1, E2. split; assumption.
  - rewrite plain_word. rewrite H, H0. reflexivity.
  - exact (proj1 (p8_i_word x0 x31 li lk iea H) I H0 H1).
  - exact (proj2 (p8_i_word x0 x31 li lk iea H) H0).
  - exact (proj1 (p8_b_word x0 x30 x31 type bo bi bd lk iea H H0 H1 H2) I H3 H4).
  - exact (proj2 (p8_b_word x0 x30 x31 type bo bi bd lk iea H H0 H1 H2) H3).
  - exact (p8_xl_word x0 type m x6 x17 tar bo bi bh x21 lk iea H H0 H1 H2 H3 H4 H5 H6).
Qed.
Lemma land_low : forall a k, N.land a (2 ^ k - 1) = a mod 2 ^ k.
Proof. intros. rewrite <- N.land_ones, N.ones_equiv. f_equal. lia. Qed.
Lemma align4 : forall w, w < 2 ^ 64 -> N.land w 0xfffffffffffffffc = w / 4 * 4.
Proof.
  intros w H. change 0xfffffffffffffffc with (N.shiftl (N.ones 62) 2). rewrite land_mask4.
  rewrite N.mod_small; [reflexivity|]. apply N.div_lt_upper_bound; [discriminate|]. exact H.
Qed.
Lemma iea_decoded : forall w, untagged w -> decode_iea w = Some (w / 4 * 4, N.odd w).
Proof.
  intros w U. unfold decode_iea. rewrite (untagged_false w U). rewrite align4 by apply U.
  f_equal. f_equal. rewrite bit_spec by lia. unfold ibm_bit. change (64 - 1 - 63) with 0. apply N.bit0_odd.
Qed.
Lemma field_lt : forall w v s e, field w v s e < 2 ^ (e - s + 1).
Proof. intros. unfold field. apply N.mod_lt. apply N.pow_nonzero. discriminate. Qed.
Lemma ishift_cases : forall w, ishift w = 12 \/ ishift w = 16 \/ ishift w = 24.
Proof. intros w. unfold ishift. destruct (field 64 w 38 39) as [|[[]|[]|]]; auto. Qed.
Lemma dshift_cases : forall w, dshift w = 12 \/ dshift w = 16 \/ dshift w = 24.
Proof. intros w. unfold dshift. destruct (field 64 w 0 1) as [|[[]|[]|]]; auto. Qed.
Lemma ira_decoded : forall w a, untagged w -> field 64 w 41 63 = 0 -> field 64 w 38 39 <> 0 ->
  ipage w mod 2 ^ ishift w = 0 ->
  decode_ira w a = Some (ipage w + a mod 2 ^ ishift w, ishift w) /\ ipage w + a mod 2 ^ ishift w < 2 ^ 64.
Proof.
  intros w a U Z NZ AL. unfold decode_ira. rewrite (untagged_false w U). rewrite !bits_field by lia.
  rewrite Z. cbn [N.eqb negb].
  pose proof (field_lt 64 w 38 39) as B. change (2 ^ (39 - 38 + 1)) with 4 in B.
  pose proof (field_lt 64 w 0 37) as B2. change (2 ^ (37 - 0 + 1)) with (2 ^ 38) in B2.
  assert (M : field 64 w 0 37 * 2 ^ 12 mod w64 = ipage w).
  { unfold ipage. change (2 ^ 12) with 4096. apply N.mod_small. change w64 with (2 ^ 26 * 2 ^ 38). lia. }
  rewrite M.
  assert (IP : ipage w < 2 ^ 50) by (unfold ipage; change (2 ^ 50) with (2 ^ 38 * 4096); lia).
  assert (X : forall k, k = 12 \/ k = 16 \/ k = 24 -> ipage w mod 2 ^ k = 0 ->
    N.lor (ipage w) (N.land a (2 ^ k - 1)) = ipage w + a mod 2 ^ k /\ ipage w + a mod 2 ^ k < 2 ^ 64).
  { intros k K AL'. rewrite land_low. split.
    - apply lor_add with k; [exact AL'|]. apply N.mod_lt, N.pow_nonzero. discriminate.
    - assert (a mod 2 ^ k < 2 ^ 24).
      { eapply N.lt_le_trans; [apply N.mod_lt, N.pow_nonzero; discriminate|]. destruct K as [->|[->| ->]]; cbn; lia. }
      apply N.lt_le_trans with (2 ^ 50 + 2 ^ 24); [apply N.add_lt_mono; assumption|discriminate]. }
  destruct (X (ishift w) (ishift_cases w) AL) as [X1 X2]. split; [|exact X2].
  rewrite <- X1. clear - B NZ. unfold ishift. generalize dependent (field 64 w 38 39). intros f B NZ.
  assert (C : f = 1 \/ f = 2 \/ f = 3) by lia. destruct C as [->|[->| ->]]; reflexivity.
Qed.
Lemma dra_decoded : forall w, untagged w -> field 64 w 0 1 <> 2 ->
  decode_dra w = Some (dpage w, dshift w).
Proof.
  intros w U NZ. unfold decode_dra. rewrite (untagged_false w U). rewrite !bits_field by lia.
  pose proof (field_lt 64 w 0 1) as B. change (2 ^ (1 - 0 + 1)) with 4 in B.
  pose proof (field_lt 64 w 2 39) as B2. change (2 ^ (39 - 2 + 1)) with (2 ^ 38) in B2.
  assert (M : field 64 w 2 39 * 2 ^ 12 mod w64 = dpage w).
  { unfold dpage. change (2 ^ 12) with 4096. apply N.mod_small. change w64 with (2 ^ 26 * 2 ^ 38). lia. }
  rewrite M. clear - B NZ. unfold dshift. generalize dependent (field 64 w 0 1). intros f B NZ.
  assert (C : f = 0 \/ f = 1 \/ f = 3) by lia. destruct C as [->|[->| ->]]; reflexivity.
Qed.
