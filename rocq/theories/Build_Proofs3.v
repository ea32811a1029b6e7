Require Import NArith ZArith List Bool Sorted Lia ZifyBool ZifyN ZifyNat.
Require Import Verif.Word Verif.Codec_Types Verif.Branch_Model Verif.Branch_Spec Verif.Branch_Proofs
  Verif.Storage_Model Verif.Storage_Spec Verif.Build_Model Verif.Build_Spec Verif.Build_Proofs
  Verif.Writer_Model Verif.Reader_Model Verif.Codec_Spec Verif.Codec_Props
  Verif.Build_Proofs2 Verif.Rebuild_Model Verif.Rebuild_Spec Verif.Rebuild_Proofs.
Import ListNotations.
Local Open Scope N_scope.

(** A record without translations *)
Definition bare (r : qrec) : Prop :=
  q_insn_ra_valid r = false /\ q_insn_ps_valid r = false /\ q_data_ra_valid r = false /\
  q_data_ps_valid r = false /\ q_ginsn_ps_valid r = false /\ q_gdata_ps_valid r = false /\
  q_radix_insn r = zero_radix /\ q_radix_data r = zero_radix /\ q_insn_ra r = 0 /\ q_data_ra r = 0.
Definition sized (r : qrec) : Prop := q_insn r < 2 ^ 32 /\ q_insn r <> 0 /\ q_insn_addr r < 2 ^ 64 /\ q_data_addr r < 2 ^ 64.

Lemma zero_typed : typed_radix zero_radix.
Proof. unfold typed_radix, word64s. repeat split; repeat constructor. Qed.
Lemma bare_typed r : bare r -> sized r -> typed r /\ shifts_ok r.
Proof.
  intros (B1 & B2 & B3 & B4 & B5 & B6 & B7 & B8 & B9 & B10) (S1 & S2 & S3 & S4).
  unfold typed, shifts_ok. rewrite B1, B2, B3, B4, B5, B6, B7, B8, B9, B10 || rewrite B2, B4, B5, B6, B7, B8, B9, B10.
  split.
  - split; [exact S1|]. split; [exact S3|]. split; [reflexivity|]. split; [exact S4|]. split; [reflexivity|].
    split; apply zero_typed.
  - repeat split; discriminate.
Qed.
Lemma bare_pair p c : bare p -> bare c -> pair_frames p c.
Proof.
  intros (B1 & B2 & B3 & B4 & B5 & B6 & B7 & B8 & B9 & B10) (C1 & C2 & C3 & C4 & C5 & C6 & C7 & C8 & C9 & C10).
  unfold pair_frames. rewrite B3, C1, !andb_false_r. cbn [andb orb]. repeat split; discriminate.
Qed.
Lemma bare_chain rs : forall p, bare p -> Forall (fun r => bare r /\ sized r) rs -> chain_frames p rs.
Proof.
  induction rs as [|c rs IH]; intros p Hp H; cbn [chain_frames]; [exact I|].
  inversion H as [|? ? [Hb Hs] Hr]; subst. destruct (bare_typed c Hb Hs) as [T1 T2].
  split; [exact T1|]. split; [exact T2|]. split; [destruct Hs as (_ & Hn & _); intro; contradiction|].
  split; [now apply bare_pair|]. now apply IH.
Qed.
Lemma bare_frames rs : Forall (fun r => bare r /\ sized r) rs -> frames rs /\ closes rs.
Proof.
  intro H. split.
  - destruct rs as [|r rs]; [exact I|]. inversion H as [|? ? [Hb Hs] Hr]; subst.
    destruct (bare_typed r Hb Hs) as [T1 T2]. unfold frames.
    split; [exact T1|]. split; [exact T2|]. split; [exact (proj1 (proj2 Hs))|].
    split; [|now apply bare_chain].
    destruct Hb as (_ & _ & _ & _ & _ & _ & E & _). unfold header_frames, storable. rewrite E. cbn. split; intro X; now elim X.
  - unfold closes. 
    assert (Hl : q_data_ra_valid (last rs zero_qrec) = false).
    { induction H as [|r rs [Hb _] H IH]; [reflexivity|]. destruct rs; [|exact IH]. cbn [last].
      destruct Hb as (_ & _ & Hb & _). exact Hb. }
    rewrite Hl. discriminate.
Qed.

(** The records the loop makes *)
Lemma record_bare w a d b c : bare (record w a d b c).
Proof. repeat split. Qed.
Lemma loop_bare g : forall ws t a im lm rs, build_loop g ws t a im lm = BOk rs -> Forall bare rs.
Proof.
  induction ws as [|w ws IH]; intros t a im lm rs; cbn [build_loop].
  - intro H. apply ok_inj in H. subst. constructor.
  - assert (Hs : forall data lm' w' b c d im',
      bcons (record w' a data b c) (build_loop g ws (t + 4) d im' lm') = BOk rs -> Forall bare rs).
    { intros data lm' w' b c d im' H. apply bcons_ok in H as (rs' & Hb & ->). constructor; [apply record_bare|].
      exact (IH _ _ _ _ _ Hb). }
    destruct (is_storage_insn w g); [| |discriminate].
    + destruct im as [|e im]; [apply Hs|]. destruct (im_text e =? t + 4); [|apply Hs].
      destruct (follow e w a) as [|[d w']]; [discriminate|apply Hs].
    + destruct lm as [|m lm]; [discriminate|]. destruct (lm_text m =? t + 4); [|discriminate].
      destruct im as [|e im]; [apply Hs|]. destruct (im_text e =? t + 4); [|apply Hs].
      destruct (follow e w a) as [|[d w']]; [discriminate|apply Hs].
Qed.
Lemma build_bare g text im lm rs : build g text im lm = BOk rs -> Forall bare rs.
Proof.
  unfold build. destruct im as [|e im]; [discriminate|].
  destruct (negb (im_text e =? 0) || negb (im_type e =? BRANCH_TYPE_ABS)); [discriminate|].
  destruct im as [|e2 im2]; [apply loop_bare|].
  destruct (im_text e2 =? 0); [|apply loop_bare].
  destruct (negb (im_type e2 =? BRANCH_TYPE_ABS)); [discriminate|]. apply loop_bare.
Qed.

Lemma opcd_nonzero w : direct w -> w <> 0.
Proof. intros [H|H] ->; vm_compute in H; discriminate. Qed.

Lemma traced_sized im lm : Forall (fun m => lm_addr m < 2 ^ 64) lm -> sized_im im -> forall ws pos a rs,
  Forall (fun w => w < 2 ^ 32 /\ w <> 0) ws -> a < 2 ^ 64 ->
  Forall (fun r => q_data_addr_valid r = false -> q_data_addr r = 0) rs ->
  traced im lm pos a ws rs -> Forall sized rs.
Proof.
  intros Hlm Him. induction ws as [|w ws IH]; intros pos a [|r rs] Hw Ha Hd H; cbn [traced] in H; try contradiction; constructor.
  - destruct H as [F _]. inversion Hw as [|? ? [Hw1 Hw2] _]; subst. inversion Hd as [|? ? Hd1 _]; subst.
    assert (Hwd : q_insn r < 2 ^ 32 /\ q_insn r <> 0).
    { destruct (direct_dec w) as [D|D]; [|rewrite (f_other _ _ _ _ _ _ _ F D); auto].
      destruct (entry_at im (pos + 4)) eqn:E.
      - destruct (f_taken _ _ _ _ _ _ _ F ltac:(congruence) D) as (R1 & _ & R2 & _). split; [exact R1|].
        apply opcd_nonzero. unfold direct in *. rewrite R2. exact D.
      - rewrite (f_plain _ _ _ _ _ _ _ F E). auto. }
    unfold sized. rewrite (f_addr _ _ _ _ _ _ _ F). split; [tauto|]. split; [tauto|]. split; [exact Ha|].
    destruct (accesses w) eqn:Ea.
    + assert (Hin := f_daddr _ _ _ _ _ _ _ F Ea). rewrite Forall_forall in Hlm. exact (Hlm _ Hin).
    + rewrite Hd1; [reflexivity|]. rewrite (f_data _ _ _ _ _ _ _ F). exact Ea.
  - destruct H as [_ H]. inversion Hw; subst. inversion Hd; subst. revert H. apply IH; auto.
    unfold successor_addr. destruct (entry_at im (pos + 4)) as [e|] eqn:E; [|apply N.mod_lt; discriminate].
    assert (He : im_dyn e < 2 ^ 64).
    { unfold entry_at in E. apply find_some in E as [E _]. unfold sized_im in Him. rewrite Forall_forall in Him. now apply Him. }
    assert (Ht : match isa_branch_target w a with Some t => t | None => 0 end < 2 ^ 64).
    { destruct (isa_branch_target w a) eqn:Et; [exact (isa_target_size _ _ _ Et)|reflexivity]. }
    destruct (im_type e) as [|[p|p|]]; auto. apply N.mod_lt. discriminate.
Qed.
(** Unset data addresses are zero. *)
Lemma loop_zero g : forall ws t a im lm rs, build_loop g ws t a im lm = BOk rs ->
  Forall (fun r => q_data_addr_valid r = false -> q_data_addr r = 0) rs.
Proof.
  induction ws as [|w ws IH]; intros t a im lm rs; cbn [build_loop].
  - intro H. apply ok_inj in H. subst. constructor.
  - assert (Hs : forall data lm' w' b c d im',
      bcons (record w' a data b c) (build_loop g ws (t + 4) d im' lm') = BOk rs ->
      Forall (fun r => q_data_addr_valid r = false -> q_data_addr r = 0) rs).
    { intros data lm' w' b c d im' H. apply bcons_ok in H as (rs' & Hb & ->). constructor.
      - unfold record. cbn. destruct data; [discriminate|auto].
      - exact (IH _ _ _ _ _ Hb). }
    destruct (is_storage_insn w g); [| |discriminate].
    + destruct im as [|e im]; [apply Hs|]. destruct (im_text e =? t + 4); [|apply Hs].
      destruct (follow e w a) as [|[d w']]; [discriminate|apply Hs].
    + destruct lm as [|m lm]; [discriminate|]. destruct (lm_text m =? t + 4); [|discriminate].
      destruct im as [|e im]; [apply Hs|]. destruct (im_text e =? t + 4); [|apply Hs].
      destruct (follow e w a) as [|[d w']]; [discriminate|apply Hs].
Qed.
Lemma build_zero g text im lm rs : build g text im lm = BOk rs ->
  Forall (fun r => q_data_addr_valid r = false -> q_data_addr r = 0) rs.
Proof.
  unfold build. destruct im as [|e im]; [discriminate|].
  destruct (negb (im_text e =? 0) || negb (im_type e =? BRANCH_TYPE_ABS)); [discriminate|].
  destruct im as [|e2 im2]; [apply loop_zero|].
  destruct (im_text e2 =? 0); [|apply loop_zero].
  destruct (negb (im_type e2 =? BRANCH_TYPE_ABS)); [discriminate|]. apply loop_zero.
Qed.

Lemma Forall_and2 {A} (P Q : A -> Prop) l : Forall P l -> Forall Q l -> Forall (fun x => P x /\ Q x) l.
Proof. intros H. induction H; intro H2; inversion H2; subst; constructor; auto. Qed.

(** The trace file *)
Lemma build_file g text im rest a lm rs slack : (forall r, g r < 2 ^ 64) ->
  Forall (fun w => w < 2 ^ 32 /\ w <> 0) text -> a < 2 ^ 64 -> a mod 4 = 0 ->
  starts_at im rest a -> ordered rest -> sized_im rest -> relative_only rest 0 text ->
  Forall (fun m => lm_addr m < 2 ^ 64) lm -> (4 <= length slack)%nat ->
  build g text im lm = BOk rs ->
  exists bytes,
    write_trace 0 rs = inr bytes /\
    length (fst (read_trace false false slack bytes)) = length text /\
    map (fun r => (q_insn (o_q r), q_insn_addr (o_q r))) (fst (read_trace false false slack bytes))
      = map (fun q => (q_insn q, q_insn_addr q)) rs /\
    map (fun r => optb (q_data_addr_valid (o_q r)) (q_data_addr (o_q r))) (fst (read_trace false false slack bytes))
      = map (fun q => optb (q_data_addr_valid q) (q_data_addr q)) rs.
Proof.
  intros Hg Hw Ha Ha4 Hs Ho Hz Hr Hlm Hsl Hb.
  assert (Hw1 : Forall (fun w => w < 2 ^ 32) text) by (revert Hw; apply Forall_impl; tauto).
  assert (Ht := build_records g text im rest a lm rs Hg Hw1 Ha Ha4 Hs Ho Hz Hr Hb).
  assert (Hsz := traced_sized rest lm Hlm Hz text 0 a rs Hw Ha (build_zero _ _ _ _ _ Hb) Ht).
  destruct (bare_frames rs (Forall_and2 _ _ _ (build_bare _ _ _ _ _ Hb) Hsz)) as [Hf Hc].
  destruct (C02_count_and_addresses 0 rs slack ltac:(reflexivity) Hf Hc Hsl) as (bytes & E1 & E2 & E3 & E4).
  exists bytes. split; [exact E1|]. split; [|split; [exact E3|exact E4]].
  rewrite E2. clear - Ht. revert Ht. generalize 0 as pos. revert a rs.
  induction text as [|w ws IH]; intros a [|r rs] pos H; cbn [traced] in H; try contradiction; [reflexivity|].
  cbn [length]. f_equal. exact (IH _ _ _ (proj2 H)).
Qed.

(** Taking a trace apart and putting it together *)
Lemma rebuilt_sized rs : forall qs, executed rs ->
  Forall (fun r => match d_data r with Some d => d < 2 ^ 64 | None => True end) rs ->
  Forall (fun r => q_data_addr_valid r = false -> q_data_addr r = 0) qs ->
  rebuilt rs qs -> Forall sized qs.
Proof.
  induction rs as [|r rs IH]; intros [|q qs] He Hd Hz Hq; cbn [rebuilt] in Hq; try contradiction; constructor.
  - destruct Hq as [(A1 & A2 & A3 & A4) _]. destruct He as ((S1 & S2 & S3 & _) & _).
    inversion Hz as [|? ? Hz1 _]; subst. inversion Hd as [|? ? Hd1 _]; subst.
    unfold sized. rewrite A1. split; [exact (proj1 A4)|]. split; [|split; [exact S3|]].
    + destruct (direct_dec (d_insn r)) as [D|D]; [|rewrite (A3 (or_intror D)); exact S2].
      apply opcd_nonzero. destruct A4 as (_ & _ & A4). unfold direct in *. rewrite (proj1 (A4 D)). exact D.
    + destruct (q_data_addr_valid q) eqn:E; [rewrite <- A2 in Hd1; exact Hd1|]. rewrite Hz1 by auto. reflexivity.
  - destruct Hq as [_ Hq]. destruct He as (_ & _ & He). inversion Hz; subst. inversion Hd; subst. now apply IH.
Qed.
Lemma rebuilt_same rs : forall qs, all_taken rs -> rebuilt rs qs ->
  map (fun q => (q_insn q, q_insn_addr q)) qs = map (fun r => (d_insn r, d_ea r)) rs /\
  map (fun q => optb (q_data_addr_valid q) (q_data_addr q)) qs = map d_data rs.
Proof.
  induction rs as [|r rs IH]; intros [|q qs] Ht Hq; cbn [rebuilt] in Hq; try contradiction; [split; reflexivity|].
  destruct Hq as [(A1 & A2 & A3 & A4) Hq]. destruct Ht as [T1 T2]. destruct (IH qs T2 Hq) as [I1 I2].
  cbn [map]. rewrite I1, I2, A1. split.
  - rewrite A3; [reflexivity|]. destruct (direct_dec (d_insn r)) as [D|D]; [left; exact (T1 D)|right; exact D].
  - unfold optb at 1. rewrite A2. reflexivity.
Qed.
Lemma rebuild_file g rs text slack : (forall r, g r < 2 ^ 64) -> rs <> [] -> executed rs -> all_taken rs ->
  Forall (fun r => match d_data r with Some d => d < 2 ^ 64 | None => True end) rs ->
  Forall2 assembled (map d_insn rs) text -> (4 <= length slack)%nat ->
  exists qs bytes,
    build g text (insnmap_of rs) (ldstmap_of rs) = BOk qs /\ write_trace 0 qs = inr bytes /\
    map (fun r => (q_insn (o_q r), q_insn_addr (o_q r))) (fst (read_trace false false slack bytes))
      = map (fun r => (d_insn r, d_ea r)) rs /\
    map (fun r => optb (q_data_addr_valid (o_q r)) (q_data_addr (o_q r))) (fst (read_trace false false slack bytes))
      = map d_data rs.
Proof.
  intros Hg Hne He Ht Hd Has Hsl. destruct (rebuild_ok g rs text Hg Hne He Has) as (qs & Eb & Hq).
  assert (Hsz := rebuilt_sized rs qs He Hd (build_zero _ _ _ _ _ Eb) Hq).
  destruct (bare_frames qs (Forall_and2 _ _ _ (build_bare _ _ _ _ _ Eb) Hsz)) as [Hf Hc].
  destruct (C02_count_and_addresses 0 qs slack ltac:(reflexivity) Hf Hc Hsl) as (bytes & E1 & E2 & E3 & E4).
  destruct (rebuilt_same rs qs Ht Hq) as [R1 R2].
  exists qs, bytes. rewrite E3, E4, R1, R2. repeat split; auto.
Qed.
