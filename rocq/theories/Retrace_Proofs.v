(** Proofs for C77. *)
Require Import NArith ZArith List Bool Lia.
Require Import Verif.Word Verif.Codec_Types Verif.Codec_Spec Verif.HtmBits_Spec Verif.Reader_Model.
Require Import Verif.Pwc_Model Verif.Pwc_Spec Verif.Xlate_Model Verif.Xlate_Spec.
Require Import Verif.Htm_Model Verif.Trace_Spec Verif.Trace10_Spec Verif.Trace10_Proofs6 Verif.Retrace_Spec.
Require Import Verif.Convert_Model Verif.Convert_Spec Verif.Convert_Proofs3.
Require Verif.Tlb_Model Verif.Bb_Model Verif.Resume_Spec.
Import ListNotations.
Local Open Scope N_scope.

Definition same_given (g g' : option xl) : Prop :=
  match g, g' with Some y, Some y' => y_walk y = y_walk y' | None, None => True | _, _ => False end.
Lemma walk_for_same : forall l l' r, Forall2 same_xl l l' -> same_given (walk_for l r) (walk_for l' r).
Proof.
  intros l l' r F. unfold walk_for. induction F as [|y y' l l' (E & N0 & _) F IH]; [exact I|]. cbn [find].
  rewrite <- N0. destruct (ends_at r y); [exact E|exact IH].
Qed.
Lemma stamps_same : forall l l', Forall2 same_xl l l' -> stamps_of (flat_map xl_words l) = stamps_of (flat_map xl_words l').
Proof.
  assert (A : forall a b, stamps_of (a ++ b) = stamps_of a ++ stamps_of b) by (intros; apply flat_map_app).
  intros l l' F. induction F as [|y y' l l' (_ & _ & E) F IH]; [reflexivity|]. cbn [flat_map]. rewrite !A, E, IH. reflexivity.
Qed.
Lemma translate_same : forall h hv reloc g g' a r, same_given g g' -> translate h hv reloc g a r = translate h hv reloc g' a r.
Proof. intros h hv reloc [y|] [y'|] a r G; cbn in G; try contradiction; [|reflexivity]. cbn [translate]. rewrite G. reflexivity. Qed.

Definition same_st (z z' : st10) : Prop :=
  z_ea z = z_ea z' /\ z_ra z = z_ra z' /\ z_walks z = z_walks z' /\ z_seen z = z_seen z' /\ z_cur z = z_cur z'.

Section SAME.
  Variables i i' : insn10.
  Variables z z' : st10.
  Hypothesis HI : same_insn i i'.
  Hypothesis HZ : same_st z z'.
  Lemma ea_same : ea10 i z = ea10 i' z'.
  Proof.
    destruct HI as (_ & E1 & _ & _ & _ & _ & _ & E2 & _). destruct HZ as (E3 & _).
    unfold ea10, addr10, line10. rewrite E1, E2, E3. reflexivity.
  Qed.
  Lemma ra_same : ra10 i z = ra10 i' z'.
  Proof.
    destruct HI as (_ & E1 & _). destruct HZ as (_ & E3 & _). unfold ra10, page10. rewrite E1, E3. reflexivity.
  Qed.
  Lemma walks_same : walks10 i z = walks10 i' z'.
  Proof.
    destruct HI as (F1 & _ & F2 & _). destruct HZ as (_ & _ & E3 & _). unfold walks10. rewrite E3. f_equal.
    destruct F1; [destruct F2|]; reflexivity.
  Qed.
  Lemma bits_same : t_hv i = t_hv i' /\ t_ir i = t_ir i' /\ t_dr i = t_dr i'.
  Proof.
    destruct HI as (_ & _ & _ & _ & _ & _ & _ & _ & _ & E & _). unfold t_hv, t_ir, t_dr. rewrite E. auto.
  Qed.
  Lemma i_given_same : same_given (i_given i z) (i_given i' z').
  Proof.
    unfold i_given. rewrite <- ra_same. destruct HI as (F1 & E1 & _). rewrite <- E1. destruct (t_addr i); [|exact I].
    apply walk_for_same. exact F1.
  Qed.
  Lemma i_trans_same : i_trans i z = i_trans i' z'.
  Proof.
    unfold i_trans. rewrite <- ea_same, <- ra_same. destruct bits_same as (<- & <- & _). destruct HZ as (_ & _ & _ & <- & _).
    apply translate_same, i_given_same.
  Qed.
  Lemma d_given_same : forall p, same_given (d_given i p) (d_given i' p).
  Proof. intros p. unfold d_given. apply walk_for_same. apply HI. Qed.
  Lemma d_trans_same : forall h p, d_trans i h p = d_trans i' h p.
  Proof. intros h p. unfold d_trans. destruct bits_same as (<- & _ & <-). apply translate_same, d_given_same. Qed.
  Lemma cur_same : cur10 i z = cur10 i' z'.
  Proof.
    unfold cur10, inside. rewrite <- i_trans_same, <- ea_same. destruct bits_same as (<- & <- & _).
    destruct HI as (_ & <- & _). destruct HZ as (_ & _ & _ & _ & <-). reflexivity.
  Qed.
  Lemma seen_i_same : seen_i i z = seen_i i' z'.
  Proof.
    unfold seen_i. rewrite <- i_trans_same. destruct HI as (_ & <- & _). destruct HZ as (_ & _ & _ & <- & _). reflexivity.
  Qed.
  Lemma data_same : data10 i = data10 i' /\ t_esid i = t_esid i' /\ t_data i = t_data i'.
  Proof.
    destruct HI as (_ & _ & _ & _ & _ & _ & _ & _ & E1 & _ & _ & E2). unfold data10. rewrite E1, E2. auto.
  Qed.
  Lemma seen_same : seen10 i z = seen10 i' z'.
  Proof.
    unfold seen10. destruct data_same as (_ & <- & <-). rewrite <- seen_i_same. destruct (t_esid i); [reflexivity|].
    generalize (seen_i i z). induction (t_data i) as [|p l IH]; intros h; [reflexivity|]. cbn [fold_left].
    rewrite d_trans_same. apply IH.
  Qed.
  Lemma dtrans_same : dtrans10 i z = dtrans10 i' z'.
  Proof.
    unfold dtrans10. destruct data_same as (<- & _). destruct (data10 i); [|reflexivity]. rewrite seen_i_same, d_trans_same. reflexivity.
  Qed.
  Lemma next_same : forall full, same_st (next10 i z full) (next10 i' z' full).
  Proof.
    intros full. unfold next10. destruct full; unfold same_st; cbn [z_ea z_ra z_walks z_seen z_cur];
      rewrite ea_same, ra_same, walks_same; repeat (split; [reflexivity|]).
    - split; [apply seen_same|apply cur_same].
    - split; apply HZ.
  Qed.
  Lemma stamps_insn_same : stamps_of (insn10_words i (z_ea z)) = stamps_of (insn10_words i' (z_ea z')).
  Proof.
    assert (A : forall a b, stamps_of (a ++ b) = stamps_of a ++ stamps_of b) by (intros; apply flat_map_app).
    destruct HI as (F1 & E1 & F2 & E2 & E3 & E4 & E5 & E6 & E7 & E8 & E9 & E10).
    unfold insn10_words. rewrite !A. rewrite (stamps_same _ _ F1), (stamps_same _ _ F2). unfold addr_words, prefix_words.
    rewrite E1, E9, E10. do 3 f_equal. f_equal. unfold info10_word, stamps_of. cbn [flat_map fst]. rewrite E2, E8. reflexivity.
  Qed.
  Lemma record_same : record_of10 i z = record_of10 i' z'.
  Proof.
    unfold record_of10. rewrite <- cur_same, <- dtrans_same, <- ea_same, <- ra_same.
    destruct data_same as (<- & <- & _). destruct HI as (_ & _ & _ & _ & <- & _ & <- & _ & _ & _ & <- & _). reflexivity.
  Qed.
  Lemma events_insn_same : forall full, insn10_events i z full = insn10_events i' z' full.
  Proof.
    intros full. unfold insn10_events. rewrite <- stamps_insn_same, <- walks_same. do 3 f_equal.
    destruct (full && walks10 i z); [|reflexivity]. f_equal.
    - unfold i_events, inside. rewrite <- i_trans_same. destruct bits_same as (<- & <- & _). pose proof i_given_same as G.
      destruct HI as (_ & <- & _). destruct HZ as (_ & _ & _ & _ & <-). destruct (t_addr i); [|reflexivity].
      destruct (i_given i z), (i_given i' z'); cbn in G; try contradiction; [rewrite G|]; reflexivity.
    - unfold d_events. destruct data_same as (<- & _). destruct (data10 i) as [p|]; [|reflexivity].
      rewrite <- seen_i_same, <- d_trans_same. pose proof (d_given_same p) as G.
      destruct (d_given i p), (d_given i' p); cbn in G; try contradiction; [rewrite G|]; reflexivity.
  Qed.
End SAME.

Lemma items_same : forall full l l', Forall2 same_item l l' -> forall z z', same_st z z' ->
  records10 full z l = records10 full z' l' /\ insns10 full z l = insns10 full z' l'
  /\ events10 full z l = events10 full z' l'.
Proof.
  intros full l l' F. induction F as [|x x' l l' X F IH]; intros z z' HZ; [repeat split|].
  assert (N0 : same_st (step10 full z x) (step10 full z' x')).
  { destruct x, x'; cbn in X; try contradiction; cbn [step10]; try exact HZ. apply next_same; assumption. }
  destruct (IH _ _ N0) as (I1 & I2 & I3). cbn [records10 insns10 events10]. rewrite I1, I2, I3.
  destruct x as [w r|i|w], x' as [w' r'|i'|w']; cbn in X; try contradiction.
  - destruct X as [-> ->]. repeat split.
  - rewrite (stamps_insn_same i i' z z' X), (record_same i i' z z' X HZ), (ea_same i i' z z' X HZ),
      (events_insn_same i i' z z' X HZ full). 
    destruct X as (_ & _ & _ & _ & <- & _). repeat split.
  - repeat split.
Qed.
Lemma start_same : same_st start10 start10. Proof. repeat split. Qed.

Lemma worded_same : forall l l', Forall2 same_item l l' -> Forall worded10 l -> Forall worded10 l'.
Proof.
  intros l l' F. induction F as [|x x' l l' X F IH]; intros W; [constructor|]. inversion W as [|? ? W1 W2]; subst.
  constructor; [|apply IH; exact W2].
  destruct x as [w r|i|w], x' as [w' r'|i'|w']; cbn in X; try contradiction; cbn [worded10] in *; try exact W1.
  destruct X as (_ & _ & _ & _ & E1 & _ & _ & _ & _ & _ & E2 & _). rewrite <- E1, <- E2. exact W1.
Qed.

Lemma same_decoded : forall qs stale junk full bad items items',
  (forall z, length (stale z) = 8%nat) -> Forall2 same_item items items' ->
  let ws := file10 full start10 items in
  let ws' := file10 full start10 items' in
  (Z.of_nat (length ws) < 2 ^ 30)%Z -> (Z.of_nat (length ws') < 2 ^ 30)%Z ->
  trace10_ok full start10 items -> trace10_ok full start10 items' ->
  bad = true \/ other (be_val (stale (Z.of_nat (length ws)))) /\ other (be_val (stale (Z.of_nat (length ws')))) ->
  exists s s' es, htm_decode qs stale junk full (bytes_of ws) bad = HOk s
    /\ htm_decode qs stale junk full (bytes_of ws') bad = HOk s'
    /\ Forall2 tells es (h_out s) /\ Forall2 tells es (h_out s')
    /\ h_log s = h_log s' /\ h_bb s = h_bb s'
    /\ (forall c, counted c -> h_stat s c = h_stat s' c).
Proof.
  intros qs stale junk full bad items items' SL F ws ws' S1 S2 O1 O2 OT.
  destruct (trace10 qs stale junk full bad items SL S1 O1) as (s & E1 & T1 & L1 & B1 & C1); [tauto|].
  destruct (trace10 qs stale junk full bad items' SL S2 O2) as (s' & E2 & T2 & L2 & B2 & C2); [tauto|].
  destruct (items_same full items items' F start10 start10 start_same) as (R & I & V).
  exists s, s', (if full then records10 full start10 items else []). split; [exact E1|]. split; [exact E2|].
  split; [exact T1|]. split; [rewrite R; exact T2|]. split; [rewrite L1, L2; exact I|].
  split; [rewrite I in B1; rewrite B1 in B2; injection B2 as ->; reflexivity|].
  intros c C. rewrite (C1 c C), (C2 c C), V. reflexivity.
Qed.
Lemma same_converted : forall qs stale junk bad items items' slack, (forall n, quiet10 (junk n)) ->
  (forall z, length (stale z) = 8%nat) -> Forall2 same_item items items' ->
  let ws := file10 true start10 items in
  let ws' := file10 true start10 items' in
  (Z.of_nat (length ws) < 2 ^ 30)%Z -> (Z.of_nat (length ws') < 2 ^ 30)%Z ->
  trace10_ok true start10 items -> trace10_ok true start10 items' -> Forall worded10 items ->
  bad = true \/ other (be_val (stale (Z.of_nat (length ws)))) /\ other (be_val (stale (Z.of_nat (length ws')))) ->
  (4 <= length slack)%nat ->
  exists file file' l, htmdecoder qs stale junk (bytes_of ws) bad = COk file
    /\ htmdecoder qs stale junk (bytes_of ws') bad = COk file'
    /\ converted l (map view_of (fst (read_trace false false slack file)))
    /\ converted l (map view_of (fst (read_trace false false slack file')))
    /\ snd (read_trace false false slack file) = EndFalse /\ snd (read_trace false false slack file') = EndFalse.
Proof.
  intros qs stale junk bad items items' slack Q SL F ws ws' S1 S2 O1 O2 W OT LS.
  destruct (convert10 qs stale junk bad items slack Q SL S1 O1 W) as (f & E1 & T1 & D1); [tauto|exact LS|].
  destruct (convert10 qs stale junk bad items' slack Q SL S2 O2 (worded_same _ _ F W)) as (f' & E2 & T2 & D2); [tauto|exact LS|].
  destruct (items_same true items items' F start10 start10 start_same) as (R & _).
  exists f, f', (flat_map given_of (records10 true start10 items)). split; [exact E1|]. split; [exact E2|].
  split; [exact T1|]. split; [rewrite R; exact T2|]. split; assumption.
Qed.

(** Where the walk of an instruction is from. *)
Lemma resumed_walk : forall T i z full y, Resume_Spec.tables_ok T -> insn10_ok i z (Some T) full -> full = true ->
  i_given i z = Some y -> t_esid i = false ->
  let q := asked y (ea10 i z) in
  record_of10 i z <> []
  /\ match record_of10 i z with
     | EInsn10 _ _ ira _ _ _ _ gips _ iwalk _ :: _ =>
         iwalk = Some (fw_radix (Resume_Spec.whole_walk T q))
         /\ ira = Some (ra10 i z + ea10 i z mod 4096, Resume_Spec.shift_at T (Resume_Spec.rq_final q))
         /\ gips = Some (Resume_Spec.shift_at T (Resume_Spec.rq_guest q))
     | _ => False
     end.
Proof.
  intros T i z full y HT OK -> G ES q. 
  destruct OK as (_ & _ & _ & _ & _ & _ & _ & _ & _ & _ & _ & _ & _ & _ & _ & _ & W). destruct (W eq_refl) as (GO & _). clear W.
  rewrite G in GO. destruct GO as (_ & _ & _ & Q & WW & _). fold q in Q, WW.
  destruct (Trace10_Proofs3.whole_shifts T q Q) as [S1 S2].
  pose proof (Resume_Proofs3.shift_at_ok T HT (Resume_Spec.rq_final q)) as K1.
  pose proof (Resume_Proofs3.shift_at_ok T HT (Resume_Spec.rq_guest q)) as K2.
  assert (A : t_addr i <> None) by (intros X; unfold i_given in G; rewrite X in G; discriminate).
  assert (C : cur10 i z = (fw_radix (Resume_Spec.whole_walk T q), Resume_Spec.shift_at T (Resume_Spec.rq_final q), Resume_Spec.shift_at T (Resume_Spec.rq_guest q))).
  { unfold cur10, i_trans. rewrite G. destruct (t_addr i); [|contradiction]. cbn [translate snd or_none]. rewrite WW, S1, S2. reflexivity. }
  unfold record_of10. rewrite C, ES. cbn [real10 guest10 walk10].
  assert (N1 : Resume_Spec.shift_at T (Resume_Spec.rq_final q) =? 0 = false) by (destruct K1 as [->|[->|[->| ->]]]; reflexivity).
  assert (N2 : Resume_Spec.shift_at T (Resume_Spec.rq_guest q) =? 0 = false) by (destruct K2 as [->|[->|[->| ->]]]; reflexivity).
  rewrite N1, N2. destruct (t_prefix i); cbn; (split; [discriminate|auto]).
Qed.
