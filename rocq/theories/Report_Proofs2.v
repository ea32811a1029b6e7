(** Proofs for C82: the report of whole traces. *)
Require Import NArith ZArith List Bool Lia String.
Require Import ZifyBool ZifyN ZifyNat.
Require Import Verif.Word Verif.Codec_Types Verif.HtmBits_Spec Verif.Htm_Model Verif.Htm_Spec Verif.Htm_Proofs3.
Require Import Verif.Trace_Spec Verif.Trace10_Spec Verif.Trace_Proofs Verif.Trace8_Proofs Verif.Trace8_Proofs4 Verif.Trace10_Proofs6.
Require Verif.Trace10_Proofs6.
Require Import Verif.Flow_Spec.
Require Verif.Tlb_Model Verif.Tlb_Spec Verif.Tlb_Proofs Verif.Tlbdump_Model Verif.Tlbdump_Spec Verif.Tlbdump_Proofs4.
Require Import Verif.Report_Model Verif.Report_Spec Verif.Report_Proofs.
Import ListNotations.
Local Open Scope N_scope.

Lemma good_exit : forall h s, Tlbdump_Proofs4.good h s -> Tlbdump_Model.tlb_exit s = Tlb_Model.TOk tt.
Proof. intros h s (_ & _ & (l & k & W & SH & _) & _). exact (Tlb_Proofs.validate_ok s l k W SH). Qed.
Lemma plain_stamps : forall l : stamps, stamps_ok l -> Forall plain (map (fun p => EStamp (snd p)) l).
Proof. intros l H. induction H as [|p l [_ ST] _ IH]; constructor; [exists (fst p); exact ST|exact IH]. Qed.
Lemma plain_part : forall o P, part_ok o P -> Forall plain (map (fun p => EStamp (snd p)) (part_stamps o)).
Proof. intros [[st w]|] P OK; [|constructor]. apply plain_stamps, OK. Qed.
Lemma plain8 : forall l pre prev, trace8_ok prev l -> Forall plain (records8 pre prev l).
Proof.
  induction l as [|x l IH]; intros pre prev OK; [constructor|]. destruct OK as [O1 O2].
  destruct x as [w r|i|w|w]; cbn [records8].
  - constructor; [exists w; apply O1|]. apply IH, O2.
  - apply Forall_app. split.
    + destruct O1 as (_ & _ & _ & _ & _ & P1 & P2 & P3 & P4). unfold insn_stamps. rewrite !map_app, !Forall_app.
      repeat split; eapply plain_part; eassumption.
    + constructor; [exact I|]. apply IH, O2.
  - apply IH, O2.
  - apply IH, O2.
Qed.
Lemma plain10 : forall full tb l z, trace10_by full tb z l -> Forall plain (records10 full z l).
Proof.
  intros full tb. induction l as [|x l IH]; intros z OK; [constructor|]. destruct OK as [O1 O2]. cbn [records10].
  apply Forall_app. split; [|apply IH, O2]. destruct x as [w r|i|w].
  - constructor; [exists w; apply O1|constructor].
  - apply Forall_app. split.
    + destruct O1 as [F _]. apply plain_stamps. unfold stamps_ok, stamps_of. rewrite Forall_flat_map.
      eapply Forall_impl; [|exact F]. intros p H. apply H.
    + unfold record_of10. destruct (t_prefix i); repeat constructor.
  - constructor.
Qed.
Lemma words8_64 : forall l prev, trace8_ok prev l -> Forall (fun w => w < 2 ^ 64) (flat_map words8 l).
Proof.
  induction l as [|x l IH]; intros prev OK; [constructor|].
  cbn [trace8_ok] in OK. destruct OK as [O1 O2]. cbn [flat_map]. apply Forall_app. split; [|eapply IH; exact O2].
  assert (PW : forall o P, part_ok o P -> Forall (fun w => w < 2 ^ 64) (part_words o)).
  { intros [[st w]|] P H; [|constructor]. destruct H as (S1 & (U & _) & _). cbn [part_words]. apply Forall_app.
    split; [|repeat constructor; exact U]. clear - S1. induction S1 as [|p st [H _] _ IH]; constructor; assumption. }
  destruct x as [w r|i|w|w]; cbn [words8]; try (repeat constructor; apply O1).
  destruct O1 as (_ & RAW & _ & X33 & X62 & OI & OR & OD & OX). 
  destruct (info_decoded i RAW X33 X62) as (_ & _ & _ & L).
  constructor; [exact L|]. repeat (apply Forall_app; split); eapply PW; eassumption.
Qed.
Lemma words10_64 : forall full tb l z, trace10_by full tb z l -> Forall (fun w => w < 2 ^ 64) (file10 full z l).
Proof.
  intros full tb. induction l as [|x l IH]; intros z OK; [constructor|].
  destruct OK as [O1 O2]. cbn [file10]. apply Forall_app. split; [|apply IH, O2].
  destruct x as [w r|i|w]; cbn [words10]; try (repeat constructor; apply O1). apply Trace10_Proofs6.swords64. apply O1.
Qed.
Lemma none10 : forall full l z, Forall (fun e => counted (fst e)) (events10 full z l).
Proof.
  assert (ST : forall r, Forall (fun e => counted (fst e)) (stamp_events r)).
  { intros r. unfold stamp_events. constructor; [split; discriminate|].
    destruct r as [| | | | |t|]; try constructor. destruct t; repeat constructor; try discriminate. }
  assert (SS : forall l, Forall (fun e => counted (fst e)) (stamps_events l)).
  { intros l. unfold stamps_events. rewrite Forall_flat_map. apply Forall_forall. intros p _. apply ST. }
  intros full. induction l as [|x l IH]; intros z; [constructor|]. cbn [events10]. apply Forall_app. split; [|apply IH].
  destruct x as [w r|i|w]; [apply ST| |constructor].
  unfold insn10_events. rewrite !Forall_app. split; [repeat constructor; discriminate|].
  split; [repeat constructor; discriminate|]. split; [apply SS|].
  destruct (full && _); [|constructor]. rewrite Forall_app. split.
  - unfold i_events. repeat match goal with |- context [match ?x with _ => _ end] => destruct x end;
      repeat constructor; discriminate.
  - unfold d_events. repeat match goal with |- context [match ?x with _ => _ end] => destruct x end;
      repeat constructor; discriminate.
Qed.
Lemma uncounted : forall c l, Forall (fun e => counted (fst e)) l -> ~ counted c -> count_of c l = 0.
Proof.
  intros c l F N. induction F as [|e l C _ IH]; [reflexivity|]. unfold count_of in *. cbn [map fold_right]. rewrite IH.
  destruct (ctr_dec (fst e) c) as [E|E]; [rewrite E in C; contradiction|reflexivity].
Qed.

Notation text_of := (whole_text Tlbdump_Model.dec Tlbdump_Model.dec02 pd Tlbdump_Model.hex8 Tlbdump_Model.hex16).
Lemma printed : forall debug detail es s ws counts h,
  Forall plain es -> Forall2 tells es (h_out s) ->
  c_sum (h_cur s) = checksum ws -> c_scanned (h_cur s) = N.of_nat (List.length ws) mod 2 ^ 32 ->
  (forall c, h_stat s c = counts c mod 2 ^ 32) -> Tlbdump_Proofs4.good h (h_tlb s) ->
  exists rows, Tlbdump_Spec.table h rows /\
    htmdecoder_text debug detail s = Tlb_Model.TOk (text_of debug detail es ws counts h rows).
Proof.
  intros debug detail es s ws counts h P T E1 E2 E3 G.
  destruct (Tlbdump_Proofs4.good_dump _ _ G) as (rows & TB & D). exists rows. split; [exact TB|].
  unfold htmdecoder_text, whole_text. rewrite (records_text debug detail es _ P T), orb_comm.
  destruct (debug || detail); [|rewrite app_nil_r; reflexivity].
  rewrite D, (counts_printed s ws counts E1 E2 E3). reflexivity.
Qed.
Lemma tells_told : forall J l l', Forall2 (told J) l l' -> Forall2 tells l l'.
Proof. intros J l l' F. induction F as [|e r l l' [H _] _ IH]; constructor; assumption. Qed.

Lemma report8 : forall qs stale junk (full bad debug detail : bool) items,
  Tlb_Spec.sorter qs -> (forall z, List.length (stale z) = 8%nat) ->
  let ws := flat_map words8 items in
  let h : list Tlb_Model.op := if full then pages8 0 items else [] in
  (Z.of_nat (List.length ws) < 2 ^ 30)%Z -> trace8_ok 0 items ->
  (full = true -> Tlb_Spec.no_mixed_overlap (pages8 0 items) /\ Tlb_Spec.top_unused [] (pages8 0 items)) ->
  bad = true \/ other (be_val (stale (Z.of_nat (List.length ws)))) ->
  exists s rows, Tlbdump_Model.htm_decode_exit qs stale junk full (bytes_of ws) bad = HOk s /\
    Tlbdump_Spec.table h rows /\
    htmdecoder_text debug detail s = Tlb_Model.TOk
      (text_of debug detail (if full then records8 [] 0 items else []) (read_words stale bad ws)
               (counts8 full items) h rows).
Proof.
  intros qs stale junk full bad debug detail items QS SL ws h SM OK PG OT.
  destruct (trace8_all qs stale junk full bad (fun _ => True) items (fun _ _ _ _ _ => I) QS SL SM OK PG OT)
    as (s & H1 & H2 & _ & _ & H5 & H6 & H7 & H8).
  pose proof (decode_words qs stale junk full (bytes_of ws) bad SL) as W. fold ws in H1. rewrite H1 in W.
  destruct W as (_ & W2 & W3 & _).
  pose proof (words8_64 _ _ OK) as W64. fold ws in W64.
  rewrite (words_read stale) in W2. rewrite (sum_read stale bad ws SL W64) in W3.
  destruct (printed debug detail (if full then records8 [] 0 items else []) s (read_words stale bad ws) (counts8 full items) h)
    as (rows & TB & E).
  - destruct full; [apply plain8, OK|constructor].
  - eapply tells_told, H2.
  - exact W3.
  - exact W2.
  - intros c. destruct c; try (apply H5; split; discriminate); [exact H6|exact H7].
  - exact H8.
  - exists s, rows. split; [|split; [exact TB|exact E]].
    unfold Tlbdump_Model.htm_decode_exit. rewrite H1, (good_exit _ _ H8). reflexivity.
Qed.
Lemma report10 : forall qs stale junk (full bad debug detail : bool) items,
  (forall z, List.length (stale z) = 8%nat) ->
  let ws := file10 full start10 items in
  (Z.of_nat (List.length ws) < 2 ^ 30)%Z -> trace10_ok full start10 items ->
  bad = true \/ other (be_val (stale (Z.of_nat (List.length ws)))) ->
  exists s, Tlbdump_Model.htm_decode_exit qs stale junk full (bytes_of ws) bad = HOk s /\
    htmdecoder_text debug detail s = Tlb_Model.TOk
      (text_of debug detail (if full then records10 full start10 items else []) (read_words stale bad ws)
               (counts10 full items) [] []).
Proof.
  intros qs stale junk full bad debug detail items SL ws SM OK OT.
  destruct (trace10_all qs stale junk full bad (fun _ => True) items (fun _ _ _ _ _ _ _ _ _ _ _ _ _ => I)
              (fun _ _ => I) SL SM OK OT) as (s & H1 & H2 & _ & _ & H5 & H6).
  pose proof (decode_words qs stale junk full (bytes_of ws) bad SL) as W. fold ws in H1. rewrite H1 in W.
  destruct W as (_ & W2 & W3 & _). destruct OK as (tb & _ & OK).
  pose proof (words10_64 full tb _ _ OK) as W64. fold ws in W64.
  rewrite (words_read stale) in W2. rewrite (sum_read stale bad ws SL W64) in W3.
  destruct (printed debug detail (if full then records10 full start10 items else []) s (read_words stale bad ws) (counts10 full items) [])
    as (rows & TB & E).
  - destruct full; [eapply plain10, OK|constructor].
  - eapply tells_told, H2.
  - exact W3.
  - exact W2.
  - intros c. rewrite H5. destruct c; try reflexivity; cbn [counts10]; rewrite uncounted; try reflexivity;
      try apply none10; intros [A B]; contradiction.
  - exact H6.
  - exists s. split.
    + unfold Tlbdump_Model.htm_decode_exit. rewrite H1, (good_exit _ _ H6). reflexivity.
    + assert (R : rows = []); [|rewrite R in E; exact E].
      destruct rows as [|x rows]; [reflexivity|]. destruct TB as [_ TB]. pose proof (proj1 (TB x) (or_introl eq_refl)) as X.
      discriminate X.
Qed.

(** ** The counts of jumps *)
Lemma number_app : forall {A} (f : A -> bool) l l', number f (l ++ l') = number f l + number f l'.
Proof. intros. unfold number. rewrite filter_app, app_length. lia. Qed.
Lemma interrupts_le_at : forall l p loose leaves, (loose = false -> leaves = false) ->
  number (fun x => negb (snd x) && vector (fst x)) (landings p loose l) <= jumps vector p leaves l.
Proof.
  induction l as [|[a lv] l IH]; intros p loose leaves L; [unfold number; cbn; lia|]. cbn [landings jumps]. rewrite number_app.
  assert (IH' := IH a (lv || elsewhere p a) lv).
  assert (X : lv || elsewhere p a = false -> lv = false) by (destruct lv; [discriminate|reflexivity]).
  specialize (IH' X). destruct (elsewhere p a); [|unfold number at 1; cbn in *; lia].
  unfold number at 1. cbn [filter fst snd app List.length andb]. destruct loose; cbn [negb andb].
  - cbn [List.length]. lia.
  - rewrite (L eq_refl). cbn [negb andb]. destruct (vector a); cbn [List.length]; lia.
Qed.
Lemma interrupts_le : forall l, interrupts l <= jumps vector 0 false l.
Proof. intros l. apply interrupts_le_at. intros; reflexivity. Qed.
Lemma interrupts_eq_at : forall l p landed leaves, settled p landed l ->
  number (fun x => negb (snd x) && vector (fst x)) (landings p (leaves || landed) l) = jumps vector p leaves l.
Proof.
  induction l as [|[a lv] l IH]; intros p landed leaves ST; [reflexivity|]. destruct ST as [S1 S2]. cbn [landings jumps]. rewrite number_app.
  rewrite (IH a (elsewhere p a) lv S2). f_equal. destruct (elsewhere p a) eqn:E; [|reflexivity].
  destruct landed; [specialize (S1 eq_refl); discriminate|]. rewrite orb_false_r. unfold number. cbn [filter fst snd andb].
  destruct leaves, (vector a); reflexivity.
Qed.
Lemma interrupts_eq : forall l, settled 0 false l -> interrupts l = jumps vector 0 false l.
Proof. intros l S. exact (interrupts_eq_at l 0 false false S). Qed.
Lemma no_data_pages : forall full items n, counts8 full items (DataPages n) = 0.
Proof.
  intros full items n. cbn [counts8].
  assert (AD : forall l l', count_of (DataPages n) (l ++ l') = count_of (DataPages n) l + count_of (DataPages n) l').
  { induction l as [|x l IH]; intros l'; [reflexivity|]. unfold count_of in *. cbn [app map fold_right]. rewrite IH. lia. }
  assert (ST : forall r, count_of (DataPages n) (stamp_events r) = 0) by (intros [| | | | |[]|]; reflexivity).
  assert (SS : forall l, count_of (DataPages n) (stamps_events l) = 0).
  { induction l as [|x l IH]; [reflexivity|]. unfold stamps_events. cbn [flat_map]. rewrite AD, ST. exact IH. }
  induction items as [|x l IH]; [reflexivity|]. cbn [flat_map]. rewrite AD, IH, N.add_0_r. clear IH.
  destruct x as [w r|i|w|w]; cbn [events8]; try reflexivity; [apply ST|].
  unfold insn_events. rewrite !AD, SS.
  destruct (s_ira i) as [[? ?]|], (s_dra i) as [[? ?]|], full, (s_esid i); reflexivity.
Qed.
