(** Proofs for C82. *)
Require Import NArith ZArith List Bool Lia String.
Require Import ZifyBool ZifyN ZifyNat.
Require Import Verif.Word Verif.Codec_Types Verif.HtmBits_Spec Verif.Htm_Model Verif.Htm_Spec Verif.Htm_Proofs3.
Require Import Verif.Trace_Spec Verif.Trace10_Spec Verif.Trace_Proofs Verif.Trace8_Proofs Verif.Trace8_Proofs4 Verif.Trace10_Proofs6.
Require Verif.Trace10_Proofs.
Require Import Verif.Flow_Spec.
Require Verif.Tlb_Model Verif.Tlb_Spec Verif.Tlbdump_Model Verif.Tlbdump_Spec Verif.Tlbdump_Proofs4.
Require Import Verif.Report_Model Verif.Report_Spec.
Import ListNotations.
Local Open Scope N_scope.

(** ** Words of the file *)
Lemma skip_words : forall ws i, skipn (8 * i) (bytes_of ws) = bytes_of (skipn i ws).
Proof.
  induction ws as [|w ws IH]; intros i; [now rewrite !skipn_nil|]. destruct i as [|i]; [reflexivity|].
  unfold bytes_of. cbn [flat_map skipn]. rewrite skipn_app, be8_length.
  replace (8 * S i - 8)%nat with (8 * i)%nat by lia.
  rewrite (skipn_all2 (be8 w)) by (rewrite be8_length; lia). apply IH.
Qed.
Lemma skip_nth : forall (ws : list N) i d, (i < List.length ws)%nat -> skipn i ws = nth i ws d :: skipn (S i) ws.
Proof.
  induction ws as [|w ws IH]; intros i d L; cbn [List.length] in L; [lia|].
  destruct i as [|i]; [reflexivity|]. cbn [skipn nth]. rewrite (IH i d) by lia. destruct ws; reflexivity.
Qed.
Lemma bytes_length : forall ws, List.length (bytes_of ws) = (8 * List.length ws)%nat.
Proof.
  induction ws as [|w ws IH]; [reflexivity|]. unfold bytes_of in *. cbn [flat_map List.length].
  rewrite app_length, be8_length, IH. lia.
Qed.
Section READ.
  Variables (stale : Z -> list N) (bad : bool) (ws : list N).
  Hypothesis stale_len : forall z, List.length (stale z) = 8%nat.
  Hypothesis w64 : Forall (fun w => w < 2 ^ 64) ws.
  Lemma words_read : words (bytes_of ws) bad = List.length (read_words stale bad ws).
  Proof.
    unfold words, total, read_words. rewrite bytes_length, app_length. destruct bad; cbn [List.length].
    - rewrite Nat.mul_comm, Nat.div_mul by lia. lia.
    - rewrite Nat.mul_comm, Nat.div_add_l by lia. change (7 / 8)%nat with 0%nat. lia.
  Qed.
  Lemma word_read : forall i, (i < List.length (read_words stale bad ws))%nat ->
    word_at (bytes_of ws) stale i = nth i (read_words stale bad ws) 0.
  Proof.
    intros i L. unfold word_at, padded, chunk. rewrite skip_words.
    destruct (le_lt_dec (List.length ws) i) as [G|G].
    - rewrite (skipn_all2 _ G). cbn [bytes_of flat_map firstn app List.length skipn].
      unfold read_words in *. rewrite app_nth2 by lia. rewrite app_length in L.
      destruct bad; cbn [List.length] in L; [lia|]. replace (i - List.length ws)%nat with 0%nat by lia.
      cbn [nth]. replace i with (List.length ws) by lia. reflexivity.
    - rewrite (skip_nth ws i 0 G). unfold bytes_of. cbn [flat_map].
      rewrite firstn_app, be8_length, Nat.sub_diag, firstn_O, app_nil_r, firstn_all2 by (rewrite be8_length; lia).
      rewrite be8_length, skipn_all2 by (rewrite stale_len; lia). rewrite app_nil_r, be8_val.
      + unfold read_words. rewrite app_nth1 by lia. reflexivity.
      + rewrite Forall_forall in w64. apply w64, nth_In, G.
  Qed.
  Lemma sums : forall n, (n <= List.length (read_words stale bad ws))%nat ->
    sum_to (bytes_of ws) stale n = checksum (firstn n (read_words stale bad ws)).
  Proof.
    induction n as [|n IH]; intros L; [reflexivity|]. cbn [sum_to]. rewrite IH, word_read by lia.
    assert (E : firstn (S n) (read_words stale bad ws) = firstn n (read_words stale bad ws) ++ [nth n (read_words stale bad ws) 0]).
    { revert L. generalize (read_words stale bad ws). clear. intros l. revert n.
      induction l as [|x l IH]; intros [|n] L; cbn [List.length] in L; try lia; [reflexivity|].
      cbn [firstn nth app]. f_equal. apply (IH n). lia. }
    rewrite E. unfold checksum. rewrite map_app, fold_right_app. cbn [map fold_right].
    assert (A : forall l a, fold_right N.add a l = fold_right N.add 0 l + a).
    { clear. induction l as [|x l IH]; intros a; cbn [fold_right]; [lia|]. rewrite IH. lia. }
    rewrite (A _ (_ + 0)), N.add_0_r, N.add_mod_idemp_l by discriminate. reflexivity.
  Qed.
  Lemma sum_read : sum_to (bytes_of ws) stale (words (bytes_of ws) bad) = checksum (read_words stale bad ws).
  Proof. rewrite words_read, sums by lia. rewrite firstn_all. reflexivity. Qed.
End READ.

(** ** Lines *)
Definition plain (e : erec) : Prop := match e with EStamp r => exists w, stamp w r | _ => True end.
Lemma pd_small : forall n, n < 2 ^ 31 -> pd n = Tlbdump_Model.dec n.
Proof. intros n L. unfold pd. apply N.ltb_lt in L. rewrite L. reflexivity. Qed.
Lemma small : forall w s e, s <= e -> e - s < 30 -> field 64 w s e < 2 ^ 31.
Proof.
  intros w s e L K. eapply N.lt_le_trans; [apply field_lt|]. apply N.pow_le_mono_r; [discriminate|lia].
Qed.
Ltac shorten := rewrite ?pd_small by (first [apply small; reflexivity || discriminate | reflexivity]).
Lemma stamp_text : forall detail w r, stamp w r ->
  print_record true detail r = stamp_line Tlbdump_Model.dec r.
Proof.
  intros detail w r ST. destruct ST as [H|H|H|H1 H2|H|H1 H2]; unfold stamp_line; cbn [print_record].
  - rewrite pd_small by (apply small; [discriminate|reflexivity]). reflexivity.
  - rewrite pd_small by (apply small; [discriminate|reflexivity]). reflexivity.
  - rewrite pd_small by (apply small; [discriminate|reflexivity]). reflexivity.
  - rewrite !pd_small by (first [apply small; [discriminate|reflexivity] | destruct (ibm_bit 64 w 63); reflexivity]).
    rewrite <- !app_assoc. destruct (ibm_bit 64 w 63); reflexivity.
  - reflexivity.
  - assert (N1 : pd (field 64 w 36 63) = Tlbdump_Model.dec (field 64 w 36 63))
      by (apply pd_small, small; [discriminate|reflexivity]).
    assert (N2 : pd (field 64 w 28 35) = Tlbdump_Model.dec (field 64 w 28 35))
      by (apply pd_small, small; [discriminate|reflexivity]).
    unfold time_of, print_time. generalize (field 64 w 20 27). intros k.
    repeat (match goal with |- context [match ?x with _ => _ end] => is_var x; destruct x end);
      cbn [print_record]; unfold print_time; rewrite ?N1, ?N2; reflexivity.
Qed.
Lemma insn_text : forall q insn addr ira dea dra,
  q_insn q = insn /\ q_insn_addr q = addr
      /\ known ira (q_insn_ra_valid q) (fun x => q_insn_ra q = fst x)
      /\ known ira (q_insn_ps_valid q) (fun x => q_insn_ps q = snd x)
      /\ known dea (q_data_addr_valid q) (fun x => q_data_addr q = x)
      /\ known dra (q_data_ra_valid q) (fun x => q_data_ra q = fst x)
      /\ known dra (q_data_ps_valid q) (fun x => q_data_ps q = snd x) ->
  print_insn q = insn_line pd Tlbdump_Model.hex8 Tlbdump_Model.hex16 insn addr ira dea dra.
Proof.
  intros q insn addr ira dea dra (H1 & H2 & H3 & H4 & H5 & H6 & H7). unfold print_insn, insn_line. rewrite H1, H2.
  destruct ira as [[ra sh]|]; destruct dea as [de|]; destruct dra as [[dr dsh]|]; cbn [known fst snd given] in *;
    repeat match goal with
    | H : _ /\ _ |- _ => destruct H
    end; 
    repeat match goal with
    | H : q_insn_ra_valid q = _ |- _ => rewrite H; clear H
    | H : q_insn_ps_valid q = _ |- _ => rewrite H; clear H
    | H : q_data_addr_valid q = _ |- _ => rewrite H; clear H
    | H : q_data_ra_valid q = _ |- _ => rewrite H; clear H
    | H : q_data_ps_valid q = _ |- _ => rewrite H; clear H
    | H : q_insn_ra q = _ |- _ => rewrite H; clear H
    | H : q_insn_ps q = _ |- _ => rewrite H; clear H
    | H : q_data_addr q = _ |- _ => rewrite H; clear H
    | H : q_data_ra q = _ |- _ => rewrite H; clear H
    | H : q_data_ps q = _ |- _ => rewrite H; clear H
    end; cbv iota; rewrite ?app_nil_l, <- ?app_assoc; reflexivity.
Qed.
Lemma record_text : forall debug detail e r, plain e -> tells e r ->
  print_record debug detail r = record_line Tlbdump_Model.dec pd Tlbdump_Model.hex8 Tlbdump_Model.hex16 debug detail e.
Proof.
  intros debug detail e r P T. destruct e as [r0|insn addr ira dea dra|insn addr ira dea dra branch cond gi gd iw dw];
    cbn [tells record_line] in *.
  - subst r0. destruct P as [w ST]. destruct debug; [exact (stamp_text detail w r ST)|].
    destruct ST; reflexivity.
  - destruct r; try contradiction. cbn [print_record]. destruct (debug || detail); [|reflexivity]. apply insn_text, T.
  - destruct r; try contradiction. cbn [print_record]. destruct (debug || detail); [|reflexivity]. apply insn_text.
    destruct T as (H1 & H2 & H3 & H4 & H5 & H6 & H7 & _). auto 8.
Qed.
Lemma records_text : forall debug detail es rs, Forall plain es -> Forall2 tells es rs ->
  flat_map (print_record debug detail) rs
  = flat_map (record_line Tlbdump_Model.dec pd Tlbdump_Model.hex8 Tlbdump_Model.hex16 debug detail) es.
Proof.
  intros debug detail es rs P T. induction T as [|e r es rs T _ IH]; [reflexivity|].
  apply Forall_cons_iff in P. destruct P as [P PS]. cbn [flat_map]. rewrite (record_text debug detail e r P T), IH by exact PS. reflexivity.
Qed.
Lemma line_titled : forall t n, titled t (Tlbdump_Model.dec n) = line t n.
Proof.
  intros t n. unfold titled, line, ps48. rewrite <- app_assoc. reflexivity.
Qed.
Lemma counts_printed : forall s ws counts,
  c_sum (h_cur s) = checksum ws -> c_scanned (h_cur s) = N.of_nat (List.length ws) mod 2 ^ 32 ->
  (forall c, h_stat s c = counts c mod 2 ^ 32) ->
  print_counts s = counts_text Tlbdump_Model.dec Tlbdump_Model.hex16 ws counts.
Proof.
  intros s ws counts E1 E2 E3. unfold print_counts, counts_text. rewrite <- E1, <- E2, line_titled.
  rewrite (flat_map_ext _ (fun p => line (fst p) (match snd p with Some c => h_stat s c | None => 0 end)))
    by (intros [t [c|]]; cbn [fst snd]; rewrite line_titled, ?E3; reflexivity).
  assert (HEAD : titled "RAW Checksum" (Tlbdump_Spec.codes "0x" ++ Tlbdump_Model.hex16 (c_sum (h_cur s)))
          = ps48 (lit "RAW Checksum") ++ lit " : 0x" ++ px16 (c_sum (h_cur s)) ++ nl) by reflexivity.
  rewrite HEAD. clear. generalize (ps48 (lit "RAW Checksum")), (lit " : 0x"), (px16 (c_sum (h_cur s))), nl. intros x1 x2 x3 x4.
  rewrite <- !app_assoc. do 4 f_equal. unfold lines. cbn [flat_map fst snd].
  generalize line. intros ln. rewrite app_nil_r. reflexivity.
Qed.
