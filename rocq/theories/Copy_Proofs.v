(** Copying a trace: what is written depends only on what is seen. *)
Require Import Arith NArith List Bool Lia ZifyBool ZifyN ZifyNat.
Require Import Verif.Word Verif.Codec_Types Verif.Writer_Model Verif.Writer_Spec Verif.Writer_Proofs
  Verif.Branch_Model Verif.Reader_Model Verif.Reader_Spec Verif.Reader_Proofs Verif.Reader_Proofs3
  Verif.Codec_Spec Verif.Codec_Proofs Verif.Codec_Proofs2 Verif.Codec_Proofs3 Verif.Codec_Proofs4
  Verif.Codec_Proofs5.
Import ListNotations.
Local Open Scope N_scope.

(** ** Radix data as the reader leaves it *)
Definition bounded (r : radix) : Prop := 1 < rx_walks r -> rx_nr_ptes r <= 4 /\ rx_walks r <= 5.
Definition sound (r : radix) : Prop := shape r /\ bounded r.
Lemma zero_sound : sound zero_radix.
Proof. split; [apply zero_shape|]. unfold bounded. cbn. lia. Qed.

Lemma read_arr_len n : forall cap b l b', read_arr n cap b = ROk (l, b') -> length l = n /\ (n <= cap)%nat.
Proof.
  induction n as [|n IH]; intros cap b l b' E; cbn [read_arr] in E.
  - injection E as <- _. cbn. lia.
  - apply bind_inv in E as (v & b1 & _ & E). destruct cap as [|cap]; [discriminate E|].
    apply bind_inv in E as (l1 & b2 & E1 & E). injection E as <- _.
    apply IH in E1 as [L C]. cbn [length]. lia.
Qed.
Lemma read_rows_len w : forall nr rc cc b l b', read_rows w nr rc cc b = ROk (l, b') ->
  length l = w /\ Forall (fun row => length row = nr) l /\ (w <> 0 -> nr <= cc)%nat.
Proof.
  induction w as [|w IH]; intros nr rc cc b l b' E; cbn [read_rows] in E.
  - injection E as <- _. split; [reflexivity|]. split; [constructor|lia].
  - apply bind_inv in E as (row & b1 & E0 & E). apply bind_inv in E as (rows & b2 & E1 & E).
    injection E as <- _. apply read_arr_len in E0 as [L C]. apply IH in E1 as (L1 & F1 & _).
    cbn [length]. split; [lia|]. split; [now constructor|]. destruct rc; lia.
Qed.

Lemma parse_walk_sound hm gm st old b r b' :
  sound old -> parse_walk hm gm st old b = ROk (r, b') -> sound r.
Proof.
  intros [(S1 & S2 & S3 & S4) B] E. unfold parse_walk in E.
  apply bind_inv in E as (nr & b1 & _ & E). apply bind_inv in E as (w & b2 & _ & E).
  destruct (N.eqb_spec w 1).
  - apply bind_inv in E as (row & b3 & E0 & E). injection E as <- _.
    apply read_arr_len in E0 as [L C]. unfold NR_RADIX_PTES in C.
    split; [|unfold bounded; cbn [rx_walks rx_nr_ptes]; lia].
    unfold shape. cbn [rx_host_ptes rx_host_real rx_guest_real].
    rewrite overlay_rows_length by (rewrite S1; cbn [length]; lia). repeat split; try assumption.
    apply overlay_rows_shape; [assumption|]. constructor; [lia|constructor].
  - destruct (N.ltb_spec 1 w).
    + apply bind_inv in E as (rows & b3 & E0 & E). apply bind_inv in E as (hr & b4 & E1 & E).
      apply bind_inv in E as (gr & b5 & E2 & E). injection E as <- _.
      apply read_rows_len in E0 as (L0 & F0 & C0). apply read_arr_len in E1 as [L1 C1].
      apply read_arr_len in E2 as [L2 C2]. unfold NR_RADIX_PTES, MAX_RADIX_WALKS in *.
      split; [|unfold bounded; cbn [rx_walks rx_nr_ptes]; lia].
      unfold shape. cbn [rx_host_ptes rx_host_real rx_guest_real].
      rewrite overlay_rows_length, !overlay_length by (rewrite ?S1, ?S3, ?S4; lia). repeat split; try assumption.
      apply overlay_rows_shape; [assumption|]. rewrite Forall_forall in *. intros x Hx. rewrite (F0 x Hx). lia.
    + injection E as <- _. split; [repeat split; assumption|]. unfold bounded; cbn [rx_walks rx_nr_ptes]; lia.
Qed.
Lemma opt_walk_sound c hm gm st old b r b' :
  sound old -> opt c (parse_walk hm gm st old) old b = ROk (r, b') -> sound r.
Proof.
  intros S E. destruct c; cbn [opt] in E; [eapply parse_walk_sound; eauto|]. now injection E as <- _.
Qed.

Definition fine (s : rstate) : Prop := sound (x_radix (r_cur s)) /\ sound (x_radix (r_nxt s)).

Ltac skip_bind E := apply bind_inv in E as (? & ? & _ & E).
Ltac walk_bind E rx H := apply bind_inv in E as (rx & ? & H & E).

Lemma header_fine s b s' b' : fine s -> parse_header s b = ROk (s', b') -> fine s'.
Proof.
  intros [F1 F2] E. unfold parse_header in E.
  do 14 (skip_bind E). walk_bind E rx H.
  do 8 (skip_bind E). injection E as <- _.
  split; cbn [r_cur r_nxt x_radix]; [assumption|]. eapply opt_walk_sound; eauto.
Qed.

Lemma ret_inv {A B} (x : A) (y : B) b x' y' b' :
  ret (x, y) b = ROk ((x', y'), b') -> x' = x /\ y' = y.
Proof. intros E. now injection E. Qed.

Lemma core_fine s b r s' b' : fine s -> parse_core s b = ROk ((r, s'), b') ->
  fine s' /\ sound (q_radix_insn (o_q r)) /\ sound (q_radix_data (o_q r)).
Proof.
  intros [F1 F2] E. unfold parse_core in E.
  do 12 (skip_bind E). walk_bind E dr Hd. do 3 (skip_bind E). walk_bind E ir Hi.
  do 10 (skip_bind E). apply ret_inv in E as [-> ->].
  apply opt_walk_sound in Hd; [|apply zero_sound]. apply opt_walk_sound in Hi; [|assumption].
  assert (Sc : sound (x_radix (promote (r_cur s) (r_nxt s)))).
  { unfold promote. cbn [x_radix]. now destruct (_ =? 0). }
  split; [split|split]; cbn [r_cur r_nxt x_radix o_q q_radix_insn q_radix_data]; try assumption.
  destruct (_ =? 0); [apply zero_sound|assumption].
Qed.

Lemma annotate_q s r r' : annotate s r = ROk r' -> o_q r' = o_q r.
Proof.
  unfold annotate. intros E.
  destruct (if q_branch (o_q r) && r_branch_info s then _ else _) as [[d bt]| |]; try discriminate E.
  destruct (if r_tlbie_info s then _ else _); try discriminate E. now injection E as <-.
Qed.

Lemma skip_headers_fine slack fuel : forall s b s' b',
  fine s -> skip_headers fuel slack s b = ROk (s', b') -> fine s'.
Proof.
  induction fuel as [|f IH]; intros s b s' b' F E; cbn [skip_headers] in E;
  (destruct (peek32 slack b); [|discriminate E]);
  (destruct (_ && _); [|now injection E as <- _]); [discriminate E|].
  destruct (parse_header s b) as [[s1 b1]| |] eqn:E1; try discriminate E.
  eapply IH; [|eassumption]. eapply header_fine; eauto.
Qed.

Lemma next_fine slack s b r s' b' : fine s -> qtreader_next_record slack s b = ROk ((r, s'), b') ->
  fine s' /\ sound (q_radix_insn (o_q r)) /\ sound (q_radix_data (o_q r)).
Proof.
  intros F E. unfold qtreader_next_record in E.
  destruct (skip_headers _ _ _ _) as [[s1 b1]| |] eqn:E1; try discriminate E.
  apply skip_headers_fine in E1; [|assumption]. unfold parse_record in E.
  apply bind_inv in E as ([r1 s2] & b2 & E2 & E). cbn [fst snd] in E.
  apply bind_inv in E as (r2 & b3 & E3 & E). injection E as <- <- _.
  unfold lift in E3. destruct (annotate s1 r1) eqn:E4; try discriminate E3. injection E3 as <- _.
  rewrite (annotate_q _ _ _ E4). eapply core_fine; eauto.
Qed.

Definition rsound (r : rrec) : Prop := sound (q_radix_insn (o_q r)) /\ sound (q_radix_data (o_q r)).
Lemma loop_sound slack fuel : forall s b, fine s -> Forall rsound (fst (read_loop fuel slack s b)).
Proof.
  induction fuel as [|f IH]; intros s b F; cbn [read_loop]; [constructor|].
  destruct (qtreader_next_record slack s b) as [[[r s'] b']| |] eqn:E; try constructor.
  apply next_fine in E as (F' & Sr); [|assumption]. specialize (IH s' b' F').
  destruct (read_loop f slack s' b'). cbn [fst] in *. now constructor.
Qed.
Lemma trace_sound br tl slack b : Forall rsound (fst (read_trace br tl slack b)).
Proof.
  unfold read_trace. destruct (qtreader_initialize b) as [[s b']| |] eqn:E; try constructor.
  apply loop_sound. assert (F : fine s) by (eapply header_fine; [|exact E]; split; apply zero_sound).
  exact F.
Qed.

(** ** Walks that look the same are written the same *)
Lemma firstn_len {A} n (l : list A) : (n <= length l)%nat -> length (firstn n l) = n.
Proof. intros. rewrite firstn_length. lia. Qed.

Lemma walk_same r r' :
  shape r -> storable r -> sound r' ->
  walk_of (rx_type r) r = walk_of (rx_type r') r' ->
  kind r' = kind r /\ emit_walk r' = emit_walk r /\ walk_assert r' = walk_assert r /\
  (kind r = KSingle -> rx_type r' = rx_type r) /\
  (kind r = KSingle -> single_mode r' = single_mode r).
Proof.
  intros (S1 & S2 & S3 & S4) St ((S1' & S2' & S3' & S4') & Bd) E.
  unfold emit_walk, walk_assert, single_mode, kind, walk_of in *.
  unfold storable in St. unfold bounded in Bd.
  destruct (N.eqb_spec (rx_nr_ptes r) 0) as [N0|N0];
  destruct (N.eqb_spec (rx_nr_ptes r') 0) as [N0'|N0'].
  - repeat split; congruence.
  - destruct (N.eqb_spec (rx_walks r') 0) as [W|W]; [|destruct (rx_walks r' =? 1); discriminate E].
    rewrite W in *. cbn. repeat split; congruence.
  - destruct (N.eqb_spec (rx_walks r) 0) as [W|W]; [|destruct (rx_walks r =? 1); discriminate E].
    rewrite W in *. cbn. repeat split; congruence.
  - destruct (St N0) as [T1 T2].
    destruct (N.eqb_spec (rx_walks r) 0) as [W|W]; destruct (N.eqb_spec (rx_walks r') 0) as [W'|W'].
    + rewrite W, W'. cbn. repeat split; congruence.
    + destruct (rx_walks r' =? 1); discriminate E.
    + destruct (rx_walks r =? 1); discriminate E.
    + destruct (N.eqb_spec (rx_walks r) 1) as [W1|W1]; destruct (N.eqb_spec (rx_walks r') 1) as [W1'|W1'];
        try discriminate E.
      * pose proof (f_equal (fun o => match o with Some k => k_entries k | None => [] end) E) as Ee.
        cbn [k_entries] in Ee. injection E as Et _. rewrite <- Et. repeat split; try congruence.
        rewrite !emit_ptes_rows. unfold NR_RADIX_PTES in *. now rewrite Ee.
      * assert (L : 1 < rx_walks r) by lia. assert (L' : 1 < rx_walks r') by lia.
        destruct (T2 L) as [B1 B2]. destruct (Bd L') as [B1' B2'].
        injection E as Ee Eh Eg.
        assert (Ew : rx_walks r' = rx_walks r).
        { apply (f_equal (@length N)) in Eg. rewrite !firstn_len in Eg by (rewrite ?S4, ?S4'; lia). lia. }
        assert (En : rx_nr_ptes r' = rx_nr_ptes r).
        { destruct (rx_host_ptes r) as [|row l]; [discriminate S1|].
          destruct (rx_host_ptes r') as [|row' l']; [discriminate S1'|].
          inversion_clear S2. inversion_clear S2'.
          destruct (N.to_nat (rx_walks r)) as [|n] eqn:X; [lia|].
          destruct (N.to_nat (rx_walks r')) as [|n'] eqn:X'; [lia|].
          cbn [firstn List.map] in Ee. injection Ee as Er _.
          apply (f_equal (@length N)) in Er. rewrite !firstn_len in Er by lia. lia. }
        rewrite Ew, En in *. rewrite !emit_ptes_rows.
        replace (1 <? rx_walks r) with true by lia.
        assert (Nt : N.to_nat (rx_walks r - 1) = (N.to_nat (rx_walks r) - 1)%nat) by lia.
        rewrite Nt, Ee, Eh, Eg. repeat split; try reflexivity; try (intros X; discriminate X).
Qed.
