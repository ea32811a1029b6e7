(** Proofs for C56: the words of POWER10 records, and reading them. *)
Require Import NArith ZArith List Bool Lia.
Require Import ZifyBool ZifyN ZifyNat.
Require Import Verif.Word Verif.Codec_Types Verif.HtmBits_Model Verif.HtmBits_Spec Verif.HtmBits_Proofs.
Require Import Verif.Branch_Model Verif.Branch_Spec.
Require Import Verif.Pwc_Model Verif.Pwc_Spec Verif.Xlate_Model Verif.Xlate_Spec.
Require Import Verif.Htm_Model Verif.Trace_Spec Verif.Trace_Proofs Verif.Trace8_Proofs Verif.Trace8_Proofs2 Verif.Trace10_Spec.
Require Verif.Tlb_Model Verif.Tlb_Spec Verif.Tlb_Proofs Verif.Bb_Model Verif.Bb_Spec Verif.Bb_Proofs.
Import ListNotations.
Local Open Scope N_scope.

Ltac powers := repeat match goal with
  | |- context [2 ^ ?e] => let v := eval vm_compute in (2 ^ e) in progress change (2 ^ e) with v end.
(** ** Headers *)
Lemma header_fits : forall top kind low, top < 2 ^ 34 -> kind < 4 -> low < 2 ^ 8 ->
  fits [(34, top); (2, kind); (20, 0xABCDF); (8, low)]
  /\ header top kind low = pack [(34, top); (2, kind); (20, 0xABCDF); (8, low)].
Proof.
  intros top kind low H1 H2 H3. split.
  - unfold fits. repeat constructor; cbn [fst snd]; assumption.
  - unfold header. cbn [pack fst snd wid]. powers. lia.
Qed.
Lemma header_kind : forall top kind low, top < 2 ^ 34 -> kind < 4 -> low < 2 ^ 8 ->
  field 64 (header top kind low) 34 35 = kind /\ field 64 (header top kind low) 36 55 = 0xABCDF
  /\ field 64 (header top kind low) 56 63 = low /\ field 64 (header top kind low) 0 33 = top.
Proof.
  intros top kind low H1 H2 H3. destruct (header_fits top kind low H1 H2 H3) as [F E]. rewrite E.
  split; [|split; [|split]].
  - eapply (pack_field _ 1); [exact F|reflexivity|reflexivity|reflexivity|lia|lia].
  - eapply (pack_field _ 2); [exact F|reflexivity|reflexivity|reflexivity|lia|lia].
  - eapply (pack_field _ 3); [exact F|reflexivity|reflexivity|reflexivity|lia|lia].
  - eapply (pack_field _ 0); [exact F|reflexivity|reflexivity|reflexivity|lia|lia].
Qed.
Lemma header_type : forall top kind low, top < 2 ^ 34 -> kind < 4 -> low < 2 ^ 8 ->
  rec_type (header top kind low) = kind.
Proof.
  intros top kind low H1 H2 H3. destruct (header_kind top kind low H1 H2 H3) as (E1 & E2 & _).
  unfold rec_type. rewrite !bits_field by lia. rewrite E1, E2. reflexivity.
Qed.

(** ** Walks *)
Definition y_top (y : xl) : N := b1 (y_dside y) * 2 ^ 33 + y_lpid y * 2 ^ 21 + y_pid y * 2 + y_x33 y.
Definition y_hdr (y : xl) : N := header (y_top y) 1 (y_x56 y).
Definition y_parts (y : xl) : list (N * N) :=
  [(1, b1 (y_dside y)); (12, y_lpid y); (20, y_pid y); (1, y_x33 y); (2, 1); (20, 0xABCDF); (8, y_x56 y)].
Lemma xl_header : forall d y, xl_ok d y ->
  bit (y_hdr y) 0 = d /\ bits (y_hdr y) 1 12 = y_lpid y /\ bits (y_hdr y) 13 32 = y_pid y
  /\ rec_type (y_hdr y) = 1 /\ bits (y_hdr y) 36 55 = 0xABCDF /\ bits (y_hdr y) 34 35 = 1.
Proof.
  intros d y (D & L & P & X & X2 & _). subst d.
  assert (F : fits (y_parts y)).
  { unfold fits, y_parts. repeat constructor; cbn [fst snd]; try apply b1_lt; try assumption; try reflexivity. }
  assert (E : y_hdr y = pack (y_parts y)).
  { unfold y_hdr, header, y_top, y_parts. cbn [pack fst snd wid].
    powers. lia. }
  assert (K : bits (y_hdr y) 34 35 = 1 /\ bits (y_hdr y) 36 55 = 0xABCDF).
  { rewrite !bits_field by lia. rewrite E. split.
    - eapply (pack_field _ 4); [exact F|reflexivity|reflexivity|reflexivity|lia|lia].
    - eapply (pack_field _ 5); [exact F|reflexivity|reflexivity|reflexivity|lia|lia]. }
  destruct K as [K1 K2].
  split; [|split; [|split; [|split; [|split; assumption]]]].
  - apply bit_b1; [lia|]. rewrite E. eapply (pack_field _ 0); [exact F|reflexivity|reflexivity|reflexivity|lia|lia].
  - rewrite bits_field by lia. rewrite E. eapply (pack_field _ 1); [exact F|reflexivity|reflexivity|reflexivity|lia|lia].
  - rewrite bits_field by lia. rewrite E. eapply (pack_field _ 2); [exact F|reflexivity|reflexivity|reflexivity|lia|lia].
  - unfold rec_type. rewrite K1, K2. reflexivity.
Qed.

Lemma walk_decoded : forall last w x, walk_fits w -> x < 8 ->
  decode_walk (walk_word last w x) = w /\ bit (walk_word last w x) 7 = last.
Proof.
  intros last w x (L & RA & RM) X.
  set (parts := [(1, b1 (wk_final w)); (1, b1 (wk_exception w)); (1, b1 (wk_guest w)); (1, b1 (wk_host w));
                 (3, wk_level w); (1, b1 last); (53, wk_ra w / 8); (3, x)]).
  assert (RB : wk_ra w / 8 < 2 ^ 53) by (apply N.div_lt_upper_bound; [discriminate|exact RA]).
  assert (F : fits parts).
  { unfold fits, parts. repeat constructor; cbn [fst snd]; try apply b1_lt; try assumption. }
  assert (E : walk_word last w x = pack parts).
  { unfold walk_word, parts. cbn [pack fst snd wid].
    powers. lia. }
  assert (B : forall n b v, nth_error parts n = Some (1, b1 v) -> wid (skipn (S n) parts) = 63 - b -> b <= 63 ->
    bit (walk_word last w x) b = v).
  { intros n b v NT W HB. apply bit_b1; [exact HB|]. rewrite E.
    eapply pack_field; [exact F|exact NT|exact W|lia|lia|exact HB]. }
  split; [|apply (B 5%nat); [reflexivity|reflexivity|lia]].
  unfold decode_walk.
  rewrite (B 0%nat 0 (wk_final w)), (B 1%nat 1 (wk_exception w)), (B 2%nat 2 (wk_guest w)), (B 3%nat 3 (wk_host w));
    try reflexivity; try lia.
  rewrite !bits_field by lia.
  assert (E1 : field 64 (walk_word last w x) 4 6 = wk_level w).
  { rewrite E. eapply (pack_field _ 4); [exact F|reflexivity|reflexivity|reflexivity|lia|lia]. }
  assert (E2 : field 64 (walk_word last w x) 8 60 = wk_ra w / 8).
  { rewrite E. eapply (pack_field _ 6); [exact F|reflexivity|reflexivity|reflexivity|lia|lia]. }
  rewrite E1, E2.
  assert (E3 : wk_ra w / 8 * 2 ^ 3 mod w64 = wk_ra w).
  { pose proof (N.div_mod (wk_ra w) 8 ltac:(discriminate)) as DM. rewrite RM in DM. change (2 ^ 3) with 8.
    rewrite N.mod_small; [lia|]. change w64 with (2 ^ 64). lia. }
  rewrite E3. destruct w; reflexivity.
Qed.

(** ** The rest of the state *)
Record aux := mk_aux {
  ax_real : N; ax_radix : radix; ax_hps : N; ax_gps : N; ax_rpt : bool; ax_x : xst }.
Definition aux_of (s : hst) : aux := mk_aux (h_real s) (h_radix s) (h_hps s) (h_gps s) (h_rpt s) (h_x s).
Definition keeps {A} (m : H A) : Prop :=
  forall s, match m s with HOk (s', _) => aux_of s' = aux_of s | HErr _ => True end.
Lemma keeps_bind : forall A B (m : H A) (k : A -> H B), keeps m -> (forall v, keeps (k v)) -> keeps (hbind m k).
Proof.
  intros A B m k M K s. unfold hbind. specialize (M s). destruct (m s) as [[s' v]|e]; [|exact I].
  specialize (K v s'). destruct (k v s') as [[s'' v']|e]; [|exact I]. congruence.
Qed.
Lemma keeps_ret : forall A (v : A), keeps (hret v). Proof. intros A v s. reflexivity. Qed.
Lemma keeps_err : forall A e, keeps (herror e : H A). Proof. intros A e s. exact I. Qed.
Lemma keeps_get : forall A (f : hst -> A), keeps (hget f). Proof. intros A f s. reflexivity. Qed.
Lemma keeps_set : forall f, (forall s, aux_of (f s) = aux_of s) -> keeps (hset f).
Proof. intros f E s. apply E. Qed.
Lemma wp_frame : forall A (m : H A) Q s, keeps m -> wp m Q s -> wp m (fun v s' => Q v s' /\ aux_of s' = aux_of s) s.
Proof. intros A m Q s M W. unfold wp in *. specialize (M s). destruct (m s) as [[s' v]|e]; [split; assumption|exact W]. Qed.

Section KEEP.
  Variable stale : Z -> list N.
  Variable full : bool.
  Lemma keeps_count : forall c k, keeps (hset (add_stat c k)).
  Proof. intros. apply keeps_set. reflexivity. Qed.
  Lemma keeps_internal : keeps (fetch_internal stale).
  Proof.
    intros s. unfold fetch_internal. destruct (htm_read stale (h_cur s)) as [[c r] buf].
    destruct (_ <=? _)%Z; [reflexivity|]. destruct (_ =? _)%Z; [exact I|reflexivity].
  Qed.
  Lemma keeps_stamp : forall v, keeps (decode_stamp full v).
  Proof.
    intros v. unfold decode_stamp. apply keeps_bind; [apply keeps_count|intros _].
    destruct (decode_stamp_rec v) as [[r|]|e]; [|apply keeps_ret|apply keeps_err].
    apply keeps_bind.
    - destruct r; try apply keeps_ret. apply keeps_bind.
      + destruct t; try apply keeps_ret. apply keeps_count.
      + intros _. apply keeps_bind; [apply keeps_count|intros _; apply keeps_count].
    - intros _. apply keeps_bind; [|intros _; apply keeps_ret]. destruct full; [apply keeps_set; reflexivity|apply keeps_ret].
  Qed.
  Lemma keeps_loop : forall fuel, keeps (fetch_loop stale full fuel).
  Proof.
    induction fuel as [|fuel IH]; [apply keeps_err|]. cbn [fetch_loop].
    apply keeps_bind; [apply keeps_internal|]. intros [v|]; [|apply keeps_ret].
    destruct (_ =? _); [|apply keeps_ret]. apply keeps_bind; [apply keeps_stamp|].
    intros []; [exact IH|apply keeps_ret].
  Qed.
  Lemma keeps_fetch : keeps (htm_decode_fetch stale full).
  Proof. intros s. apply keeps_loop. Qed.
End KEEP.

(** ** Reading *)
Lemma words_app : forall l l', words_of (l ++ l') = words_of l ++ words_of l'.
Proof. intros. apply flat_map_app. Qed.
Lemma stamps_app : forall l l', stamps_of (l ++ l') = stamps_of l ++ stamps_of l'.
Proof. intros. apply flat_map_app. Qed.
Lemma words_cons : forall p l, words_of (p :: l) = map fst (fst p) ++ snd p :: words_of l.
Proof. intros. unfold words_of. cbn [flat_map]. rewrite <- app_assoc. reflexivity. Qed.
Lemma events_app : forall l l', stamps_events (l ++ l') = stamps_events l ++ stamps_events l'.
Proof. intros. apply flat_map_app. Qed.

Definition st_ext (full : bool) (st : stamps) (a : abs) : abs := ext a (outs_of full st) (stamps_events st).
Lemma st_ext_app : forall full l l' a, st_ext full l' (st_ext full l a) = st_ext full (l ++ l') a.
Proof. intros. unfold st_ext. rewrite ext_ext, outs_app, events_app. reflexivity. Qed.
Lemma st_ext_nil : forall full a, st_ext full [] a = a.
Proof. intros full a. unfold st_ext, outs_of. destruct full; apply ext_nil. Qed.

Definition xlate_of (y : xl) : xlate :=
  mk_xlate (y_dside y) (y_lpid y) (y_pid y) (length (y_steps y))
    (y_records y ++ snd (fst (y_end y)) :: repeat zero_walk (NWALKS - S (length (y_steps y)))).
Lemma xlate_of_wf : forall d y, xl_ok d y -> xlate_wf (xlate_of y) /\ records_of (xlate_of y) = y_records y.
Proof.
  intros d y (_ & _ & _ & _ & _ & L & _). unfold xlate_wf, records_of, xlate_of. cbn [x_walks x_nwalks].
  assert (E : length (y_records y) = length (y_steps y)) by (unfold y_records; apply map_length).
  split; [split; [|lia]|].
  - rewrite app_length, E. cbn [length]. rewrite repeat_length. unfold NWALKS. lia.
  - rewrite <- E, firstn_app, Nat.sub_diag, firstn_all, app_nil_r. reflexivity.
Qed.
Lemma select_of : forall d l r, Forall (xl_ok d) l ->
  select d (map xlate_of l) r = option_map xlate_of (walk_for l r).
Proof.
  intros d l r OK. unfold select, walk_for. induction OK as [|y l O _ IH]; [reflexivity|].
  cbn [map find]. rewrite IH.
  replace (Bool.eqb (x_dside (xlate_of y)) d && _) with (ends_at r y); [destruct (ends_at r y); reflexivity|].
  destruct O as (D & _). unfold xlate_of. cbn [x_dside x_nwalks x_walks]. rewrite D, Bool.eqb_reflx. cbn [andb].
  unfold ends_at. assert (E : length (y_records y) = length (y_steps y)) by (unfold y_records; apply map_length).
  rewrite <- E. clear. destruct (y_records y) as [|w l'] using rev_ind; [reflexivity|].
  rewrite rev_app_distr. cbn [rev app]. rewrite app_length. cbn [length]. rewrite Nat.add_1_r.
  rewrite app_nth1 by (rewrite app_length; cbn; lia). rewrite app_nth2, Nat.sub_diag by lia. reflexivity.
Qed.

Section READ10.
  Variable full bad : bool.
  Variable stale : Z -> list N.
  Variable nwords : nat.
  Variable J : qrec -> Prop.
  Hypothesis stale_len : forall z, length (stale z) = 8%nat.
  Hypothesis small : (Z.of_nat nwords <= 2 ^ 30)%Z.
  Notation R := (R bad nwords J).
  Notation Sim := (Sim J).
  Definition R10 (ws : list N) (a : abs) (x : aux) (s : hst) : Prop := R ws a s /\ aux_of s = x.

  Lemma fetch10 : forall p ws a x s B (k : option N -> H B) Q,
    R10 (words_of (p :: ws)) a x s -> sword_ok p ->
    (forall s', R10 (words_of ws) (st_ext full (fst p) a) x s' -> wp (k (Some (snd p))) Q s') ->
    wp (hbind (htm_decode_fetch stale full) k) Q s.
  Proof.
    intros [l w] ws a x s B k Q [RS AX] (SO & W & NM) K. cbn [fst snd] in *. rewrite words_cons in RS. cbn [fst snd] in RS.
    apply wp_bind. eapply wp_post.
    - apply wp_frame; [apply keeps_fetch|].
      assert (X : wp (hbind (htm_decode_fetch stale full) hret)
                (fun v s' => v = Some w /\ R (words_of ws) (of_stamps full l a) s') s).
      { eapply run_fetch; [exact stale_len|exact small|exact RS|exact SO|exact NM|]. intros s' RS'. apply wp_ret. split; [reflexivity|exact RS']. }
      apply wp_bind_inv in X. exact X.
    - cbn beta. intros v s' [X AX']. unfold wp, hret in X. destruct X as [-> RS']. apply K.
      rewrite of_stamps_ext in RS'. split; [exact RS'|congruence].
  Qed.
  Lemma count10 : forall c ws a x s B (k : unit -> H B) Q, R10 ws a x s ->
    (forall s', R10 ws (ext a [] [(c, 1)]) x s' -> wp (k tt) Q s') -> wp (hbind (count c) k) Q s.
  Proof.
    intros c ws a x s B k Q [[C SIM] AX] K. apply wp_set, K. split; [|exact AX]. split; [exact C|].
    rewrite <- with_cnt_ext. apply sim_stat, SIM.
  Qed.

  (** *** Walks *)
  Definition step_word (p : stamps * walk * N) : sword := (fst (fst p), walk_word false (snd (fst p)) (snd p)).
  Definition end_word (y : xl) : sword := (fst (fst (y_end y)), walk_word true (snd (fst (y_end y))) (snd (y_end y))).
  Definition y_body (y : xl) : list sword := map step_word (y_steps y) ++ [end_word y].
  Lemma xl_words_eq : forall y, xl_words y = (y_head y, y_hdr y) :: y_body y.
  Proof. reflexivity. Qed.

  Lemma run_walks : forall y steps n acc rest a x s B (k : option (list walk) -> H B) Q,
    R10 (words_of (map step_word steps ++ end_word y :: rest)) a x s ->
    Forall sword_ok (map step_word steps ++ [end_word y]) ->
    Forall (fun p => walk_fits (snd (fst p)) /\ snd p < 8) (y_end y :: steps) ->
    (length steps < n)%nat ->
    (forall s', R10 (words_of rest) (st_ext full (stamps_of (map step_word steps ++ [end_word y])) a) x s' ->
       wp (k (Some (acc ++ map (fun p => snd (fst p)) steps ++ [snd (fst (y_end y))]))) Q s') ->
    wp (hbind (xlate_walks stale full n acc) k) Q s.
  Proof.
    intros y. induction steps as [|p steps IH]; intros n acc rest a x s B k Q RS OK FT L K; destruct n as [|n]; try (cbn in L; lia).
    - cbn [xlate_walks]. apply wp_assoc. cbn [map app] in *. inversion OK as [|? ? O1 _]; subst.
      eapply fetch10; [exact RS|exact O1|]. clear s RS. intros s RS.
      inversion FT as [|? ? [F1 F2] _]; subst. cbn [end_word snd].
      destruct (walk_decoded true (snd (fst (y_end y))) (snd (y_end y)) F1 F2) as [D1 D2]. rewrite D1, D2.
      apply wp_retb. apply K. unfold stamps_of. cbn [flat_map]. rewrite app_nil_r. exact RS.
    - cbn [xlate_walks]. apply wp_assoc. cbn [map app] in *. inversion OK as [|? ? O1 O2]; subst.
      eapply fetch10; [exact RS|exact O1|]. clear s RS. intros s RS.
      inversion FT as [|? ? F0 FT']; subst. inversion FT' as [|? ? [F1 F2] FT2]; subst. cbn [step_word snd].
      destruct (walk_decoded false (snd (fst p)) (snd p) F1 F2) as [D1 D2]. rewrite D1, D2.
      eapply IH; [exact RS|exact O2|constructor; assumption|cbn in L; lia|].
      clear s RS. intros s RS. rewrite st_ext_app in RS. rewrite <- app_assoc. cbn [app]. apply K. exact RS.
  Qed.

  Lemma run_xlate : forall d y rest a x s B (k : option xlate -> H B) Q,
    R10 (words_of (y_body y ++ rest)) a x s -> xl_ok d y -> Forall sword_ok (y_body y) ->
    (forall s', R10 (words_of rest) (st_ext full (stamps_of (y_body y)) a) x s' -> wp (k (Some (xlate_of y))) Q s') ->
    wp (hbind (decode_insn_xlate stale full (y_hdr y)) k) Q s.
  Proof.
    intros d y rest a x s B k Q RS OK SO K. destruct (xl_header d y OK) as (H1 & H2 & H3 & _ & H4 & H5).
    destruct OK as (D & _ & _ & _ & _ & LEN & FT). subst d.
    unfold decode_insn_xlate. rewrite H4, H5. change (negb (703711 =? 703711)) with false. change (negb (1 =? REC_TYPE_XLATE)) with false.
    cbv iota. apply wp_assoc. unfold y_body in *. rewrite <- app_assoc in RS. cbn [app] in RS.
    eapply run_walks; [exact RS|exact SO|exact FT|unfold NWALKS; lia|].
    clear s RS. intros s RS. apply wp_retb. rewrite H1, H2, H3. cbn [app]. 
    replace (length (map (fun p => snd (fst p)) (y_steps y) ++ [snd (fst (y_end y))])) with (S (length (y_steps y)))
      by (rewrite app_length, map_length; cbn [length]; lia).
    rewrite <- app_assoc. cbn [app]. replace (S (length (y_steps y)) - 1)%nat with (length (y_steps y)) by lia.
    apply K. exact RS.
  Qed.
End READ10.
