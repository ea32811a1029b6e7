(** Proofs: reading the words of a well-formed hardware trace. *)
Require Import NArith ZArith List Bool Lia.
Require Import ZifyBool ZifyN ZifyNat.
Require Import Verif.Word Verif.Codec_Types Verif.Codec_Proofs Verif.HtmBits_Model Verif.HtmBits_Spec Verif.HtmBits_Proofs.
Require Import Verif.Htm_Model Verif.Trace_Spec.
Require Verif.Tlbdump_Proofs4 Verif.Tlb_Model Verif.Tlb_Spec Verif.Tlb_Proofs Verif.Bb_Model.
Import ListNotations.
Local Open Scope N_scope.

Lemma be8_length : forall v, length (be8 v) = 8%nat. Proof. reflexivity. Qed.
Lemma be8_val : forall v, v < 2 ^ 64 -> be_val (be8 v) = v.
Proof.
  intros v H. unfold be8, be_val. cbn [map fold_left N.mul Pos.mul].
  change (2 ^ 0) with 1. rewrite N.div_1_r.
  assert (D : forall k x, v / 2 ^ k = x -> v / 2 ^ (k + 8) = x / 256).
  { intros k x <-. rewrite N.pow_add_r. symmetry. apply N.div_div; [apply N.pow_nonzero|]; discriminate. }
  assert (E0 : v / 2 ^ 0 = v) by apply N.div_1_r.
  pose proof (D _ _ E0) as E1. pose proof (D _ _ E1) as E2. pose proof (D _ _ E2) as E3.
  pose proof (D _ _ E3) as E4. pose proof (D _ _ E4) as E5. pose proof (D _ _ E5) as E6.
  pose proof (D _ _ E6) as E7. pose proof (D _ _ E7) as E8. cbn [N.add Pos.add Pos.succ] in *.
  rewrite E1, E2, E3, E4, E5, E6, E7.
  assert (Z8 : v / 256 / 256 / 256 / 256 / 256 / 256 / 256 / 256 = 0) by (rewrite <- E8; apply N.div_small; exact H).
  clear - Z8.
  repeat match goal with |- context [?x mod 256] => 
    let q := fresh "q" in let r := fresh "r" in
    pose proof (N.div_mod x 256 ltac:(discriminate)); set (r := x mod 256) in *; clearbody r end.
  lia.
Qed.

(** ** Running *)
Definition wp {A} (m : H A) (Q : A -> hst -> Prop) (s : hst) : Prop :=
  match m s with HOk (s', v) => Q v s' | HErr _ => False end.
Lemma wp_bind : forall A B (m : H A) (k : A -> H B) Q s,
  wp m (fun v => wp (k v) Q) s -> wp (hbind m k) Q s.
Proof. intros A B m k Q s. unfold wp, hbind. destruct (m s) as [[s' v]|e]; auto. Qed.
Lemma wp_bind_inv : forall A B (m : H A) (k : A -> H B) Q s,
  wp (hbind m k) Q s -> wp m (fun v => wp (k v) Q) s.
Proof. intros A B m k Q s. unfold wp, hbind. destruct (m s) as [[s' v]|e]; auto. Qed.
Lemma wp_get : forall A B (f : hst -> A) (k : A -> H B) Q s, wp (k (f s)) Q s -> wp (hbind (hget f) k) Q s.
Proof. intros. exact H. Qed.
Lemma wp_set : forall B f (k : unit -> H B) Q s, wp (k tt) Q (f s) -> wp (hbind (hset f) k) Q s.
Proof. intros. exact H. Qed.
Lemma wp_ret : forall A (v : A) (Q : A -> hst -> Prop) s, Q v s -> wp (hret v) Q s.
Proof. intros. exact H. Qed.
Lemma wp_post : forall A (m : H A) (Q Q' : A -> hst -> Prop) s,
  wp m Q s -> (forall v s', Q v s' -> Q' v s') -> wp m Q' s.
Proof. intros A m Q Q' s. unfold wp. destruct (m s) as [[s' v]|e]; auto. Qed.
Lemma wp_assoc : forall A B C (m : H A) (k : A -> H B) (k' : B -> H C) Q s,
  wp (hbind m (fun v => hbind (k v) k')) Q s -> wp (hbind (hbind m k) k') Q s.
Proof. intros A B C m k k' Q s. unfold wp, hbind. destruct (m s) as [[s' v]|e]; auto. Qed.
Lemma wp_retb : forall A B (v : A) (k : A -> H B) Q s, wp (k v) Q s -> wp (hbind (hret v) k) Q s.
Proof. intros. exact H. Qed.

(** ** What has happened so far *)
Record abs := mk_abs {
  ab_addr : N; ab_ops : list Tlb_Model.op; ab_log : list (N * N); ab_ea : list N;
  ab_out : list erec; ab_cnt : list event;
  ab_prev : N * bool }.

Lemma bytes_length : forall ws, length (bytes_of ws) = (8 * length ws)%nat.
Proof. induction ws as [|w ws IH]; [reflexivity|]. unfold bytes_of in *. cbn [flat_map]. rewrite app_length, IH, be8_length. cbn [length]. lia. Qed.

Lemma count_of_app : forall c l l', count_of c (l ++ l') = count_of c l + count_of c l'.
Proof.
  intros c l l'. unfold count_of. induction l as [|x l IH]; [reflexivity|]. cbn [app map fold_right]. rewrite IH. lia.
Qed.

Lemma stamp_decoded : forall w r, stamp w r -> decode_stamp_rec w = HOk (Some r).
Proof.
  intros w r H. unfold decode_stamp_rec.
  rewrite !bits_field by lia. rewrite bit_spec by lia.
  assert (T : forall n, field 64 w 0 23 = n -> field 64 w 0 23 =? n = true) by (intros; apply N.eqb_eq; assumption).
  destruct H as [E|E|E|E E2|E|E E2]; try (rewrite E; reflexivity).
  - rewrite E, E2. reflexivity.
  - assert (F : exists k, field 64 w 0 23 = 0xACEFF8 + k /\ k < 8).
    { unfold field in E |- *. unfold ibm_bit in E2. 
      change (64 - 1 - 19) with 44 in E. change (19 - 0 + 1) with 20 in E. change (64 - 1 - 20) with 43 in E2.
      change (64 - 1 - 23) with 40. change (23 - 0 + 1) with 24.
      change 44 with (40 + 4) in E. change 43 with (3 + 40) in E2.
      rewrite <- N.div_pow2_bits in E2.
      rewrite N.pow_add_r, <- N.div_div in E by discriminate. revert E E2. generalize (w / 2 ^ 40). intros x E E2.
      change (2 ^ 24) with (8 * (2 * 2 ^ 20)). change (2 ^ 4) with (8 * 2) in E.
      rewrite N.mod_mul_r, (N.mod_mul_r (x / 8)) by discriminate.
      rewrite <- N.div_div in E by discriminate. rewrite E.
      rewrite N.testbit_odd, N.shiftr_div_pow2 in E2. change (2 ^ 3) with 8 in E2.
      assert (O : (x / 8) mod 2 = 1) by (rewrite <- N.bit0_mod, N.bit0_odd, E2; reflexivity).
      rewrite O. exists (x mod 8). split; [lia|apply N.mod_lt; discriminate]. }
    destruct F as (k & F & K). rewrite F.
    assert (KK : k = 0 \/ k = 1 \/ k = 2 \/ k = 3 \/ k = 4 \/ k = 5 \/ k = 6 \/ k = 7) by lia.
    assert (D : decode_timek w = time_of w).
    { unfold decode_timek, time_of. rewrite !bits_field by lia.
      assert (B : field 64 w 20 27 < 2 ^ 8) by (unfold field; apply N.mod_lt; discriminate).
      set (n := field 64 w 20 27) in *. clearbody n. clear - B.
      destruct n as [|p]; [reflexivity|].
      do 9 (destruct p as [p|p|]; try reflexivity; try (exfalso; clear - B; lia)). }
    rewrite D. destruct KK as [-> |[-> |[-> |[-> |[-> |[-> |[-> | ->]]]]]]]; reflexivity.
Qed.

Section READ.
  Variable full : bool.
  Variable bad : bool.
  Variable stale : Z -> list N.
  Variable nwords : nat.
  (** Holds of the instruction records. *)
  Variable J : qrec -> Prop.
  Hypothesis stale_len : forall z, length (stale z) = 8%nat.
  Hypothesis small : (Z.of_nat nwords <= 2 ^ 30)%Z.

  Definition At (ws : list N) (c : cur) : Prop :=
    c_data c = bytes_of ws /\ c_rewind c = false /\ c_eof c = false /\ c_bad c = bad
    /\ Forall (fun w => w < 2 ^ 64) ws /\ (c_nr c + Z.of_nat (length ws) = Z.of_nat nwords)%Z.
  Definition told (e : erec) (r : hrec) : Prop := tells e r /\ forall q, r = RInsn q -> J q.
  Definition Sim (a : abs) (s : hst) : Prop :=
    h_addr s = ab_addr a /\ Tlbdump_Proofs4.good (ab_ops a) (h_tlb s)
    /\ Bb_Model.bb_run (ab_ea a) = Bb_Model.BOk (h_bb s) /\ h_log s = ab_log a
    /\ Forall2 told (ab_out a) (h_out s)
    /\ (forall c, h_stat s c = count_of c (ab_cnt a) mod 2 ^ 32)
    /\ (h_prev_addr s, h_prev_branch s) = ab_prev a.
  Definition R (ws : list N) (a : abs) (s : hst) : Prop := At ws (h_cur s) /\ Sim a s.

  Lemma fetch_one : forall w ws a s B (k : option N -> H B) Q, R (w :: ws) a s ->
    (forall s', R ws a s' -> wp (k (Some w)) Q s') -> wp (hbind (fetch_internal stale) k) Q s.
  Proof.
    intros w ws a s B k Q [(D & RW & E & BD & W & NR) SIM] K. inversion W; subst.
    apply wp_bind. unfold wp, fetch_internal, htm_read. rewrite RW, D, E.
    unfold bytes_of. cbn [flat_map]. fold (bytes_of ws).
    assert (F : firstn 8 (be8 w ++ bytes_of ws) = be8 w) by reflexivity.
    assert (G : skipn 8 (be8 w ++ bytes_of ws) = bytes_of ws) by reflexivity.
    rewrite F, G, be8_length. change (8 <? 8)%nat with false. rewrite andb_false_r.
    change (false && _)%bool with false. cbv iota. change (1 <=? 0)%Z with false. cbv iota.
    change (8 =? 0)%nat with false. cbn [orb c_data c_bad c_eof c_off c_nr c_nr_rewind c_prev c_rewind c_scanned c_sum].
    rewrite (skipn_all2 (stale (c_nr (h_cur s)))) by (rewrite stale_len; lia).
    rewrite app_nil_r, be8_val by assumption. cbn [length] in NR.
    destruct (Z.eqb_spec (c_nr (h_cur s)) 2147483647) as [X|X]; [lia|].
    apply K. split; [|exact SIM]. 
    unfold At. cbn [h_cur set_cur c_data c_bad c_eof c_off c_nr c_nr_rewind c_prev c_rewind c_scanned c_sum].
    repeat split; try assumption. lia.
  Qed.

  Definition with_cnt (c : ctr) (k : N) (a : abs) : abs :=
    mk_abs (ab_addr a) (ab_ops a) (ab_log a) (ab_ea a) (ab_out a) (ab_cnt a ++ [(c, k)]) (ab_prev a).
  Lemma sim_stat : forall c k a s, Sim a s -> Sim (with_cnt c k a) (add_stat c k s).
  Proof.
    intros c k a s (H1 & H2 & H3 & H4 & H5 & H6 & H7). unfold Sim.
    cbn [ab_addr ab_ops ab_log ab_ea ab_out ab_cnt ab_prev with_cnt h_addr h_tlb h_bb h_log h_out h_stat h_prev_addr h_prev_branch add_stat].
    split; [assumption|]. split; [assumption|]. split; [assumption|]. split; [assumption|]. split; [assumption|]. split; [|assumption]. intros c'. rewrite count_of_app. unfold count_of at 2. cbn [map fold_right fst snd].
    rewrite N.add_0_r. destruct (ctr_dec c c') as [<-|]; [|rewrite N.add_0_r; apply H6].
    unfold u32, w32. change 4294967296 with (2 ^ 32). rewrite (H6 c).
    rewrite N.add_mod_idemp_l by discriminate. reflexivity.
  Qed.
  Lemma run_count : forall c ws a s B (k : unit -> H B) Q, R ws a s ->
    (forall s', R ws (with_cnt c 1 a) s' -> wp (k tt) Q s') -> wp (hbind (count c) k) Q s.
  Proof.
    intros c ws a s B k Q [C SIM] K. apply wp_set, K. split; [exact C|]. apply sim_stat, SIM.
  Qed.
  Lemma run_stat : forall c n ws a s B (k : unit -> H B) Q, R ws a s ->
    (forall s', R ws (with_cnt c n a) s' -> wp (k tt) Q s') -> wp (hbind (hset (add_stat c n)) k) Q s.
  Proof.
    intros c n ws a s B k Q [C SIM] K. apply wp_set, K. split; [exact C|]. apply sim_stat, SIM.
  Qed.
  (** ** Stamps *)
  Lemma stamp_marked : forall w r, stamp w r -> field 64 w 0 19 = 0xACEFF.
  Proof.
    intros w r H.
    assert (X : forall t, field 64 w 0 23 = t -> field 64 w 0 19 = t / 16).
    { intros t <-. unfold field. change (64 - 1 - 23) with 40. change (64 - 1 - 19) with 44.
      change (23 - 0 + 1) with 24. change (19 - 0 + 1) with 20. change 44 with (40 + 4).
      rewrite N.pow_add_r, <- N.div_div by discriminate. generalize (w / 2 ^ 40). intros x.
      change (2 ^ 24) with (16 * 2 ^ 20). change (2 ^ 4) with 16.
      rewrite N.mod_mul_r by discriminate. rewrite (N.mul_comm 16), N.div_add by discriminate.
      rewrite (N.div_small (x mod 16)) by (apply N.mod_lt; discriminate). reflexivity. }
    destruct H as [E|E|E|E _|E|E _]; try (rewrite (X _ E); reflexivity). exact E.
  Qed.

  Definition of_stamp (r : hrec) (a : abs) : abs :=
    mk_abs (ab_addr a) (ab_ops a) (ab_log a) (ab_ea a)
           (if full then ab_out a ++ [EStamp r] else ab_out a) (ab_cnt a ++ stamp_events r) (ab_prev a).
  Lemma sim_out : forall e r a s, Sim a s -> told e r ->
    Sim (mk_abs (ab_addr a) (ab_ops a) (ab_log a) (ab_ea a) (ab_out a ++ [e]) (ab_cnt a) (ab_prev a)) (add_out r s).
  Proof.
    intros e r a s (H1 & H2 & H3 & H4 & H5 & H6 & H7) T. repeat (split; [assumption|]). split; [|split; assumption].
    cbn [ab_out add_out h_out]. apply Forall2_app; [assumption|]. constructor; [assumption|constructor].
  Qed.
  Lemma run_stamp : forall w r ws a s B (k : bool -> H B) Q, R ws a s -> stamp w r ->
    (forall s', R ws (of_stamp r a) s' -> wp (k true) Q s') -> wp (hbind (decode_stamp full w) k) Q s.
  Proof.
    intros w r ws a s B k Q RS ST K. unfold decode_stamp. apply wp_assoc.
    eapply run_count; [exact RS|]. clear s RS. intros s RS. rewrite (stamp_decoded w r ST).
    assert (FIN : forall a' s', R ws a' s' -> ab_addr a' = ab_addr a -> ab_ops a' = ab_ops a ->
      ab_log a' = ab_log a -> ab_ea a' = ab_ea a -> ab_out a' = ab_out a ->
      ab_cnt a' = ab_cnt a ++ stamp_events r -> ab_prev a' = ab_prev a ->
      wp (hbind (_ <-- (if full then hset (add_out r) else hret tt);; hret true) k) Q s').
    { intros a' s' [C' S'] E1 E2 E3 E4 E5 E6 E7. destruct full eqn:FU; apply K.
      - split; [exact C'|]. replace (of_stamp r a) with
          (mk_abs (ab_addr a') (ab_ops a') (ab_log a') (ab_ea a') (ab_out a' ++ [EStamp r]) (ab_cnt a') (ab_prev a')).
        apply sim_out; [exact S'|split; [reflexivity|]; intros q ->; inversion ST]. unfold of_stamp. rewrite FU. congruence.
      - split; [exact C'|]. replace (of_stamp r a) with a'; [exact S'|]. unfold of_stamp. rewrite FU.
        destruct a'. cbn in *. congruence. }
    assert (PLAIN : stamp_events r = [(RecordsProcessed, 1)] ->
       wp (hbind (_ <-- hret tt;; _ <-- (if full then hset (add_out r) else hret tt);; hret true) k) Q s).
    { intros E. apply wp_assoc, wp_retb. apply (FIN _ s RS); try reflexivity. cbn [ab_cnt with_cnt]. rewrite E. reflexivity. }
    destruct r as [| | | | |t|q]; try (apply PLAIN; reflexivity).
    apply wp_assoc. apply wp_assoc.
    assert (REST : forall a' s', R ws a' s' -> ab_addr a' = ab_addr a -> ab_ops a' = ab_ops a ->
      ab_log a' = ab_log a -> ab_ea a' = ab_ea a -> ab_out a' = ab_out a ->
      ab_cnt a' ++ [(TsScanned, 1); (TsProcessed, 1)] = ab_cnt a ++ stamp_events (RTime t) -> ab_prev a' = ab_prev a ->
      wp (hbind (_ <-- count TsScanned;; count TsProcessed)
           (fun _ => hbind (_ <-- (if full then hset (add_out (RTime t)) else hret tt);; hret true) k)) Q s').
    { intros a' s' RS' E1 E2 E3 E4 E5 E6 E7. apply wp_assoc. eapply run_count; [exact RS'|]. clear s' RS'. intros s' RS'.
      eapply run_count; [exact RS'|]. clear s' RS'. intros s' RS'. apply (FIN _ s' RS'); try assumption.
      cbn [ab_cnt with_cnt]. rewrite <- E6, <- app_assoc. reflexivity. }
    destruct t as [e| | | | | | |]; try (apply wp_retb; apply (REST _ s RS); try reflexivity; cbn [ab_cnt with_cnt]; rewrite <- app_assoc; reflexivity).
    eapply run_stat; [exact RS|]. clear PLAIN s RS. intros s RS. apply (REST _ s RS); try reflexivity.
    cbn [ab_cnt with_cnt]. rewrite <- !app_assoc. reflexivity.
  Qed.

  Fixpoint of_stamps (l : stamps) (a : abs) : abs :=
    match l with [] => a | p :: l' => of_stamps l' (of_stamp (snd p) a) end.
  Lemma fetch_stamps : forall l w ws fuel a s B (k : option N -> H B) Q,
    R (map fst l ++ w :: ws) a s -> stamps_ok l -> field 64 w 0 19 <> 0xACEFF ->
    (length l < fuel)%nat ->
    (forall s', R ws (of_stamps l a) s' -> wp (k (Some w)) Q s') ->
    wp (hbind (fetch_loop stale full fuel) k) Q s.
  Proof.
    induction l as [|[v r] l IH]; intros w ws fuel a s B k Q RS OK NM F K; destruct fuel as [|fuel]; [cbn in F; lia| |cbn in F; lia|].
    - cbn [fetch_loop]. apply wp_assoc. eapply fetch_one; [exact RS|]. intros s' RS'.
      rewrite bits_field by lia. apply N.eqb_neq in NM. rewrite NM. apply wp_retb, K, RS'.
    - cbn [fetch_loop]. apply wp_assoc. eapply fetch_one; [exact RS|]. intros s' RS'.
      inversion OK as [|? ? [V ST] OK']; subst. cbn [fst snd] in *.
      rewrite bits_field by lia. rewrite (stamp_marked v r ST). rewrite N.eqb_refl.
      apply wp_assoc. eapply run_stamp; [exact RS'|exact ST|]. clear s' RS'. intros s' RS'.
      cbn [length] in F. eapply IH; [exact RS'|exact OK'|exact NM|lia|]. exact K.
  Qed.
  Lemma run_fetch : forall l w ws a s B (k : option N -> H B) Q,
    R (map fst l ++ w :: ws) a s -> stamps_ok l -> field 64 w 0 19 <> 0xACEFF ->
    (forall s', R ws (of_stamps l a) s' -> wp (k (Some w)) Q s') ->
    wp (hbind (htm_decode_fetch stale full) k) Q s.
  Proof.
    intros l w ws a s B k Q RS OK NM K. unfold htm_decode_fetch.
    assert (X : wp (hbind (fetch_loop stale full (fuel_of s)) k) Q s); [|exact X].
    eapply fetch_stamps; try eassumption. destruct RS as [(D & _) _]. unfold fuel_of. rewrite D, bytes_length, app_length, map_length.
    lia.
  Qed.
End READ.
