(** Proofs for C80: what the decoder keeps, and how it can stop. *)
Require Import NArith ZArith List Bool Lia.
Require Import ZifyBool ZifyN ZifyNat.
Require Import Verif.Word Verif.Codec_Types Verif.HtmBits_Model Verif.HtmBits_Spec Verif.HtmBits_Proofs.
Require Import Verif.Pwc_Model Verif.Xlate_Model Verif.Xlate_Spec Verif.Xlate_Proofs.
Require Import Verif.Htm_Model Verif.Htm_Spec Verif.Htm_Proofs Verif.Htm_Proofs2 Verif.Htm_Proofs3.
Require Import Verif.Fault_Spec Verif.Fault_Proofs.
Require Verif.Tlb_Model Verif.Tlb_Spec Verif.Bb_Model Verif.Tlbdump_Proofs3.
Import ListNotations.
Local Open Scope N_scope.

Lemma be_lt : forall l, bytes_ok l -> (length l <= 8)%nat -> be_val l < 2 ^ 64.
Proof.
  intros l H L. unfold be_val.
  assert (G : forall l a k, bytes_ok l -> a < 256 ^ N.of_nat k ->
    fold_left (fun a b => a * 256 + b) l a < 256 ^ N.of_nat (k + length l)).
  { clear. induction l as [|b l IH]; intros a k H HA; cbn [fold_left length]; [rewrite Nat.add_0_r; exact HA|].
    inversion H; subst. replace (k + S (length l))%nat with (S k + length l)%nat by lia. apply IH; [assumption|].
    rewrite Nat2N.inj_succ, N.pow_succ_r'. nia. }
  specialize (G l 0 0%nat H). cbn [Nat.add] in G.
  apply N.lt_le_trans with (256 ^ N.of_nat (length l)); [apply G; reflexivity|].
  change (2 ^ 64) with (256 ^ 8). apply N.pow_le_mono_r; lia.
Qed.
Lemma mod_lt64 : forall n, n mod w64 < 2 ^ 64.
Proof. intros. apply N.mod_lt. discriminate. Qed.

Lemma bytes_firstn : forall n l, bytes_ok l -> bytes_ok (firstn n l).
Proof. intros n l H. rewrite <- (firstn_skipn n l) in H. apply Forall_app in H. apply H. Qed.
Lemma bytes_skipn : forall n l, bytes_ok l -> bytes_ok (skipn n l).
Proof. intros n l H. rewrite <- (firstn_skipn n l) in H. apply Forall_app in H. apply H. Qed.

Lemma ldiff_small : forall a b, N.ldiff a b <= a.
Proof.
  intros a b. apply N.ldiff_le. apply N.bits_inj. intros i.
  rewrite !N.ldiff_spec, N.bits_0. destruct (N.testbit a i), (N.testbit b i); reflexivity.
Qed.

Section FAULT.
  Variable qs : Tlb_Model.qsort.
  Variable stale : Z -> list N.
  Variable junk : Z -> qrec.
  Variable full : bool.
  Hypothesis qs_ok : Tlb_Spec.sorter qs.
  Hypothesis stale_len : forall z, length (stale z) = 8%nat.
  Hypothesis stale_ok : forall z, bytes_ok (stale z).

  Variable big : Prop.
  Definition may (e : herr) : Prop :=
    stops full e \/ (e = HFuel \/ e = HStuck) \/ big /\ overflows e.
  Definition cur_ok (c : cur) : Prop :=
    ((Z.of_nat (mu c) + c_nr c < 2147483647)%Z \/ big) /\ bytes_ok (c_data c) /\ bytes_ok (c_prev c)
    /\ (length (c_prev c) <= 8)%nat.
  Definition tlb_good (a : N) (t : Tlb_Model.tlbs) : Prop := tlb_ok a t /\ Tlbdump_Proofs3.sound t.
  Record J (a b : N) (s : hst) : Prop := mk_J {
    j_cur : cur_ok (h_cur s); j_x : x_inv (h_x s);
    j_addr : h_addr s < 2 ^ 64; j_real : h_real s < 2 ^ 64;
    j_tlb : tlb_good a (h_tlb s); j_bb : bb_ok b (h_bb s) }.
  Definition keeps {A} (a b a' b' : N) (m : H A) (R : A -> Prop) : Prop :=
    forall s, J a b s -> match m s with HOk (s', v) => J a' b' s' /\ R v | HErr e => may e end.
  Definition any {A} : A -> Prop := fun _ => True.

  Lemma k_ret : forall A a b (v : A) (R : A -> Prop), R v -> keeps a b a b (hret v) R.
  Proof. intros A a b v R H s Hs. cbn. auto. Qed.
  Lemma k_error : forall A a b a' b' e (R : A -> Prop), may e -> keeps a b a' b' (herror e) R.
  Proof. intros A a b a' b' e R H s Hs. exact H. Qed.
  Lemma k_bind : forall A B a b a1 b1 a2 b2 (m : H A) (k : A -> H B) R Q,
    keeps a b a1 b1 m R -> (forall v, R v -> keeps a1 b1 a2 b2 (k v) Q) -> keeps a b a2 b2 (hbind m k) Q.
  Proof.
    intros A B a b a1 b1 a2 b2 m k R Q Hm Hk s Hs. unfold hbind. specialize (Hm s Hs).
    destruct (m s) as [[s' v]|e]; [destruct Hm; apply Hk; assumption|exact Hm].
  Qed.
  Lemma k_weak : forall A a b a' b' (m : H A) (R Q : A -> Prop),
    keeps a b a' b' m R -> (forall v, R v -> Q v) -> keeps a b a' b' m Q.
  Proof.
    intros A a b a' b' m R Q Hm H s Hs. specialize (Hm s Hs).
    destruct (m s) as [[s' v]|e]; [destruct Hm; auto|exact Hm].
  Qed.
  Lemma J_weak : forall a b a' b' s, a <= a' -> b <= b' -> J a b s -> J a' b' s.
  Proof.
    intros a b a' b' s L1 L2 []. constructor; try assumption.
    - destruct j_tlb0 as ((? & ? & ?) & ?). split; [|assumption]. split; [assumption|split; [lia|assumption]].
    - destruct j_bb0 as (? & ? & ? & ?). split; [assumption|split; [lia|split; assumption]].
  Qed.
  Lemma k_more : forall A a b a1 b1 a2 b2 (m : H A) (R : A -> Prop), a1 <= a2 -> b1 <= b2 ->
    keeps a b a1 b1 m R -> keeps a b a2 b2 m R.
  Proof.
    intros A a b a1 b1 a2 b2 m R L1 L2 Hm s Hs. specialize (Hm s Hs).
    destruct (m s) as [[s' v]|e]; [destruct Hm; split; [eapply J_weak; eassumption|assumption]|exact Hm].
  Qed.
  Lemma k_get : forall A a b (f : hst -> A) (R : A -> Prop),
    (forall s, J a b s -> R (f s)) -> keeps a b a b (hget f) R.
  Proof. intros A a b f R H s Hs. cbn. auto. Qed.
  Lemma k_set : forall a b a' b' f, (forall s, J a b s -> J a' b' (f s)) -> keeps a b a' b' (hset f) any.
  Proof. intros a b a' b' f H s Hs. cbn. split; [auto|exact I]. Qed.
  Lemma k_count : forall a b c, keeps a b a b (count c) any.
  Proof. intros a b c. apply k_set. intros s []. constructor; assumption. Qed.

  Definition word (w : option N) : Prop := match w with Some v => v < 2 ^ 64 | None => True end.
  Lemma k_internal : forall a b, keeps a b a b (fetch_internal stale) word.
  Proof.
    intros a b s [(C1 & C2 & C3 & C4) H1 H2 H3 H4 H5]. unfold fetch_internal, htm_read.
    assert (F8 : bytes_ok (firstn 8 (c_data (h_cur s)))) by (apply bytes_firstn, C2).
    destruct (c_rewind (h_cur s)) eqn:E.
    - change (1 <=? 0)%Z with false. cbv iota beta.
      cbn [c_data c_bad c_eof c_off c_nr c_nr_rewind c_prev c_rewind c_scanned c_sum].
      destruct (Z.eqb_spec (c_nr (h_cur s)) 2147483647) as [N0|N0];
        [destruct C1 as [C1|C1]; [exfalso; lia|right; right; split; [exact C1|left; reflexivity]]|].
      split; [|apply be_lt; assumption].
      constructor; cbn [set_cur h_cur h_x h_addr h_real h_tlb h_bb]; try assumption.
      split; [destruct C1 as [C1|C1]; [left|right; exact C1]; unfold mu in *; cbn [c_data c_eof c_rewind c_nr]; rewrite E in C1; lia|]. auto.
    - destruct (c_bad (h_cur s) && (length (firstn 8 (c_data (h_cur s))) <? 8)%nat);
        [|destruct (c_eof (h_cur s) && (length (firstn 8 (c_data (h_cur s))) =? 0)%nat) eqn:B2].
      + change (-1 <=? 0)%Z with true. cbv iota beta. split; [|exact I].
        constructor; cbn [set_cur h_cur h_x h_addr h_real h_tlb h_bb]; try assumption.
        split; [destruct C1 as [C1|C1]; [left|right; exact C1]; unfold mu in *; cbn [c_data c_eof c_rewind c_nr]; rewrite E in *; lia|].
        cbn [c_data c_prev]. split; [exact C2|]. split; [apply stale_ok|rewrite stale_len; lia].
      + change (0 <=? 0)%Z with true. cbv iota beta. split; [|exact I].
        constructor; cbn [set_cur h_cur h_x h_addr h_real h_tlb h_bb]; try assumption.
        split; [destruct C1 as [C1|C1]; [left|right; exact C1]; unfold mu in *; cbn [c_data c_eof c_rewind c_nr]; rewrite E in *; lia|].
        cbn [c_data c_prev]. split; [exact C2|]. split; [apply stale_ok|rewrite stale_len; lia].
      + change (1 <=? 0)%Z with false. cbv iota beta.
        cbn [c_data c_bad c_eof c_off c_nr c_nr_rewind c_prev c_rewind c_scanned c_sum].
        assert (PO : bytes_ok (firstn 8 (c_data (h_cur s)) ++ skipn (length (firstn 8 (c_data (h_cur s)))) (stale (c_nr (h_cur s))))).
        { apply Forall_app. split; [exact F8|apply bytes_skipn, stale_ok]. }
        assert (PL : length (firstn 8 (c_data (h_cur s)) ++ skipn (length (firstn 8 (c_data (h_cur s)))) (stale (c_nr (h_cur s)))) = 8%nat).
        { rewrite app_length, skipn_length, stale_len, firstn_length. lia. }
        assert (LL : length (firstn 8 (c_data (h_cur s))) = Nat.min 8 (length (c_data (h_cur s)))) by apply firstn_length.
        destruct (Z.eqb_spec (c_nr (h_cur s)) 2147483647) as [N0|N0];
        [destruct C1 as [C1|C1]; [exfalso; lia|right; right; split; [exact C1|left; reflexivity]]|].
        split; [|apply be_lt; [exact PO|rewrite PL; lia]].
        constructor; cbn [set_cur h_cur h_x h_addr h_real h_tlb h_bb]; try assumption.
        split.
        { destruct C1 as [C1|C1]; [left|right; exact C1]. unfold mu in *; cbn [c_data c_eof c_rewind c_nr]. rewrite E in C1. rewrite skipn_length.
          destruct (Nat.eqb_spec (length (firstn 8 (c_data (h_cur s)))) 0) as [Z0|Z0].
          - apply andb_false_iff in B2 as [B2|B2]; [|discriminate B2]. rewrite B2 in *. cbn [orb]. lia.
          - rewrite orb_false_r. destruct (c_eof (h_cur s)); lia. }
        cbn [c_data c_prev]. split.
        { apply bytes_skipn, C2. }
        split; [exact PO|rewrite PL; lia].
  Qed.

  Lemma k_rewind : forall a b v, keeps a b a b (htm_rewind v) any.
  Proof.
    intros a b v s [(C1 & C2 & C3 & C4) H1 H2 H3 H4 H5]. unfold htm_rewind. cbv zeta.
    destruct (_ =? _)%Z; [right; left; right; reflexivity|]. split; [|exact I].
    constructor; cbn [set_cur h_cur h_x h_addr h_real h_tlb h_bb]; try assumption.
    split; [|cbn [c_data c_prev]; auto].
    destruct C1 as [C1|C1]; [left|right; exact C1].
    unfold mu in *. cbn [c_data c_eof c_rewind c_nr]. destruct (c_rewind (h_cur s)), (c_eof (h_cur s)); lia.
  Qed.

  Ltac mayt := left; first [exact I | assumption].
  Ltac k_step :=
    match goal with
    | |- keeps _ _ _ _ (hbind (fetch_internal _) _) _ => eapply k_bind; [apply k_internal|intros [?|] ?]
    | |- keeps _ _ _ _ (hbind (htm_rewind _) _) _ => eapply k_bind; [apply k_rewind|intros _ _]
    | |- keeps _ _ _ _ (hbind (count _) _) _ => eapply k_bind; [apply k_count|intros _ _]
    | |- keeps _ _ _ _ (hbind (hget h_addr) _) _ => eapply k_bind; [apply k_get with (R := fun v => v < 2 ^ 64); intros ? []; assumption|intros ? ?]
    | |- keeps _ _ _ _ (hbind (hget h_real) _) _ => eapply k_bind; [apply k_get with (R := fun v => v < 2 ^ 64); intros ? []; assumption|intros ? ?]
    | |- keeps ?a _ _ _ (hbind (hget h_tlb) _) _ => eapply k_bind; [apply k_get with (R := tlb_good a); intros ? []; assumption|intros ? ?]
    | |- keeps _ ?b _ _ (hbind (hget h_bb) _) _ => eapply k_bind; [apply k_get with (R := bb_ok b); intros ? []; assumption|intros ? ?]
    | |- keeps _ _ _ _ (hbind (hget h_x) _) _ => eapply k_bind; [apply k_get with (R := x_inv); intros ? []; assumption|intros ? ?]
    | |- keeps _ _ _ _ (hbind (hget _) _) _ => eapply k_bind; [apply k_get with (R := any); intros; exact I|intros ? _]
    | |- keeps ?a ?b _ _ (hbind (hset _) _) _ => apply (k_bind _ _ a b a b _ _ _ _ any); [apply k_set; intros ? []; constructor; assumption|intros _ _]
    | |- keeps ?a ?b _ _ (hbind (match _ with _ => _ end) _) _ => apply (k_bind _ _ a b a b _ _ _ _ any); [|intros ? _]
    | |- keeps _ _ _ _ (hset _) any => apply k_set; intros ? []; constructor; assumption
    | |- keeps _ _ _ _ (hret _) any => apply k_ret; exact I
    | |- keeps _ _ _ _ (hret _) _ => apply k_ret
    | |- keeps _ _ _ _ (count _) _ => apply k_count
    | |- keeps _ _ _ _ (herror _) _ => apply k_error; mayt
    | |- keeps _ _ _ _ (match ?x with _ => _ end) _ => destruct x eqn:?
    end.
  Ltac kk := repeat (cbv zeta; k_step).

  Lemma k_stamp : forall a b v, keeps a b a b (decode_stamp full v) any.
  Proof.
    intros a b v. unfold decode_stamp. k_step.
    destruct (decode_stamp_rec v) as [[r|]|e] eqn:E.
    - apply (k_bind _ _ a b a b _ _ _ _ any); [destruct r; kk|intros _ _].
      apply (k_bind _ _ a b a b _ _ _ _ any); [|intros; kk].
      destruct full; [apply k_set; intros ? []; constructor; assumption|apply k_ret; exact I].
    - kk.
    - apply k_error. unfold decode_stamp_rec in E.
      repeat match type of E with (if ?b then _ else _) = _ => destruct b end; try discriminate E.
      assert (e = HAssert) by congruence. subst. mayt.
  Qed.
  Lemma k_loop : forall f a b, keeps a b a b (fetch_loop stale full f) word.
  Proof.
    induction f as [|f IH]; intros a b; cbn [fetch_loop]; [apply k_error; right; left; left; reflexivity|].
    k_step; [|kk; exact I]. k_step; [|kk; assumption].
    eapply k_bind; [apply k_stamp|]. intros [|] _; [apply IH|kk; exact I].
  Qed.
  Lemma k_fetch : forall a b, keeps a b a b (htm_decode_fetch stale full) word.
  Proof. intros a b s Hs. exact (k_loop _ a b s Hs). Qed.
  Ltac k_step2 :=
    lazymatch goal with
    | |- keeps _ _ _ _ (hbind (htm_decode_fetch _ _) _) _ => eapply k_bind; [apply k_fetch|intros [?|] ?]
    | _ => k_step
    end.
  Ltac k2 := repeat (cbv zeta; k_step2).

  (** ** POWER8 *)
  Definition keep8 {A} (a b : N) (m : H A) : Prop := keeps a b a b m any.
  Lemma k_done8 : forall a b i p, keeps a b a b (done8 junk full i p) any.
  Proof.
    intros a b i p. unfold done8. k2.
  Qed.
  Lemma k_dra8 : forall a b i p, keeps a b a b (dra8 stale junk full i p) any.
  Proof. intros a b i p. unfold dra8. k2; apply k_done8. Qed.
  Lemma k_dea8 : forall a b i p, keeps a b a b (dea8 stale junk full i p) any.
  Proof. intros a b i p. unfold dea8. k2; first [apply k_dra8 | apply k_done8]. Qed.

  Lemma k_bb : forall A a b a' b' addr bb (k : Bb_Model.bbs -> H A) R, bb_ok b bb -> b < 2 ^ 30 \/ big ->
    (forall bb', bb_ok (b + 1) bb' -> keeps a b a' b' (k bb') R) ->
    keeps a b a' b' (match Bb_Model.bb_ea_log bb addr with Bb_Model.BErr e => herror (HBb e) | Bb_Model.BOk bb' => k bb' end) R.
  Proof. intros A a b a' b' addr bb k R H L Hk. destruct (log_safe big bb addr b H L) as [(bb' & -> & H')|[B ->]]; [apply Hk, H'|].
    apply k_error. right; right. split; [exact B|right; right; reflexivity]. Qed.
  Lemma k_set_bb : forall a b bb', bb_ok (b + 1) bb' -> keeps a b a (b + 1) (hset (set_bb bb')) any.
  Proof. intros a b bb' H. apply k_set. intros s []. constructor; assumption. Qed.
  Lemma k_ira8 : forall a b i sw ir p, a < 2 ^ 30 \/ big -> b < 2 ^ 30 \/ big ->
    keeps a b (a + 1) (b + 1) (ira8 qs stale junk full i sw ir p) any.
  Proof.
    intros a b i sw ir p La Lb. unfold ira8. k_step2. k_step2. apply k_bb; [assumption..|]. intros bb' Hbb.
    eapply k_bind; [apply k_set_bb, Hbb|]. intros _ _.
    assert (M : forall (m : Htm_Model.H Z), keeps a (b + 1) a (b + 1) m any -> keeps a (b + 1) (a + 1) (b + 1) m any)
      by (intros m; apply k_more; lia).
    destruct (p_ira p && negb sw); [|apply M; k_step2; apply k_dea8].
    k_step2; [|apply M; k2]. destruct (negb full) eqn:EF; [apply M, k_dea8|].
    destruct (decode_ira _ _) as [[ra ps]|]; [|apply M; k2; apply k_done8].
    do 3 k_step2.
    match goal with X : tlb_good a ?t |- _ =>
      pose proof (set_safe big qs t v (if ir then Tlb_Model.TLB_FLAGS_RELOC else 0) ra (2 ^ ps) a qs_ok (proj1 X) La) as TS;
      pose proof (fun s' => Tlbdump_Proofs3.set_sound qs t v (if ir then Tlb_Model.TLB_FLAGS_RELOC else 0) ra (2 ^ ps) s' qs_ok (proj2 X)) as TD end.
    destruct (Tlb_Model.tlb_ra_set _ _ _ _ _ _) as [tlb'|e]; cbn [tsafe] in TS.
    - assert (TG : tlb_good (a + 1) tlb') by (split; [exact TS|exact (TD tlb' eq_refl)]).
      apply (k_bind _ _ _ _ (a + 1) (b + 1) _ _ _ _ any); [apply k_set; intros s []; constructor; assumption|intros _ _].
      k_step2. apply k_dea8.
    - apply k_error. destruct TS as [->|[B ->]]; [|right; right; split; [exact B|right; left; reflexivity]].
      left. cbn. destruct full; [reflexivity|discriminate EF].
  Qed.
  Lemma k_insn8 : forall a b v, a < 2 ^ 30 \/ big -> b < 2 ^ 30 \/ big ->
    keeps a b (a + 1) (b + 1) (decode_insn8 qs stale junk full v) any.
  Proof.
    intros a b v La Lb. unfold decode_insn8. do 2 k_step2.
    assert (M : forall (m : Htm_Model.H Z), keeps a b a b m any -> keeps a b (a + 1) (b + 1) m any)
      by (intros m; apply k_more; lia).
    destruct (decode_info8 v) as [info|]; [|apply M; k2]. destruct (negb _); [apply M; k2|]. k_step2. cbv zeta.
    assert (ADD : forall x, add64 x 4 < 2 ^ 64) by (intros x; apply mod_lt64).
    assert (SA : forall x, x < 2 ^ 64 -> keeps a b a b (hset (set_addr x)) any).
    { intros x Hx. apply k_set. intros s []. constructor; assumption. }
    destruct (i_iea info).
    - k_step2; [|apply M; k2]. cbn [word] in *. unfold decode_iea. destruct (tagged n).
      + apply M. k_step2. eapply k_bind; [apply SA, ADD|intros _ _]. k_step2. apply k_done8.
      + set (addr := N.land n _). assert (AL : addr < 2 ^ 64) by (unfold addr; rewrite N.land_comm; apply land_lt_pow2; assumption).
        eapply k_bind; [apply SA, AL|intros _ _].
        destruct (full && negb (i_ira info)) eqn:EF; [|apply k_ira8; assumption].
        k_step2.
        match goal with X : tlb_good a ?t |- _ =>
          pose proof (get_safe big t addr (if bit n 63 then Tlb_Model.TLB_FLAGS_RELOC else 0) a (proj1 X)) as TS;
          pose proof (fun r s' => Tlbdump_Proofs3.get_sound t addr (if bit n 63 then Tlb_Model.TLB_FLAGS_RELOC else 0) r s' (proj2 X)) as TD end.
        destruct (Tlb_Model.tlb_ra_get _ _ _) as [[r tlb']|e]; cbn [tsafe snd] in TS.
        * assert (TG : tlb_good a tlb') by (split; [exact TS|exact (TD r tlb' eq_refl)]).
          apply (k_bind _ _ _ _ a b _ _ _ _ any); [apply k_set; intros s []; constructor; assumption|intros _ _].
          destruct r as [[ra size]|]; apply k_ira8; assumption.
        * apply k_error. destruct TS as [->|[B ->]]; [|right; right; split; [exact B|right; left; reflexivity]].
          left. cbn. destruct full; [reflexivity|discriminate EF].
    - k_step2. eapply k_bind; [apply SA, ADD|intros _ _]. apply k_ira8; assumption.
  Qed.

  (** ** POWER10 *)
  Definition xl (o : option xlate) : Prop := match o with Some x => xlate_wf x | None => True end.
  Definition walks_ok (n : nat) (o : option (list walk)) : Prop :=
    match o with Some ws => (0 < length ws <= n)%nat | None => True end.
  Lemma k_walks : forall n a b l, keeps a b a b (xlate_walks stale full n l) (walks_ok (length l + n)).
  Proof.
    induction n as [|n IH]; intros a b l; cbn [xlate_walks]; [k2; exact I|].
    k_step2; [|k2; exact I]. destruct (bit n0 7).
    - k2. cbn [walks_ok]. rewrite app_length. cbn [length]. lia.
    - eapply k_weak; [apply IH|]. intros o. rewrite app_length. cbn [length].
      replace (length l + 1 + n)%nat with (length l + S n)%nat by lia. auto.
  Qed.
  Lemma k_xlate : forall a b v, keeps a b a b (decode_insn_xlate stale full v) xl.
  Proof.
    intros a b v. unfold decode_insn_xlate. destruct (negb _); [k2; exact I|]. destruct (negb _); [k2; exact I|].
    eapply k_bind; [apply k_walks|]. intros [ws|] W; [|k2; exact I].
    k2. cbn [walks_ok length Nat.add] in W. unfold NWALKS in *. split; cbn [x_walks x_nwalks].
    - rewrite app_length, repeat_length. lia.
    - lia.
  Qed.
  Definition pair64 (o : option (N * N)) : Prop :=
    match o with Some (x, y) => x < 2 ^ 64 /\ y < 2 ^ 64 | None => True end.
  Lemma k_ieara : forall a b, keeps a b a b (decode_ieara stale full) pair64.
  Proof. intros a b. unfold decode_ieara. k2; try exact I. split; apply mod_lt64. Qed.

  Lemma k_set_x : forall a b x, x_inv x -> keeps a b a b (hset (set_x x)) any.
  Proof. intros a b x H. apply k_set. intros s []. constructor; assumption. Qed.
  Lemma k_partial : forall a b x, xlate_wf x -> keeps a b a b (partial_insert_h x) any.
  Proof.
    intros a b x Hx. unfold partial_insert_h. k_step2.
    pose proof (x_step_ok v (XPartial x) ltac:(assumption) Hx) as SO. cbn [x_step] in SO.
    destruct (partial_insert (xs_partial v) x) as [l|e]; [apply k_set_x; exact SO|].
    apply k_error. destruct e; try contradiction SO. mayt.
  Qed.
  Lemma k_partials : forall a b xs, Forall xlate_wf xs -> keeps a b a b (partial_insert_all xs) any.
  Proof.
    induction xs as [|x xs IH]; intros H; cbn [partial_insert_all]; [k2|]. inversion H; subst.
    eapply k_bind; [apply k_partial; assumption|]. intros _ _. apply IH. assumption.
  Qed.
  Lemma k_xdecode : forall a b x m r ad re, full = true -> xlate_wf x -> ad < 2 ^ 64 -> re < 2 ^ 64 ->
    keeps a b a b (x_decode x m r ad re) any.
  Proof.
    intros a b x m r ad re F Hx Ha Hr. unfold x_decode. k_step2.
    pose proof (x_step_ok v (XDecode x (msr_of m) r ad re) ltac:(assumption) (conj Hx (conj Ha Hr))) as SO. cbn [x_step] in SO.
    destruct (xlate_decode v x (msr_of m) r ad re) as [[st' res]|e].
    - eapply k_bind; [apply k_set_x; exact SO|]. intros _ _. k2.
    - apply k_error. destruct e; try contradiction SO; mayt.
  Qed.
  Lemma k_xlookup : forall a b m r ad re, ad < 2 ^ 64 -> re < 2 ^ 64 ->
    keeps a b a b (x_lookup m r ad re) any.
  Proof.
    intros a b m r ad re Ha Hr. unfold x_lookup. k_step2.
    pose proof (x_step_ok v (XLookup (msr_of m) r ad re) ltac:(assumption) (conj Ha Hr)) as SO. cbn [x_step] in SO.
    destruct (xlate_lookup (xs_erat v) (msr_of m) r ad re) as [res|e]; [k2|].
    destruct e; contradiction SO.
  Qed.
  Lemma lookup_in : forall l a r o l', address_lookup l a r = (Some o, l') -> In o l.
  Proof.
    induction l as [|n l IH]; intros a r o l' E; cbn [address_lookup] in E; [discriminate E|].
    destruct (match_address n a r); [left; congruence|].
    destruct (address_lookup l a r) as [o' l''] eqn:E2. right. apply (IH a r o l''). congruence.
  Qed.
  Lemma k_xaddress : forall a b ad re, keeps a b a b (x_address ad re) xl.
  Proof.
    intros a b ad re. unfold x_address. k_step2.
    pose proof (x_step_ok v (XAddress ad re) ltac:(assumption) I) as SO. cbn [x_step] in SO.
    destruct (address_lookup (xs_partial v) ad re) as [o l] eqn:E.
    eapply k_bind; [apply k_set_x; exact SO|]. intros _ _. apply k_ret.
    destruct o as [x|]; [|exact I]. apply lookup_in in E. cbn [xl].
    match goal with X : x_inv v |- _ => destruct X as [X _]; rewrite Forall_forall in X; exact (X x E) end.
  Qed.
  Lemma select_wf : forall d l r, Forall xlate_wf l -> xl (select d l r).
  Proof.
    intros d l r H. unfold select. destruct (find _ l) as [x|] eqn:E; [|exact I].
    apply find_some in E as [E _]. rewrite Forall_forall in H. exact (H x E).
  Qed.

  Definition pre_ok (p : pre10) : Prop :=
    Forall xlate_wf (a_ixl p) /\ Forall xlate_wf (a_dxl p) /\ xl (a_ix p) /\ pair64 (a_ieara p).
  Definition pre_some (o : option (N * pre10)) : Prop := match o with Some (_, p) => pre_ok p | None => True end.
  Lemma k_pre : forall f a b v p, pre_ok p -> keeps a b a b (pre_loop stale full f v p) pre_some.
  Proof.
    induction f as [|f IH]; intros a b v p HP; cbn [pre_loop]; [apply k_error; right; left; left; reflexivity|]. cbv zeta.
    assert (NEXT : forall q, pre_ok q -> keeps a b a b
      (hbind (htm_decode_fetch stale full) (fun w => match w with None => hret None | Some v' => pre_loop stale full f v' q end)) pre_some).
    { intros q HQ. k_step2; [apply IH, HQ|k2; exact I]. }
    destruct HP as (P1 & P2 & P3 & P4).
    destruct (_ && _).
    - k_step2. destruct (_ <=? _)%nat; [kk|].
      eapply k_bind; [apply k_xlate|]. intros [x|] X; [|k2; exact I]. apply NEXT.
      split; [|auto]. cbn [a_ixl]. apply Forall_app. auto.
    - destruct (_ =? REC_TYPE_IEARA).
      + eapply k_bind; [apply k_ieara|]. intros [[ea ra]|] X; [|k2; exact I]. cbv zeta.
        pose proof (select_wf false (a_ixl p) ra P1) as SW.
        apply (k_bind _ _ a b a b _ _ _ _ any).
        { destruct (select false (a_ixl p) ra); [k2|]. destruct (a_ixl p) as [|x l]; [k2|].
          apply k_partial. inversion P1; assumption. }
        intros _ _. eapply k_bind; [apply k_partials, P2|]. intros _ _. apply NEXT.
        split; [exact P1|]. split; [constructor|]. split; [exact SW|exact X].
      + destruct (_ =? REC_TYPE_XLATE).
        * k_step2. destruct (_ <=? _)%nat; [kk|].
          eapply k_bind; [apply k_xlate|]. intros [x|] X; [|k2; exact I]. apply NEXT.
          split; [exact P1|]. split; [|auto]. cbn [a_dxl]. apply Forall_app. auto.
        * apply k_ret. repeat split; assumption.
  Qed.

  Definition w64l (l : list N) : Prop := Forall (fun v => v < 2 ^ 64) l.
  Definition data_ok (d : data10) : Prop := w64l (b_deas d) /\ w64l (b_dras d).
  Definition data_some (o : option data10) : Prop := match o with Some d => data_ok d | None => True end.
  Lemma k_dloop : forall n a b e d, data_ok d -> keeps a b a b (data_loop stale full e n d) data_some.
  Proof.
    induction n as [|n IH]; intros a b e d [D1 D2]; cbn [data_loop]; [apply k_ret; split; assumption|].
    k_step2; [|k2; exact I]. destruct (e && tagged n0).
    - k_step2. apply k_ret. split; assumption.
    - k_step2; [|k2; exact I]. destruct e.
      + destruct (tagged n1); [k_step2; apply k_ret; split; assumption|apply IH; split; assumption].
      + apply IH. split; cbn [b_deas b_dras]; apply Forall_app; (split; [assumption|constructor; [|constructor]]).
        * assumption.
        * apply mod_lt64.
  Qed.
  Lemma k_data : forall a b i, keeps a b a b (data_words stale full i) data_some.
  Proof.
    intros a b i. unfold data_words.
    assert (E : forall p x y, data_ok (mk_data10 p x y [] [])) by (intros; split; constructor).
    apply (k_bind _ _ a b a b _ _ _ _ any).
    { destruct (j_prefix i); k2. }
    intros [p|] _; [|k2; exact I]. cbv zeta. destruct full eqn:F.
    - rewrite <- F. apply k_dloop, E.
    - rewrite <- F. k2; try exact I; apply E.
  Qed.
  Lemma zth_lt : forall l i, w64l l -> zth l i < 2 ^ 64.
  Proof.
    intros l i H. unfold zth. destruct (nth_in_or_default i l 0) as [X| ->]; [|reflexivity].
    unfold w64l in H. rewrite Forall_forall in H. apply H, X.
  Qed.
  Lemma k_pages : forall a b c s, keeps a b a b (page_ctr c s) any.
  Proof. intros. unfold page_ctr. k2. Qed.

  Lemma k_insn_side : forall a b p m, full = true -> pre_ok p -> keeps a b a b (insn_side p m) any.
  Proof.
    intros a b p m F (P1 & P2 & P3 & P4). unfold insn_side. do 3 k_step2. destruct (negb v); [k2|].
    destruct (a_ieara p) as [z|].
    - apply (k_bind _ _ a b a b _ _ _ _ xl).
      { destruct (a_ix p); [apply k_ret; exact P3|apply k_xaddress]. }
      intros [x|] X.
      + eapply k_bind; [apply k_xdecode; assumption|]. intros r _.
        destruct (walk_of r) as [[rec hps] gps]. do 2 k_step2. apply k_pages.
      + eapply k_bind; [apply k_xlookup; assumption|]. intros r _.
        destruct (walk_of r) as [[rec hps] gps]. k2.
    - k2.
  Qed.
  Lemma k_data_side : forall a b c l m e r, full = true -> Forall xlate_wf l -> e < 2 ^ 64 -> r < 2 ^ 64 ->
    keeps a b a b (data_side c l m e r) any.
  Proof.
    intros a b c l m e r F HL He Hr. unfold data_side.
    pose proof (select_wf true l r HL) as SW.
    apply (k_bind _ _ a b a b _ _ _ _ xl).
    { destruct (select true l r); [apply k_ret; exact SW|apply k_xaddress]. }
    intros [x|] X.
    - eapply k_bind; [apply k_xdecode; assumption|]. intros w _.
      destruct (walk_of w) as [[rec hps] gps]. k_step2; [|k2]. destruct c; [|k2]. k_step2. apply k_pages.
    - eapply k_bind; [apply k_xlookup; assumption|]. intros w _. k2.
  Qed.
  Lemma k_done10 : forall a b i m p d, b < 2 ^ 30 \/ big -> pre_ok p -> data_ok d -> j_eabits i < 2 ^ 64 ->
    keeps a b a (b + 1) (done10 junk full i m p d) any.
  Proof.
    intros a b i m p d Lb HP [D1 D2] Le. pose proof HP as (P1 & P2 & P3 & P4). unfold done10.
    apply (k_bind _ _ a b a b _ _ _ _ any).
    { destruct (a_ieara p) as [[ea ra]|]; [|k2]. destruct P4 as [Q1 Q2].
      eapply k_bind; [apply k_set with (a' := a) (b' := b); intros s []; constructor; assumption|]. intros _ _.
      apply k_set; intros s []; constructor; assumption. }
    intros _ _. k_step2. cbv zeta. set (addr := N.lor _ _).
    assert (AL : addr < 2 ^ 64).
    { apply lor_lt_pow2; [|exact Le]. eapply N.le_lt_trans; [apply ldiff_small|assumption]. }
    apply (k_bind _ _ a b a b _ _ _ _ any); [apply k_set; intros s []; constructor; assumption|intros _ _].
    destruct (insn_word _ _ _ _) as [insn|]; [|apply (k_more _ _ _ a b); [lia|lia|k2]].
    do 2 k_step2. apply k_bb; [assumption..|]. intros bb' Hbb.
    eapply k_bind; [apply k_set_bb, Hbb|]. intros _ _. k_step2.
    destruct (negb full) eqn:NF; [k2|]. assert (F : full = true) by (destruct full; [reflexivity|discriminate NF]).
    k_step2. eapply k_bind; [apply k_insn_side; assumption|]. intros _ _. k_step2.
    pose proof (fun i => zth_lt (b_deas d) i D1) as Z1. pose proof (fun i => zth_lt (b_dras d) i D2) as Z2.
    apply (k_bind _ _ a (b + 1) a (b + 1) _ _ _ _ any).
    { destruct (_ && _); [apply k_data_side; auto|k2]. }
    intros [[drec dhps] dgps] _.
    apply (k_bind _ _ a (b + 1) a (b + 1) _ _ _ _ any).
    { destruct (_ && _); [apply k_data_side; auto|k2]. }
    intros _ _. apply (k_bind _ _ a (b + 1) a (b + 1) _ _ _ _ any).
    { destruct (_ && _); [apply k_partials; exact P2|k2]. }
    intros _ _. k2.
  Qed.
  Lemma k_insn10 : forall a b v, b < 2 ^ 30 \/ big ->
    keeps a b a (b + 1) (decode_insn10 stale junk full v) any.
  Proof.
    intros a b v Lb. unfold decode_insn10. do 2 k_step2.
    assert (M : forall (m : Htm_Model.H Z), keeps a b a b m any -> keeps a b a (b + 1) m any)
      by (intros m; apply k_more; lia).
    apply (k_bind _ _ a b a b _ _ _ _ pre_some).
    { intros s Hs. apply (k_pre _ a b); [|exact Hs]. repeat split; constructor. }
    intros [[w p]|] HP; [|apply M; k2].
    destruct (decode_info10 w) as [i|] eqn:EI; [|apply M; k2].
    assert (Le : j_eabits i < 2 ^ 64).
    { unfold decode_info10 in EI. destruct (negb _); [discriminate EI|]. destruct (negb _); [discriminate EI|].
      assert (X : j_eabits i = bits w 56 61 * 4) by (injection EI as <-; reflexivity). rewrite X.
      rewrite bits_field by lia. unfold field.
      change (61 - 56 + 1) with 6. pose proof (N.mod_lt (w / 2 ^ (64 - 1 - 61)) (2 ^ 6) ltac:(discriminate)) as Q.
      change (2 ^ 6) with 64 in *. change (2 ^ 64) with 18446744073709551616. lia. }
    k_step2. k_step2; [|apply M; k2]. cbv zeta.
    eapply k_bind; [apply k_data|]. intros [d|] D; [|apply M; k2].
    apply k_done10; assumption.
  Qed.

  (** ** Records *)
  Lemma k_one : forall a b, a < 2 ^ 30 \/ big -> b < 2 ^ 30 \/ big ->
    keeps a b (a + 1) (b + 1) (decode_one qs stale junk full) any.
  Proof.
    intros a b La Lb. unfold decode_one.
    assert (M : forall A (m : Htm_Model.H A), keeps a b a b m any -> keeps a b (a + 1) (b + 1) m any)
      by (intros A m; apply k_more; lia).
    k_step; [|apply M; k2]. destruct (n =? 0); [apply M; k2|].
    apply (k_bind _ _ a b (a + 1) (b + 1) _ _ _ _ any).
    { destruct (bits n 0 19 =? 0xACEFF).
      - apply M. eapply k_bind; [apply k_stamp|]. intros ok _. k2.
      - destruct (bits n 36 55 =? 0xABCDE); [apply k_insn8; assumption|].
        destruct (bits n 36 55 =? 0xABCDF); [apply (k_more _ _ _ a (b + 1)); [lia|lia|apply k_insn10; assumption]|].
        apply M. k2. }
    intros r _. apply (k_bind _ _ (a + 1) (b + 1) (a + 1) (b + 1) _ _ _ _ any).
    { destruct (r =? -2)%Z; [apply k_rewind|k2]. }
    intros _ _. destruct (r <? 0)%Z; k2.
  Qed.

  Variable bytes : list N.
  Variable bad : bool.
  Lemma k_decode : forall f k a b s, J a b s -> Start bytes bad stale k (h_cur s) ->
    (a + N.of_nat k < 2 ^ 30 /\ b + N.of_nat k < 2 ^ 30 \/ big) ->
    match decode_loop qs stale junk full f s with
    | HErr e => may e | HOk (s', _) => Tlbdump_Proofs3.sound (h_tlb s') end.
  Proof.
    induction f as [|f IH]; intros k a b s HJ HS HK; cbn [decode_loop]; [right; left; left; reflexivity|].
    change (2 ^ 30) with 1073741824 in HK.
    pose proof (one_tri qs bytes bad stale junk full stale_len k s HS) as T.
    assert (La : a < 2 ^ 30 \/ big) by (change (2 ^ 30) with 1073741824; destruct HK as [HK|HK]; [left; lia|right; exact HK]).
    assert (Lb : b < 2 ^ 30 \/ big) by (change (2 ^ 30) with 1073741824; destruct HK as [HK|HK]; [left; lia|right; exact HK]).
    pose proof (k_one a b La Lb s HJ) as K. unfold hbind.
    destruct (decode_one qs stale junk full s) as [[s' c]|e]; [|exact K].
    destruct K as [HJ' _]. destruct c; [|exact (proj2 (j_tlb _ _ _ HJ'))]. destruct T as (k' & -> & HS').
    apply (IH k' (a + 1) (b + 1) s' HJ' HS'). change (2 ^ 30) with 1073741824.
    destruct HK as [HK|HK]; [left; lia|right; exact HK].
  Qed.
End FAULT.

Lemma init_J : forall bytes bad tlb bb (big : Prop), bytes_ok bytes -> N.of_nat (length bytes) + 1 < 2 ^ 30 \/ big ->
  tlb = Tlb_Model.tlb_zero -> Bb_Model.bb_init = Bb_Model.BOk bb -> J big 0 0 (init_st bytes bad tlb bb).
Proof.
  intros bytes bad tlb bb big HB BG -> EB. injection EB as <-. constructor.
  - change (2 ^ 30) with 1073741824 in BG. split; [|split; [exact HB|split; [constructor|cbn; lia]]].
    destruct BG as [BG|BG]; [left|right; exact BG]. unfold mu. cbn [init_st h_cur init_cur c_data c_eof c_rewind c_nr]. lia.
  - exact x_inv_init.
  - reflexivity.
  - reflexivity.
  - split; [repeat split; cbn; lia|]. split; [reflexivity|]. split; [cbn; lia|constructor].
  - split; [cbn; lia|]. split; [cbn; lia|]. split; [discriminate|constructor].
Qed.

Lemma decode_both : forall qs stale junk full bytes bad,
  Tlb_Spec.sorter qs -> (forall z, length (stale z) = 8%nat) -> (forall z, bytes_ok (stale z)) -> bytes_ok bytes ->
  match htm_decode qs stale junk full bytes bad with
  | HErr e => may full (2 ^ 30 <= N.of_nat (length bytes) + 1) e
  | HOk s => Tlbdump_Proofs3.sound (h_tlb s)
  end.
Proof.
  intros qs stale junk full bytes bad HQ HL HO HB.
  set (big := 2 ^ 30 <= N.of_nat (length bytes) + 1).
  unfold htm_decode. destruct Tlb_Model.tlb_init as [tlb|e0] eqn:ET; [|vm_compute in ET; discriminate ET].
  assert (TE : tlb = Tlb_Model.tlb_zero) by (vm_compute in ET; unfold Tlb_Model.tlb_zero; congruence).
  destruct Bb_Model.bb_init as [bb|e0] eqn:EB; [|discriminate EB].
  assert (BG : N.of_nat (length bytes) + 1 < 2 ^ 30 \/ big) by (unfold big; destruct (N.lt_ge_cases (N.of_nat (length bytes) + 1) (2 ^ 30)); auto).
  pose proof (init_J bytes bad tlb bb big HB BG TE EB) as J0.
  pose proof (k_decode qs stale junk full HQ HL HO big bytes bad (2 * length bytes + 8) (length bytes + 1) 0 0 _ J0
    (init_start bytes bad stale _ _)) as K.
  destruct (decode_loop qs stale junk full _ _) as [[s' u]|e0]; apply K;
    change (2 ^ 30) with 1073741824 in *; (destruct BG as [BG|BG]; [left; lia|right; exact BG]).
Qed.

Theorem decode_stops : forall qs stale junk full bytes bad e,
  Tlb_Spec.sorter qs -> (forall z, length (stale z) = 8%nat) -> (forall z, bytes_ok (stale z)) -> bytes_ok bytes ->
  htm_decode qs stale junk full bytes bad = HErr e ->
  stops full e \/ 2 ^ 30 <= N.of_nat (length bytes) + 1 /\ overflows e.
Proof.
  intros qs stale junk full bytes bad e HQ HL HO HB E.
  pose proof (decode_words qs stale junk full bytes bad HL) as F. rewrite E in F.
  pose proof (decode_both qs stale junk full bytes bad HQ HL HO HB) as K. rewrite E in K.
  destruct K as [K|[[K|K]|K]]; [left; exact K|destruct F as [F _]; contradiction (F K)|destruct F as [_ F]; contradiction (F K)|right; exact K].
Qed.

Lemma decode_exits : forall qs stale junk full bytes bad s,
  Tlb_Spec.sorter qs -> (forall z, length (stale z) = 8%nat) -> (forall z, bytes_ok (stale z)) -> bytes_ok bytes ->
  htm_decode qs stale junk full bytes bad = HOk s -> Tlb_Model.tlb_validate (h_tlb s) = Tlb_Model.TOk tt.
Proof.
  intros qs stale junk full bytes bad s HQ HL HO HB E.
  pose proof (decode_both qs stale junk full bytes bad HQ HL HO HB) as K. rewrite E in K. exact (proj1 K).
Qed.
