(** Proofs for C30: the word stream under the decoder. *)
Require Import NArith ZArith List Bool Lia.
Require Import ZifyBool ZifyN ZifyNat.
Require Import Verif.Word Verif.Codec_Types Verif.HtmBits_Model Verif.HtmBits_Spec Verif.HtmBits_Proofs.
Require Import Verif.Htm_Model Verif.Htm_Spec.
Require Import Verif.Pwc_Model Verif.Xlate_Model.
Require Verif.Tlb_Model Verif.Bb_Model.
Import ListNotations.
Local Open Scope N_scope.

Lemma fold_word_spec : forall v, fold_word v = halves v.
Proof.
  intros v. unfold fold_word, halves. rewrite !bits_field by lia. unfold field.
  change (64 - 1 - 31) with 32. change (31 - 0 + 1) with 32. change (64 - 1 - 63) with 0.
  change (63 - 32 + 1) with 32. change (2 ^ 0) with 1. rewrite N.div_1_r. reflexivity.
Qed.
Lemma halves_lt : forall v, halves v < 2 ^ 32.
Proof. intros. apply N.mod_lt. discriminate. Qed.
Lemma sum_to_lt : forall b st n, sum_to b st n < 2 ^ 64.
Proof. intros b st [|n]; [reflexivity|]. cbn [sum_to]. apply N.mod_lt. discriminate. Qed.

Lemma skipn_skipn : forall (A : Type) a b (l : list A), skipn a (skipn b l) = skipn (a + b) l.
Proof.
  intros A a b l. revert l. induction b as [|b IH]; intros l.
  - rewrite Nat.add_0_r. reflexivity.
  - destruct l as [|x l]; [rewrite !skipn_nil; reflexivity|].
    replace (a + S b)%nat with (S (a + b)) by lia. cbn [skipn]. apply IH.
Qed.

Section CURSOR.
  Variable bytes : list N.
  Variable bad : bool.
  Variable stale : Z -> list N.

  (** [p] words were taken from the archive. *)
  Record inv (p : nat) (c : cur) : Prop := mk_inv {
    v_data : c_data c = skipn (8 * p) bytes;
    v_bad : c_bad c = bad;
    v_eof : c_eof c = (total bytes <? p)%nat;
    v_p : (p <= total bytes + 1)%nat;
    v_full : bad = true -> (8 * p <= length bytes)%nat;
    v_nr : c_nr c = (Z.of_nat p - if c_rewind c then 1 else 0)%Z;
    v_pos : c_rewind c = true -> (0 < p)%nat /\ c_prev c = padded bytes stale (p - 1);
    v_sum : c_sum c = sum_to bytes stale (Z.to_nat (c_nr c));
    v_scanned : c_scanned c = Z.to_N (c_nr c) mod 2 ^ 32;
    v_off : c_off c = 8 * Z.to_N (c_nr c) mod 2 ^ 64 }.
  Definition Inv (c : cur) : Prop := exists p, inv p c.
  (** Bounds the number of reads to come. *)
  Definition mu (c : cur) : nat :=
    (length (c_data c) + (if c_eof c then 0 else 1) + (if c_rewind c then 1 else 0))%nat.

  (** Between records; within a record; after a word was fetched in a record. *)
  Definition Start (k : nat) (c : cur) : Prop :=
    Inv c /\ (mu c <= k)%nat
    /\ (if c_rewind c then c_nr_rewind c = c_nr c + 1 else c_nr_rewind c <= c_nr c)%Z.
  Definition Mid (k : nat) (c : cur) : Prop :=
    Inv c /\ (mu c <= k)%nat /\ c_rewind c = false /\ (c_nr_rewind c <= c_nr c)%Z.
  Definition Got (k : nat) (v : N) (c : cur) : Prop :=
    Inv c /\ (mu c < k)%nat /\ c_rewind c = false /\ (c_nr_rewind c < c_nr c)%Z
    /\ (0 < c_nr c)%Z /\ c_prev c = padded bytes stale (Z.to_nat (c_nr c) - 1)
    /\ v = word_at bytes stale (Z.to_nat (c_nr c) - 1).

  Lemma got_mid : forall k v c, Got k v c -> Mid k c.
  Proof. intros k v c (H1 & H2 & H3 & H4 & _). repeat split; try assumption; lia. Qed.
  Lemma mid_start : forall k c, Mid k c -> Start k c.
  Proof. intros k c (H1 & H2 & H3 & H4). repeat split; try assumption. rewrite H3. assumption. Qed.
  Lemma got_start : forall k v c, Got k v c -> Start k c.
  Proof. intros. eapply mid_start, got_mid; eassumption. Qed.

  Lemma start_inv : forall k c, Start k c -> Inv c. Proof. intros k c H; apply H. Qed.

  (** A state where reading ends. *)
  Definition ended (c : cur) : Prop :=
    c_rewind c = false /\
    (bad = true /\ (length (c_data c) < 8)%nat \/ bad = false /\ c_eof c = true /\ c_data c = []).

  Lemma total_bounds : (8 * total bytes < length bytes + 8)%nat /\ (length bytes <= 8 * total bytes)%nat.
  Proof. unfold total. pose proof (Nat.div_mod (length bytes + 7) 8 ltac:(lia)).
    pose proof (Nat.mod_upper_bound (length bytes + 7) 8 ltac:(lia)). lia. Qed.

  Hypothesis stale_len : forall z, length (stale z) = 8%nat.

  Lemma padded_len : forall i, length (padded bytes stale i) = 8%nat.
  Proof.
    intros i. unfold padded. rewrite app_length, skipn_length, stale_len.
    assert (length (chunk bytes i) <= 8)%nat by (unfold chunk; rewrite firstn_length; lia). lia.
  Qed.

  Lemma fetch_rewound : forall k s, Start k (h_cur s) -> c_rewind (h_cur s) = true ->
    match fetch_internal stale s with
    | HErr e => e = HOverflow
    | HOk (s', w) => exists v k', w = Some v /\ k = S k' /\ Mid k' (h_cur s')
        /\ (0 < c_nr (h_cur s'))%Z /\ c_prev (h_cur s') = padded bytes stale (Z.to_nat (c_nr (h_cur s')) - 1)
        /\ v = word_at bytes stale (Z.to_nat (c_nr (h_cur s')) - 1)
        /\ s' = set_cur (h_cur s') s /\ c_nr (h_cur s') = (c_nr (h_cur s) + 1)%Z
    end.
  Proof.
    intros k s ((p & I) & M & R) E. rewrite E in R. destruct I. unfold fetch_internal, htm_read. rewrite E.
    change (1 <=? 0)%Z with false. cbv iota beta.
    destruct (v_pos0 E) as [Hp Hprev]. rewrite E in v_nr0.
    cbn [c_data c_bad c_eof c_off c_nr c_nr_rewind c_prev c_rewind c_scanned c_sum].
    destruct (c_nr (h_cur s) =? 2147483647)%Z; [reflexivity|].
    set (n := c_nr (h_cur s)) in *. clearbody n.
    unfold mu in M. rewrite E in M.
    exists (be_val (c_prev (h_cur s))), (k - 1)%nat.
    cbn [set_cur h_cur c_data c_bad c_eof c_off c_nr c_nr_rewind c_prev c_rewind c_scanned c_sum].
    replace (Z.to_nat (n + 1) - 1)%nat with (p - 1)%nat by lia.
    split; [reflexivity|]. split; [lia|].
    split; [|split; [lia|split; [assumption|split; [rewrite Hprev; reflexivity|split; reflexivity]]]].
    split; [|split; [unfold mu; cbn [c_data c_eof c_rewind]; lia|split; [reflexivity|cbn [c_nr c_nr_rewind]; lia]]].
    exists p. constructor;
      cbn [c_data c_bad c_eof c_off c_nr c_nr_rewind c_prev c_rewind c_scanned c_sum]; try assumption.
    - lia.
    - discriminate.
    - rewrite v_sum0, fold_word_spec, Hprev.
      replace (Z.to_nat (n + 1)) with (S (Z.to_nat n)) by lia. cbn [sum_to].
      unfold add64. change w64 with (2 ^ 64). unfold word_at.
      replace (p - 1)%nat with (Z.to_nat n) by lia. reflexivity.
    - rewrite v_scanned0. unfold u32, w32. change 4294967296 with (2 ^ 32).
      rewrite N.add_mod_idemp_l by discriminate. f_equal. lia.
    - rewrite v_off0. unfold add64. change w64 with (2 ^ 64). rewrite N.add_mod_idemp_l by discriminate. f_equal. lia.
  Qed.

  Lemma fetch_fresh : forall k s, Mid k (h_cur s) ->
    match fetch_internal stale s with
    | HErr e => e = HOverflow
    | HOk (s', None) => Mid k (h_cur s') /\ ended (h_cur s') /\ s' = set_cur (h_cur s') s
                        /\ c_nr (h_cur s') = c_nr (h_cur s)
    | HOk (s', Some v) => Got k v (h_cur s') /\ s' = set_cur (h_cur s') s
                        /\ c_nr (h_cur s') = (c_nr (h_cur s) + 1)%Z
    end.
  Proof.
    intros k s ((p & I) & M & E & R). destruct I. unfold fetch_internal, htm_read. rewrite E.
    rewrite E in v_nr0. rewrite Z.sub_0_r in v_nr0.
    assert (CH : firstn 8 (c_data (h_cur s)) = chunk bytes p) by (rewrite v_data0; reflexivity).
    rewrite CH.
    assert (CL : length (chunk bytes p) = Nat.min 8 (length (c_data (h_cur s)))) by (rewrite <- CH; apply firstn_length).
    assert (DL : length (c_data (h_cur s)) = (length bytes - 8 * p)%nat) by (rewrite v_data0; apply skipn_length).
    assert (DN : length (c_data (h_cur s)) = 0%nat -> c_data (h_cur s) = []) by apply length_zero_iff_nil.
    pose proof total_bounds as TB. unfold mu in M. rewrite E in M.
    destruct (c_bad (h_cur s) && (length (chunk bytes p) <? 8)%nat) eqn:B1;
      [|destruct (c_eof (h_cur s) && (length (chunk bytes p) =? 0)%nat) eqn:B2].
    - change (-1 <=? 0)%Z with true. cbv iota beta.
      cbn [set_cur h_cur c_data c_bad c_eof c_off c_nr c_nr_rewind c_prev c_rewind c_scanned c_sum].
      split; [|split; [|split; reflexivity]].
      + split; [|split; [unfold mu; cbn [c_data c_eof c_rewind]; rewrite E; assumption|split; [assumption|cbn [c_nr c_nr_rewind]; lia]]].
        exists p. constructor;
          cbn [c_data c_bad c_eof c_off c_nr c_nr_rewind c_prev c_rewind c_scanned c_sum]; try assumption.
        * rewrite E. lia.
        * rewrite E. discriminate.
      + split; [assumption|]. left. apply andb_true_iff in B1 as [B1 B3].
        split; [congruence|]. cbn [c_data]. apply Nat.ltb_lt in B3. lia.
    - change (0 <=? 0)%Z with true. cbv iota beta.
      cbn [set_cur h_cur c_data c_bad c_eof c_off c_nr c_nr_rewind c_prev c_rewind c_scanned c_sum].
      split; [|split; [|split; reflexivity]].
      + split; [|split; [unfold mu; cbn [c_data c_eof c_rewind]; rewrite E; assumption|split; [assumption|cbn [c_nr c_nr_rewind]; lia]]].
        exists p. constructor;
          cbn [c_data c_bad c_eof c_off c_nr c_nr_rewind c_prev c_rewind c_scanned c_sum]; try assumption.
        * rewrite E. lia.
        * rewrite E. discriminate.
      + split; [assumption|]. cbn [c_data c_eof]. apply andb_true_iff in B2 as [B2 B3]. apply Nat.eqb_eq in B3.
        assert (c_data (h_cur s) = []) by (apply DN; lia).
        destruct bad eqn:BD; [left; split; [reflexivity|rewrite H; cbn; lia]|].
        right. repeat split; assumption.
    - change (1 <=? 0)%Z with false. cbv iota beta.
      cbn [c_data c_bad c_eof c_off c_nr c_nr_rewind c_prev c_rewind c_scanned c_sum].
      destruct (c_nr (h_cur s) =? 2147483647)%Z; [reflexivity|].
      cbn [set_cur h_cur c_data c_bad c_eof c_off c_nr c_nr_rewind c_prev c_rewind c_scanned c_sum].
      set (n := c_nr (h_cur s)) in *. clearbody n. subst n.
      assert (PE : chunk bytes p ++ skipn (length (chunk bytes p)) (stale (Z.of_nat p)) = padded bytes stale p) by reflexivity.
      rewrite PE.
      split; [|split; reflexivity].
      replace (Z.to_nat (Z.of_nat p + 1)) with (S p) by lia.
      replace (Z.to_nat (Z.of_nat p)) with p in * by lia.
      assert (EOF : (c_eof (h_cur s) || (length (chunk bytes p) =? 0)%nat) = (total bytes <? S p)%nat
                    /\ (p <= total bytes)%nat).
      { destruct (Nat.eqb_spec (length (chunk bytes p)) 0) as [Z0|Z0].
        - rewrite orb_true_r. apply andb_false_iff in B2 as [B2|B2]; [|discriminate].
          rewrite B2 in v_eof0. split; [symmetry; apply Nat.ltb_lt|]; lia.
        - rewrite orb_false_r, v_eof0. split; lia. }
      destruct EOF as [EOF PT].
      repeat split; cbn [c_nr c_prev c_nr_rewind c_rewind]; try lia.
      + exists (S p). constructor;
          cbn [c_data c_bad c_eof c_off c_nr c_nr_rewind c_prev c_rewind c_scanned c_sum]; try assumption; try lia.
        * rewrite v_data0. rewrite skipn_skipn. f_equal. lia.
        * rewrite v_sum0, fold_word_spec.
          replace (Z.to_nat (Z.of_nat p + 1)) with (S p) by lia. reflexivity.
        * rewrite v_scanned0. unfold u32, w32. change 4294967296 with (2 ^ 32).
          rewrite N.add_mod_idemp_l by discriminate. f_equal. lia.
        * rewrite v_off0. unfold add64. change w64 with (2 ^ 64). rewrite N.add_mod_idemp_l by discriminate. f_equal. lia.
      + unfold mu. cbn [c_data c_eof c_rewind]. rewrite skipn_length, Nat.add_0_r.
        destruct (Nat.eqb_spec (length (chunk bytes p)) 0) as [Z0|Z0].
        * apply andb_false_iff in B2 as [B2|B2]; [|discriminate].
          rewrite orb_true_r. rewrite B2 in M. lia.
        * rewrite orb_false_r. destruct (c_eof (h_cur s)); lia.
      + f_equal. lia.
      + unfold word_at. f_equal. f_equal. lia.
  Qed.

  Lemma rewind_got : forall k v s, Got k v (h_cur s) ->
    exists s', htm_rewind v s = HOk (s', tt) /\ Start k (h_cur s') /\ s' = set_cur (h_cur s') s
      /\ c_nr (h_cur s') = (c_nr (h_cur s) - 1)%Z.
  Proof.
    intros k v s ((p & I) & M & E & R & P & PV & V). destruct I. unfold htm_rewind.
    destruct (Z.eqb_spec (c_nr_rewind (h_cur s)) (c_nr (h_cur s))) as [NE|NE]; [lia|].
    eexists. split; [reflexivity|].
    cbn [set_cur h_cur c_data c_bad c_eof c_off c_nr c_nr_rewind c_prev c_rewind c_scanned c_sum].
    split; [|split; reflexivity].
    rewrite E in v_nr0. unfold mu in M. rewrite E in M.
    set (n := c_nr (h_cur s)) in *. clearbody n.
    assert (SP : exists m, Z.to_nat n = S m) by (exists (Z.to_nat n - 1)%nat; lia).
    destruct SP as [m SP].
    repeat split; unfold mu; cbn [c_nr c_prev c_nr_rewind c_rewind c_data c_eof]; try lia.
    exists p. constructor;
      cbn [c_data c_bad c_eof c_off c_nr c_nr_rewind c_prev c_rewind c_scanned c_sum]; try assumption; try lia.
    - intros _. split; [lia|]. rewrite PV. f_equal. lia.
    - rewrite v_sum0, V, fold_word_spec, SP. cbn [sum_to].
      replace (S m - 1)%nat with m by lia. replace (Z.to_nat (n - 1)) with m by lia.
      pose proof (sum_to_lt bytes stale m) as L1. pose proof (halves_lt (word_at bytes stale m)) as L2.
      set (a := sum_to bytes stale m) in *. set (b := halves _) in *. clearbody a b.
      unfold sub64. change w64 with (2 ^ 64). rewrite (N.mod_small b) by (clear - L2; lia).
      destruct (N.ltb_spec (a + b) (2 ^ 64)).
      + rewrite (N.mod_small (a + b)) by assumption. replace (a + b + 2 ^ 64 - b) with (a + 1 * 2 ^ 64) by lia.
        rewrite N.mod_add by discriminate. now apply N.mod_small.
      + assert (X : (a + b) mod 2 ^ 64 = a + b - 2 ^ 64).
        { symmetry. apply N.mod_unique with 1; lia. }
        rewrite X. replace (a + b - 2 ^ 64 + 2 ^ 64 - b) with a by lia. now apply N.mod_small.
    - rewrite v_scanned0. unfold u32, w32. change 4294967296 with (2 ^ 32).
      replace (Z.to_N n) with (Z.to_N (n - 1) + 1) by lia. set (y := Z.to_N (n - 1)). clearbody y. clear.
      replace ((y + 1) mod 2 ^ 32 + 2 ^ 32 - 1) with ((y + 1) mod 2 ^ 32 + (2 ^ 32 - 1)) by lia.
      rewrite N.add_mod_idemp_l by discriminate.
      replace (y + 1 + (2 ^ 32 - 1)) with (y + 1 * 2 ^ 32) by lia. apply N.mod_add. discriminate.
    - rewrite v_off0. unfold sub64. change w64 with (2 ^ 64). rewrite (N.mod_small 8) by reflexivity.
      replace (8 * Z.to_N n) with (8 * Z.to_N (n - 1) + 8) by lia. set (y := 8 * Z.to_N (n - 1)). clearbody y. clear.
      replace ((y + 8) mod 2 ^ 64 + 2 ^ 64 - 8) with ((y + 8) mod 2 ^ 64 + (2 ^ 64 - 8)) by lia.
      rewrite N.add_mod_idemp_l by discriminate.
      replace (y + 8 + (2 ^ 64 - 8)) with (y + 1 * 2 ^ 64) by lia. apply N.mod_add. discriminate.
  Qed.
End CURSOR.
