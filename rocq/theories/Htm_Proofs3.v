(** Proofs for C30: reading with steps back, and whole files. *)
Require Import NArith ZArith List Bool Lia.
Require Import ZifyBool ZifyN ZifyNat.
Require Import Verif.Word Verif.Codec_Types Verif.HtmBits_Model Verif.HtmBits_Spec.
Require Import Verif.Htm_Model Verif.Htm_Spec Verif.Htm_Proofs Verif.Htm_Proofs2.
Require Verif.Tlb_Model Verif.Bb_Model.
Import ListNotations.
Local Open Scope N_scope.

(** A caller of fetch and rewind that passes to rewind the word it got. *)
Definition numbers (s : hst) : N * N * N := (c_scanned (h_cur s), c_sum (h_cur s), c_off (h_cur s)).
Definition herr_seen (e : herr) : seen :=
  match e with HStuck => Stuck | HOverflow => Overflow | _ => Misuse end.
Fixpoint script (stale : Z -> list N) (ops : list op) (s : hst) (last : option N) : list seen :=
  match ops with
  | [] => []
  | Fetch :: ops' =>
      match fetch_internal stale s with
      | HErr e => [herr_seen e]
      | HOk (s', None) => End :: script stale ops' s' None
      | HOk (s', Some v) =>
          let '(n, sum, off) := numbers s' in Word v n sum off :: script stale ops' s' (Some v)
      end
  | Back :: ops' =>
      match last with
      | None => [Misuse]
      | Some v =>
          match htm_rewind v s with
          | HErr e => [herr_seen e]
          | HOk (s', _) =>
              let '(n, sum, off) := numbers s' in Moved n sum off :: script stale ops' s' None
          end
      end
  end.

Section SCRIPT.
  Variable bytes : list N.
  Variable bad : bool.
  Variable stale : Z -> list N.
  Hypothesis stale_len : forall z, length (stale z) = 8%nat.
  Notation Start := (Start bytes bad stale). Notation Mid := (Mid bytes bad stale).
  Notation Got := (Got bytes bad stale). Notation Inv := (Inv bytes bad stale).

  Lemma nr_bound : forall c, Inv c -> c_rewind c = false -> (0 <= c_nr c <= Z.of_nat (words bytes bad))%Z.
  Proof.
    intros c (p & I) R. destruct I. rewrite R in v_nr. unfold words. destruct bad.
    - specialize (v_full eq_refl). pose proof (Nat.div_le_lower_bound (length bytes) 8 p ltac:(lia) v_full). lia.
    - lia.
  Qed.
  Lemma nr_bound_r : forall c, Inv c -> c_rewind c = true -> (0 <= c_nr c < Z.of_nat (words bytes bad))%Z.
  Proof.
    intros c (p & I) R. destruct I. rewrite R in v_nr. destruct (v_pos R) as [P _]. unfold words. destruct bad.
    - specialize (v_full eq_refl). pose proof (Nat.div_le_lower_bound (length bytes) 8 p ltac:(lia) v_full). lia.
    - lia.
  Qed.
  Lemma at_end : forall k s, Mid k (h_cur s) -> c_nr (h_cur s) = Z.of_nat (words bytes bad) ->
    exists s', fetch_internal stale s = HOk (s', None).
  Proof.
    intros k s ((p & I) & M & R & L) N. destruct I. unfold fetch_internal, htm_read. rewrite R.
    rewrite R in v_nr. assert (P : p = words bytes bad) by lia.
    rewrite v_bad, v_data. pose proof (total_bounds bytes stale) as TB. unfold words in P.
    rewrite firstn_length, skipn_length.
    pose proof (Nat.div_mod (length bytes) 8 ltac:(lia)).
    pose proof (Nat.mod_upper_bound (length bytes) 8 ltac:(lia)).
    destruct bad; cbv iota in P.
    - replace (Nat.min 8 (length bytes - 8 * p) <? 8)%nat with true by (symmetry; apply Nat.ltb_lt; lia).
      eexists. reflexivity.
    - assert (Z0 : Nat.min 8 (length bytes - 8 * p) = 0%nat) by (clear - P TB; lia).
      rewrite Z0. cbn [andb].
      replace (c_eof (h_cur s)) with true by (rewrite v_eof; symmetry; apply Nat.ltb_lt; clear - P; lia).
      eexists. reflexivity.
  Qed.
  Lemma fetch_nr : forall s, match fetch_internal stale s with
    | HErr e => c_nr (h_cur s) = 2147483647%Z
    | HOk (s', w) => c_nr_rewind (h_cur s') = c_nr_rewind (h_cur s)
                     /\ (w <> None -> c_nr (h_cur s) <> 2147483647%Z)
    end.
  Proof.
    intros s. unfold fetch_internal, htm_read.
    destruct (c_rewind (h_cur s)).
    - change (1 <=? 0)%Z with false. cbv iota beta. cbn [c_nr].
      destruct (Z.eqb_spec (c_nr (h_cur s)) 2147483647); [assumption|split; [reflexivity|auto]].
    - destruct (_ && _); [split; [reflexivity|congruence]|].
      destruct (_ && _); [split; [reflexivity|congruence]|].
      change (1 <=? 0)%Z with false. cbv iota beta. cbn [c_nr].
      destruct (Z.eqb_spec (c_nr (h_cur s)) 2147483647); [assumption|split; [reflexivity|auto]].
  Qed.
  Lemma inv_numbers : forall s n, Inv (h_cur s) -> c_nr (h_cur s) = Z.of_nat n ->
    numbers s = (N.of_nat n mod 2 ^ 32, sum_to bytes stale n, 8 * N.of_nat n mod 2 ^ 64).
  Proof.
    intros s n (p & I) E. destruct I. unfold numbers. rewrite v_scanned, v_sum, v_off, E.
    replace (Z.to_N (Z.of_nat n)) with (N.of_nat n) by lia. rewrite Nat2Z.id. reflexivity.
  Qed.

  (** The state after some operations *)
  Definition rel (p r : nat) (last : option N) (c : cur) : Prop :=
    exists k, Start k c /\ c_nr c = Z.of_nat p /\ c_nr_rewind c = Z.of_nat r /\
    match last with
    | None => True
    | Some v => c_rewind c = false /\ (0 < p)%nat /\ c_prev c = padded bytes stale (p - 1)
                /\ v = word_at bytes stale (p - 1)
    end.
  Definition isS (o : option N) : bool := match o with Some _ => true | None => false end.

  Lemma script_reading : forall ops s p r last, rel p r last (h_cur s) ->
    script stale ops s last = reading bytes bad stale ops p r (isS last).
  Proof.
    induction ops as [|o ops IH]; intros s p r last R; [reflexivity|].
    destruct R as (k & S0 & NR & NW & L). destruct o; cbn [script reading].
    - pose proof (fetch_nr s) as FN. destruct (c_rewind (h_cur s)) eqn:RW.
      + pose proof (nr_bound_r _ (start_inv _ _ _ _ _ S0) RW) as B.
        pose proof (fetch_rewound bytes bad stale stale_len k s S0 RW) as F.
        replace (p =? words bytes bad)%nat with false by (symmetry; apply Nat.eqb_neq; lia).
        destruct (fetch_internal stale s) as [[s' w]|e].
        * destruct F as (v & k' & -> & -> & M & P0 & PV & V & _ & N1). destruct FN as [FN1 FN2].
          specialize (FN2 ltac:(discriminate)).
          replace (Z.of_nat p =? 2 ^ 31 - 1)%Z with false by (symmetry; apply Z.eqb_neq; lia).
          assert (N2 : c_nr (h_cur s') = Z.of_nat (S p)) by lia.
          rewrite (inv_numbers s' (S p) (proj1 M) N2). rewrite N2 in V, PV. rewrite Nat2Z.id in V, PV.
          replace (S p - 1)%nat with p in V, PV by lia. rewrite V. f_equal.
          rewrite <- V. apply (IH s' (S p) r (Some v)). exists k'. split; [apply mid_start, M|].
          split; [exact N2|]. split; [congruence|]. replace (S p - 1)%nat with p by lia.
          split; [apply M|]. split; [lia|]. split; assumption.
        * subst e. rewrite FN in NR. rewrite <- NR. reflexivity.
      + assert (M : Mid k (h_cur s)).
        { destruct S0 as (H1 & H2 & H3). rewrite RW in H3. repeat split; assumption. }
        pose proof (nr_bound _ (start_inv _ _ _ _ _ S0) RW) as B.
        pose proof (fetch_fresh bytes bad stale stale_len k s M) as F.
        destruct (Nat.eqb_spec p (words bytes bad)) as [E|E].
        * destruct (at_end k s M ltac:(lia)) as [s' X]. rewrite X in *.
          destruct F as (M' & EN & _ & N1). destruct FN as [FN1 _]. f_equal.
          apply (IH s' p r None). exists k. split; [apply mid_start, M'|]. split; [lia|]. split; [congruence|exact I].
        * destruct (fetch_internal stale s) as [[s' [v|]]|e].
          -- destruct F as (G & _ & N1). destruct FN as [FN1 FN2]. specialize (FN2 ltac:(discriminate)).
             replace (Z.of_nat p =? 2 ^ 31 - 1)%Z with false by (symmetry; apply Z.eqb_neq; lia).
             assert (N2 : c_nr (h_cur s') = Z.of_nat (S p)) by lia.
             pose proof G as (I' & _ & G3 & _ & _ & PV & V).
             rewrite (inv_numbers s' (S p) I' N2). rewrite N2 in V, PV. rewrite Nat2Z.id in V, PV.
             replace (S p - 1)%nat with p in V, PV by lia. rewrite V. f_equal.
             rewrite <- V. apply (IH s' (S p) r (Some v)). exists k. split; [eapply got_start, G|].
             split; [exact N2|]. split; [congruence|]. replace (S p - 1)%nat with p by lia.
             split; [assumption|]. split; [lia|]. split; assumption.
          -- exfalso. destruct F as (M' & EN & _ & N1).
             pose proof (ended_nr bytes bad stale (h_cur s') EN (proj1 M')) as X.
             unfold delivered in X. unfold words in E. destruct bad; lia.
          -- subst e. rewrite FN in NR. rewrite <- NR. reflexivity.
    - destruct last as [v|]; [|reflexivity]. cbn [isS negb]. destruct L as (RW & P0 & PV & V).
      destruct S0 as (I & MU & RR). rewrite RW in RR.
      destruct (Nat.eqb_spec r p) as [->|NE].
      + unfold htm_rewind. rewrite NR, NW, Z.eqb_refl. reflexivity.
      + assert (G : Got (S k) v (h_cur s)).
        { rewrite <- (Nat2Z.id p) in PV, V. rewrite <- NR in PV, V. repeat split; try assumption; lia. }
        destruct (rewind_got bytes bad stale stale_len (S k) v s G) as (s' & X & S' & _ & N1).
        assert (W' : c_nr_rewind (h_cur s') = c_nr (h_cur s)).
        { unfold htm_rewind in X. destruct (_ =? _)%Z; [discriminate|]. 
          assert (Y : set_cur (mk_cur (c_data (h_cur s)) (c_bad (h_cur s)) (c_eof (h_cur s)) (sub64 (c_off (h_cur s)) 8)
            (c_nr (h_cur s) - 1) (c_nr (h_cur s)) (c_prev (h_cur s)) true (u32 (c_scanned (h_cur s) + w32 - 1))
            (sub64 (c_sum (h_cur s)) (fold_word v))) s = s') by congruence.
          rewrite <- Y. reflexivity. }
        rewrite X. assert (N2 : c_nr (h_cur s') = Z.of_nat (pred p)) by lia.
        rewrite (inv_numbers s' (pred p) (proj1 S') N2). f_equal.
        apply (IH s' (pred p) p None). exists (S k). split; [exact S'|]. split; [exact N2|]. split; [lia|exact Logic.I].
  Qed.

  Lemma script_init : forall ops tlb bb,
    script stale ops (init_st bytes bad tlb bb) None = reading bytes bad stale ops 0 0 false.
  Proof.
    intros ops tlb bb. apply (script_reading ops _ 0%nat 0%nat None).
    exists (length bytes + 1)%nat. split; [apply init_start|]. repeat split.
  Qed.
End SCRIPT.

Lemma decode_words : forall qs stale junk full bytes bad,
  (forall z, length (stale z) = 8%nat) ->
  match htm_decode qs stale junk full bytes bad with
  | HErr e => e <> HFuel /\ e <> HStuck
  | HOk s => c_nr (h_cur s) = Z.of_nat (words bytes bad)
      /\ c_scanned (h_cur s) = N.of_nat (words bytes bad) mod 2 ^ 32
      /\ c_sum (h_cur s) = sum_to bytes stale (words bytes bad)
      /\ c_off (h_cur s) = 8 * N.of_nat (words bytes bad) mod 2 ^ 64
  end.
Proof.
  intros qs stale junk full bytes bad SL. unfold htm_decode.
  destruct Tlb_Model.tlb_init as [tlb|e]; [|split; discriminate].
  destruct Bb_Model.bb_init as [bb|e]; [|split; discriminate].
  pose proof (loop_tri qs bytes bad stale junk full SL (2 * length bytes + 8) (length bytes + 1) ltac:(lia)
                (init_st bytes bad tlb bb) (init_start bytes bad stale tlb bb)) as T.
  destruct (decode_loop _ _ _ _ _ _) as [[s []]|e]; [|exact T].
  destruct T as [E I]. pose proof (ended_nr bytes bad stale _ E I) as NR.
  change (delivered bytes bad) with (words bytes bad) in NR. split; [exact NR|].
  pose proof (inv_numbers bytes bad stale SL s _ I NR) as X. unfold numbers in X.
  apply pair_equal_spec in X as [X X3]. apply pair_equal_spec in X as [X1 X2]. auto.
Qed.

Lemma phantom : ~ forall stale stale', (forall z, length (stale z) = 8%nat) ->
  (forall z, length (stale' z) = 8%nat) ->
  forall bytes s s',
  htm_decode (fun _ l => l) stale (fun _ => zero_qrec) true bytes false = HOk s ->
  htm_decode (fun _ l => l) stale' (fun _ => zero_qrec) true bytes false = HOk s' ->
  c_sum (h_cur s) = c_sum (h_cur s') /\ h_out s = h_out s'.
Proof.
  intros H. set (w := [0xAC; 0xEF; 0xF8; 0; 0; 0; 0; 1]).
  specialize (H (fun _ => repeat 0 8) (fun _ => w) (fun _ => eq_refl) (fun _ => eq_refl) w).
  match type of H with forall s s', ?a = HOk s -> ?b = HOk s' -> _ =>
    assert (A : match a, b with HOk s, HOk s' => length (h_out s) <> length (h_out s') | _, _ => False end)
      by (vm_compute; discriminate);
    destruct a as [s|]; [|contradiction]; destruct b as [s'|]; [|contradiction]
  end.
  destruct (H s s' eq_refl eq_refl) as [_ E]. apply A. congruence.
Qed.
