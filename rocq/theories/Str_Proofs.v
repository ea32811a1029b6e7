Require Import NArith List Bool Lia Arith.
From Coq Require Import ZifyN ZifyNat ZifyBool.
Require Import Verif.Str_Model Verif.Str_Spec.
Import ListNotations.
Local Open Scope N_scope.

(** ** hex *)
Lemma char_to_hex_iff : forall c v, char_to_hex c = Some v <-> digit c v.
Proof.
  intros c v. unfold char_to_hex, digit.
  destruct ((48 <=? c) && (c <=? 57)) eqn:E1; [split; [intros [= <-]; lia|intros H; f_equal; lia]|].
  destruct ((97 <=? c) && (c <=? 102)) eqn:E2; [split; [intros [= <-]; lia|intros H; f_equal; lia]|].
  destruct ((65 <=? c) && (c <=? 70)) eqn:E3; [split; [intros [= <-]; lia|intros H; f_equal; lia]|].
  split; [discriminate|intros H; exfalso; lia].
Qed.
Lemma digit_lt : forall c v, digit c v -> v < 16.
Proof. unfold digit. lia. Qed.
Lemma nibbles : forall h l, h < 16 -> l < 16 -> N.land (N.lor (N.shiftl h 4) l) 0xff = 16 * h + l.
Proof.
  intros h l Hh Hl.
  assert (E : N.lor (N.shiftl h 4) l = 16 * h + l).
  { rewrite N.shiftl_mul_pow2. change (2 ^ 4) with 16.
    assert (A : N.land (h * 16) l = 0).
    { apply N.bits_inj_0. intros i. rewrite N.land_spec. destruct (N.ltb_spec i 4) as [Hi|Hi].
      - change 16 with (2 ^ 4). rewrite <- N.shiftl_mul_pow2, N.shiftl_spec_low by exact Hi. reflexivity.
      - destruct (N.eq_dec l 0) as [->|]; [rewrite N.bits_0; apply andb_false_r|].
        rewrite (N.bits_above_log2 l i); [apply andb_false_r|].
        apply N.lt_le_trans with 4; [|exact Hi]. apply N.log2_lt_pow2; [lia|]. exact Hl. }
    rewrite <- N.lxor_lor by exact A. rewrite <- N.add_nocarry_lxor by exact A. lia. }
  rewrite E. change 0xff with (N.ones 8). rewrite N.land_ones. apply N.mod_small. change (2 ^ 8) with 256. lia.
Qed.

Lemma hex_decode_iff : forall str size w, hex_decode str size = (true, w) <-> spells digit str w /\ length w = size.
Proof.
  assert (H : forall n str size w, (length str <= n)%nat ->
    (hex_decode str size = (true, w) <-> spells digit str w /\ length w = size)).
  { induction n as [|n IH]; intros str size w Hn.
    - destruct str; [|cbn in Hn; lia]. cbn. split.
      + destruct size; [|discriminate]. intros [= <-]. split; [constructor|reflexivity].
      + intros [Hs Hl]. inversion Hs; subst. cbn. reflexivity.
    - destruct str as [|a [|b str]].
      + cbn. split.
        * destruct size; [|discriminate]. intros [= <-]. split; [constructor|reflexivity].
        * intros [Hs Hl]. inversion Hs; subst. cbn. reflexivity.
      + cbn. split; [discriminate|]. intros [Hs _]. inversion Hs.
      + cbn [hex_decode]. cbn [length] in Hn.
        destruct (char_to_hex a) as [h|] eqn:Ea.
        2:{ split; [discriminate|]. intros [Hs _]. inversion Hs; subst.
            match goal with H : digit a _ |- _ => apply char_to_hex_iff in H; congruence end. }
        destruct (char_to_hex b) as [l|] eqn:Eb.
        2:{ split; [discriminate|]. intros [Hs _]. inversion Hs; subst.
            match goal with H : digit b _ |- _ => apply char_to_hex_iff in H; congruence end. }
        pose proof (proj1 (char_to_hex_iff _ _) Ea) as Da. pose proof (proj1 (char_to_hex_iff _ _) Eb) as Db.
        rewrite nibbles by (eapply digit_lt; eassumption).
        destruct size as [|size].
        * split; [discriminate|]. intros [Hs Hl]. destruct w; [|discriminate Hl]. inversion Hs.
        * destruct (hex_decode str size) as [r w'] eqn:Er. split.
          -- intros [= -> <-]. apply (IH str size w') in Er; [|lia]. destruct Er as [Hs Hl].
             split; [constructor; assumption|cbn; lia].
          -- intros [Hs Hl]. inversion Hs as [|? ? h' l' ? w'' Ha' Hb' Hs']; subst.
             apply char_to_hex_iff in Ha', Hb'. rewrite Ea in Ha'. rewrite Eb in Hb'.
             injection Ha' as <-. injection Hb' as <-.
             assert (X : hex_decode str size = (true, w'')) by (apply IH; [lia|split; [assumption|cbn in Hl; lia]]).
             rewrite X in Er. injection Er as <- <-. reflexivity. }
  intros str size w. apply (H (length str)). lia.
Qed.
Lemma hex_decode_bound : forall n str size, (length str <= n)%nat -> (length (snd (hex_decode str size)) <= size)%nat.
Proof.
  induction n as [|n IH]; intros str size Hn.
  - destruct str; [|cbn in Hn; lia]. cbn. lia.
  - destruct str as [|a [|b str]]; cbn [hex_decode]; [cbn; lia|cbn; lia|].
    destruct (char_to_hex a), (char_to_hex b); try (cbn; lia). destruct size as [|size]; [cbn; lia|].
    specialize (IH str size). cbn [length] in Hn. destruct (hex_decode str size) as [r w]. cbn [snd length] in *. lia.
Qed.
Lemma hexchar_digit : forall v, v < 16 -> exists c, hexchar v = Some c /\ lower_digit c v.
Proof.
  intros v Hv. unfold hexchar, lower_digit. destruct (v <? 10) eqn:E; [exists (48 + v); split; [reflexivity|lia]|].
  destruct (v <? 16) eqn:E2; [|lia]. exists (97 + v - 10). split; [reflexivity|lia].
Qed.
Lemma hex_digits_ok : forall buf, Forall byte buf -> exists s, hex_digits buf = Some (s ++ [0]) /\ spells lower_digit s buf.
Proof.
  induction buf as [|c buf IH]; intros H; [exists []; split; [reflexivity|constructor]|].
  inversion_clear H as [|? ? Hc Hb]. destruct (IH Hb) as (s & E & Hs). cbn [hex_digits].
  unfold byte in Hc.
  assert (E1 : N.shiftr c 4 = c / 16) by (rewrite N.shiftr_div_pow2; reflexivity).
  assert (E2 : N.land c 0xf = c mod 16) by (change 0xf with (N.ones 4); rewrite N.land_ones; reflexivity).
  assert (H1 : c / 16 < 16) by (apply N.div_lt_upper_bound; lia).
  assert (H2 : c mod 16 < 16) by (apply N.mod_lt; lia).
  destruct (hexchar_digit _ H1) as (a & Ea & Da). destruct (hexchar_digit _ H2) as (b & Eb & Db).
  rewrite E1, E2, Ea, Eb, E. exists (a :: b :: s). split; [reflexivity|].
  replace (c :: buf) with (16 * (c / 16) + c mod 16 :: buf) by (rewrite <- (N.div_mod c 16) by lia; reflexivity).
  constructor; assumption.
Qed.
Lemma lower_is_digit : forall c v, lower_digit c v -> digit c v.
Proof. unfold lower_digit, digit. lia. Qed.
Lemma spells_mono : forall (D E : N -> N -> Prop) str w, (forall c v, D c v -> E c v) -> spells D str w -> spells E str w.
Proof. intros D E str w H. induction 1; constructor; auto. Qed.
Lemma spells_length : forall D str w, spells D str w -> length str = (2 * length w)%nat.
Proof. induction 1; cbn; lia. Qed.
Lemma hex_encode_ok : forall buf destsize, Forall byte buf ->
  ((2 * length buf + 1 <= destsize)%nat ->
   exists s, hex_encode buf destsize = Some (true, s ++ [0]) /\ spells lower_digit s buf)
  /\ ((destsize < 2 * length buf + 1)%nat -> hex_encode buf destsize = Some (false, [])).
Proof.
  intros buf destsize H. unfold hex_encode, hex_str_size. split; intros Hd.
  - destruct (Nat.ltb_spec destsize (2 * length buf + 1)); [lia|].
    destruct (hex_digits_ok buf H) as (s & E & Hs). rewrite E. exists s. split; [reflexivity|exact Hs].
  - destruct (Nat.ltb_spec destsize (2 * length buf + 1)); [reflexivity|lia].
Qed.
Lemma hex_round : forall buf destsize s, Forall byte buf -> hex_encode buf destsize = Some (true, s) ->
  hex_decode (removelast s) (hex_data_size (length (removelast s))) = (true, buf).
Proof.
  intros buf destsize s H E. destruct (hex_encode_ok buf destsize H) as [H1 H2].
  destruct (le_lt_dec (2 * length buf + 1) destsize) as [Hd|Hd].
  - destruct (H1 Hd) as (t & Et & Ht). rewrite E in Et. injection Et as ->.
    rewrite removelast_last. apply hex_decode_iff. split; [eapply spells_mono; [exact lower_is_digit|exact Ht]|].
    rewrite (spells_length _ _ _ Ht). unfold hex_data_size. rewrite Nat.mul_comm, Nat.div_mul by lia. reflexivity.
  - rewrite (H2 Hd) in E. discriminate E.
Qed.

(** ** Numbers *)
Lemma fold_value : forall base ds a, fold_left (fun a d => a * base + d) ds a = a * base ^ N.of_nat (length ds) + value base ds.
Proof.
  intros base. induction ds as [|d ds IH]; intros a; cbn [fold_left length]; [unfold value; cbn; lia|].
  unfold value. cbn [fold_left]. rewrite (IH (a * base + d)), (IH (0 * base + d)).
  rewrite Nat2N.inj_succ, N.pow_succ_r'. nia.
Qed.
Lemma value_cons : forall base d ds, value base (d :: ds) = d * base ^ N.of_nat (length ds) + value base ds.
Proof. intros base d ds. unfold value at 1. cbn [fold_left]. rewrite fold_value. lia. Qed.
Lemma value_app : forall base a b, value base (a ++ b) = value base a * base ^ N.of_nat (length b) + value base b.
Proof. intros base a b. unfold value at 1. rewrite fold_left_app. apply fold_value. Qed.
Lemma value_lt : forall base ds, 0 < base -> Forall (fun d => d < base) ds -> value base ds < base ^ N.of_nat (length ds).
Proof.
  intros base ds Hb. induction ds as [|d ds IH]; intros H; [cbn; lia|].
  inversion_clear H as [|? ? Hd Hr]. rewrite value_cons. cbn [length]. rewrite Nat2N.inj_succ, N.pow_succ_r'.
  specialize (IH Hr). nia.
Qed.
Lemma value_inj : forall base a b, 0 < base -> Forall (fun d => d < base) a -> Forall (fun d => d < base) b ->
  length a = length b -> value base a = value base b -> a = b.
Proof.
  intros base a. induction a as [|x a IH]; intros [|y b] Hb Ha Hb' Hl Hv; try discriminate Hl; [reflexivity|].
  inversion_clear Ha as [|? ? Hx Ha']. inversion_clear Hb' as [|? ? Hy Hb'']. cbn in Hl. injection Hl as Hl.
  rewrite !value_cons in Hv. rewrite Hl in Hv.
  pose proof (value_lt base a Hb Ha') as La. pose proof (value_lt base b Hb Hb'') as Lb. rewrite Hl in La.
  set (q := base ^ N.of_nat (length b)) in *.
  assert (E : x = y).
  { assert (E1 : (x * q + value base a) / q = x) by (symmetry; apply (N.div_unique _ q x (value base a)); lia).
    assert (E2 : (y * q + value base b) / q = y) by (symmetry; apply (N.div_unique _ q y (value base b)); lia).
    congruence. }
  subst y. f_equal. apply IH; try assumption. lia.
Qed.
Lemma pow_5 : forall n, 32 ^ n = 2 ^ (5 * n).
Proof. intros n. change 32 with (2 ^ 5). rewrite <- N.pow_mul_r. reflexivity. Qed.
Lemma pow_8 : forall n, 256 ^ n = 2 ^ (8 * n).
Proof. intros n. change 256 with (2 ^ 8). rewrite <- N.pow_mul_r. reflexivity. Qed.

(** ** base32 letters *)
Lemma place_nth : forall l c i, place c l = Some i -> nth_error l (N.to_nat i) = Some c.
Proof.
  induction l as [|x l IH]; intros c i; cbn [place]; [discriminate|].
  destruct (N.eqb_spec x c) as [->|]; [intros [= <-]; reflexivity|].
  destruct (place c l) as [j|] eqn:E; [|discriminate]. intros [= <-]. rewrite N.add_1_r, N2Nat.inj_succ. apply IH. exact E.
Qed.
Definition below32 : list N := List.map N.of_nat (seq 0 32).
Lemma below32_in : forall d, d < 32 -> In d below32.
Proof. intros d H. unfold below32. apply in_map_iff. exists (N.to_nat d). rewrite in_seq. lia. Qed.
Lemma place_letter : forall d, d < 32 -> place (letter d) (firstn 32 base32_chars) = Some d.
Proof.
  intros d H. pose proof (below32_in d H) as Hi.
  assert (F : forallb (fun d => match place (letter d) (firstn 32 base32_chars) with Some x => x =? d | None => false end) below32 = true)
    by (vm_compute; reflexivity).
  pose proof (proj1 (forallb_forall _ _) F d Hi) as G. cbv beta in G.
  destruct (place (letter d) (firstn 32 base32_chars)); [|discriminate G]. apply N.eqb_eq in G. congruence.
Qed.
Lemma nth_letter : forall d, d < 32 -> nth_error base32_chars (N.to_nat d) = Some (letter d).
Proof.
  intros d H. pose proof (below32_in d H) as Hi.
  assert (F : forallb (fun d => match nth_error base32_chars (N.to_nat d) with Some x => x =? letter d | None => false end) below32 = true)
    by (vm_compute; reflexivity).
  pose proof (proj1 (forallb_forall _ _) F d Hi) as G. cbv beta in G.
  destruct (nth_error base32_chars (N.to_nat d)); [|discriminate G]. apply N.eqb_eq in G. congruence.
Qed.
Lemma place_is : forall c d, place c (firstn 32 base32_chars) = Some d -> d < 32 /\ c = letter d.
Proof.
  intros c d H. apply place_nth in H.
  assert (L : d < 32).
  { assert (K : (N.to_nat d < length (firstn 32 base32_chars))%nat) by (apply nth_error_Some; congruence).
    change (length (firstn 32 base32_chars)) with 32%nat in K. lia. }
  split; [exact L|]. pose proof (nth_letter d L) as E.
  assert (X : forall (l : list N) n i x, nth_error (firstn n l) i = Some x -> nth_error l i = Some x).
  { induction l as [|y l IH]; intros [|n] [|i] x; cbn; try discriminate; [intros K; exact K|apply IH]. }
  apply X in H. congruence.
Qed.
Lemma place_pad : place pad (firstn 32 base32_chars) = None.
Proof. reflexivity. Qed.

(** ** Decoding a group *)
Lemma shift5 : forall a, a < 2 ^ 59 -> N.land (N.shiftl a 5) 0xffffffffffffffff = a * 32.
Proof.
  intros a H. change 0xffffffffffffffff with (N.ones 64). rewrite N.land_ones, N.shiftl_mul_pow2. apply N.mod_small.
  change (2 ^ 5) with 32. change (2 ^ 59) with 576460752303423488 in H. change (2 ^ 64) with 18446744073709551616. lia.
Qed.
Lemma lor5 : forall a d, d < 32 -> N.lor (a * 32) d = a * 32 + d.
Proof.
  intros a d Hd.
  assert (A : N.land (a * 32) d = 0).
  { apply N.bits_inj_0. intros i. rewrite N.land_spec. destruct (N.ltb_spec i 5) as [Hi|Hi].
    - change 32 with (2 ^ 5). rewrite <- N.shiftl_mul_pow2, N.shiftl_spec_low by exact Hi. reflexivity.
    - destruct (N.eq_dec d 0) as [->|]; [rewrite N.bits_0; apply andb_false_r|].
      rewrite (N.bits_above_log2 d i); [apply andb_false_r|].
      apply N.lt_le_trans with 5; [|exact Hi]. apply N.log2_lt_pow2; [lia|]. exact Hd. }
  rewrite <- N.lxor_lor by exact A. rewrite <- N.add_nocarry_lxor by exact A. reflexivity.
Qed.
Lemma pow_le59 : forall n, (n <= 11)%nat -> 32 ^ N.of_nat n <= 2 ^ 59.
Proof. intros n H. rewrite pow_5. apply N.pow_le_mono_r; lia. Qed.
Lemma decode_pads : forall p acc j k, acc < 32 ^ N.of_nat j -> (j + p <= 12)%nat ->
  decode_chars (repeat equals p) acc k = Some (acc * 32 ^ N.of_nat p, (k + p)%nat).
Proof.
  induction p as [|p IH]; intros acc j k Ha Hj; cbn [repeat decode_chars].
  - rewrite N.pow_0_r. f_equal. f_equal; lia.
  - cbv zeta. change equals with pad at 1. rewrite place_pad. rewrite N.eqb_refl.
    rewrite shift5 by (eapply N.lt_le_trans; [exact Ha|apply pow_le59; lia]).
    rewrite (IH (acc * 32) (S j)); [|rewrite Nat2N.inj_succ, N.pow_succ_r'; lia|lia].
    rewrite Nat2N.inj_succ, N.pow_succ_r'. f_equal. f_equal; [lia|lia].
Qed.
Lemma decode_letters : forall ds rest acc j, Forall (fun d => d < 32) ds -> acc < 32 ^ N.of_nat j -> (j + length ds <= 12)%nat ->
  decode_chars (List.map letter ds ++ rest) acc 0 =
  decode_chars rest (acc * 32 ^ N.of_nat (length ds) + value 32 ds) 0
  /\ acc * 32 ^ N.of_nat (length ds) + value 32 ds < 32 ^ N.of_nat (j + length ds).
Proof.
  induction ds as [|d ds IH]; intros rest acc j Hd Ha Hj.
  - cbn. rewrite N.mul_1_r, N.add_0_r, Nat.add_0_r. split; [reflexivity|exact Ha].
  - inversion_clear Hd as [|? ? Hd1 Hd2]. cbn [List.map app decode_chars length]. cbv zeta.
    rewrite place_letter by exact Hd1. cbn [length] in Hj.
    rewrite shift5 by (eapply N.lt_le_trans; [exact Ha|apply pow_le59; lia]). rewrite lor5 by exact Hd1.
    destruct (IH rest (acc * 32 + d) (S j)) as [E L]; [exact Hd2|rewrite Nat2N.inj_succ, N.pow_succ_r'; lia|lia|].
    rewrite value_cons. rewrite Nat2N.inj_succ, N.pow_succ_r'.
    replace (acc * (32 * 32 ^ N.of_nat (length ds)) + (d * 32 ^ N.of_nat (length ds) + value 32 ds))
      with ((acc * 32 + d) * 32 ^ N.of_nat (length ds) + value 32 ds) by lia.
    split; [exact E|]. replace (j + S (length ds))%nat with (S j + length ds)%nat by lia. exact L.
Qed.
Lemma decode_group : forall ds p, Forall (fun d => d < 32) ds -> (length ds + p = 8)%nat ->
  decode_chars (List.map letter ds ++ repeat equals p) 0 0 = Some (value 32 ds * 32 ^ N.of_nat p, p).
Proof.
  intros ds p Hd Hl. destruct (decode_letters ds (repeat equals p) 0 0 Hd) as [E L]; [cbn; lia|lia|].
  rewrite N.mul_0_l, N.add_0_l in E, L. rewrite E. apply (decode_pads p _ (length ds)); [exact L|lia].
Qed.
Lemma decode_inv_pads : forall cs acc k a p, decode_chars cs acc (S k) = Some (a, p) ->
  cs = repeat equals (length cs) /\ p = (S k + length cs)%nat.
Proof.
  induction cs as [|c cs IH]; intros acc k a p; cbn [decode_chars length repeat].
  - intros [= _ <-]. split; [reflexivity|lia].
  - cbv zeta. destruct (place c (firstn 32 base32_chars)); [discriminate|].
    destruct (N.eqb_spec c pad) as [->|]; [|discriminate]. intros H. apply IH in H as [-> ->].
    rewrite repeat_length. split; [reflexivity|lia].
Qed.
Lemma decode_inv : forall cs acc a p, decode_chars cs acc 0 = Some (a, p) ->
  exists ds, cs = List.map letter ds ++ repeat equals p /\ Forall (fun d => d < 32) ds.
Proof.
  induction cs as [|c cs IH]; intros acc a p; cbn [decode_chars].
  - intros [= _ <-]. exists []. split; [reflexivity|constructor].
  - cbv zeta. destruct (place c (firstn 32 base32_chars)) as [d|] eqn:E.
    + apply place_is in E as [Hd ->]. intros H. apply IH in H as (ds & -> & Hds). exists (d :: ds).
      split; [reflexivity|constructor; assumption].
    + destruct (N.eqb_spec c pad) as [->|]; [|discriminate]. intros H. apply decode_inv_pads in H as [E1 ->].
      exists []. split; [|constructor]. rewrite E1. cbn [List.map app]. rewrite repeat_length. reflexivity.
Qed.
(** bytes of the number *)
Lemma low_bytes_ok : forall v b, v < 2 ^ 40 -> (b <= 5)%nat ->
  Forall byte (firstn b (low_bytes v)) /\ length (firstn b (low_bytes v)) = b
  /\ value 256 (firstn b (low_bytes v)) = v / 2 ^ N.of_nat (40 - 8 * b).
Proof.
  intros v b Hv Hb. unfold low_bytes.
  change 0xff with (N.ones 8). rewrite !N.land_ones, !N.shiftr_div_pow2. change (2 ^ 8) with 256.
  assert (B : Forall byte [v / 2 ^ 32 mod 256; v / 2 ^ 24 mod 256; v / 2 ^ 16 mod 256; v / 256 mod 256; v mod 256])
    by (repeat constructor; unfold byte; apply N.mod_lt; lia).
  assert (Q0 : v / 2 ^ 40 = 0) by (apply N.div_small; exact Hv).
  assert (Q : forall k, v / 2 ^ k = 256 * (v / 2 ^ (k + 8)) + v / 2 ^ k mod 256).
  { intros k. rewrite N.pow_add_r, <- N.div_div by (apply N.pow_nonzero; lia). change (2 ^ 8) with 256. apply N.div_mod. lia. }
  pose proof (Q 32) as Q32. pose proof (Q 24) as Q24. pose proof (Q 16) as Q16. pose proof (Q 8) as Q8. pose proof (Q 0) as Q00.
  change (32 + 8) with 40 in *. change (24 + 8) with 32 in *. change (16 + 8) with 24 in *. change (8 + 8) with 16 in *.
  change (0 + 8) with 8 in *. change (2 ^ 0) with 1 in *. rewrite N.div_1_r in Q00. rewrite Q0 in Q32.
  change (2 ^ 8) with 256 in *.
  destruct b as [|[|[|[|[|[|b]]]]]]; [..|lia]; cbn [firstn]; (split; [|split; [reflexivity|]]).
  all: try (repeat match goal with H : Forall byte (_ :: _) |- _ => inversion_clear H end; repeat constructor; assumption).
  all: unfold value; cbn [fold_left]; cbn [Nat.mul Nat.add Nat.sub].
  - cbn [N.of_nat Pos.of_succ_nat Pos.succ]. change (2 ^ 40) with 1099511627776 in *. rewrite Q0. reflexivity.
  - change (N.of_nat 32) with 32. lia.
  - change (N.of_nat 24) with 24. lia.
  - change (N.of_nat 16) with 16. lia.
  - change (N.of_nat 8) with 8. change (2 ^ 8) with 256. lia.
  - change (N.of_nat 0) with 0. change (2 ^ 0) with 1. rewrite N.div_1_r. lia.
Qed.
