Require Import NArith List Bool Lia Arith.
From Coq Require Import ZifyN ZifyNat ZifyBool.
Require Import Verif.Str_Model Verif.Str_Spec Verif.Str_Proofs.
Import ListNotations.
Local Open Scope N_scope.

Lemma div8 : forall n p, (n + p = 8)%nat -> Nat.div (40 - p * 5) 8 = Nat.div (5 * n) 8.
Proof. intros n p H. f_equal. lia. Qed.
Lemma div_shift : forall v a b c, c = a + b -> v * 2 ^ a / 2 ^ c = v / 2 ^ b.
Proof.
  intros v a b c ->. rewrite N.pow_add_r. rewrite (N.mul_comm v). apply N.div_mul_cancel_l; apply N.pow_nonzero; lia.
Qed.
Lemma decode_8_ok : forall ds p, Forall (fun d => d < 32) ds -> (length ds + p = 8)%nat -> p <> 2%nat -> p <> 5%nat ->
  exists val, decode_8_chars (List.map letter ds ++ repeat equals p) = Some (val, Nat.div (5 * length ds) 8)
  /\ let b := firstn (Nat.div (5 * length ds) 8) val in
     Forall byte b /\ length b = Nat.div (5 * length ds) 8
     /\ value 256 b = value 32 ds / 2 ^ N.of_nat (5 * length ds - 8 * length b).
Proof.
  intros ds p Hd Hl H2 H5. unfold decode_8_chars. rewrite decode_group by assumption.
  destruct (Nat.eqb_spec p 5); [contradiction|]. destruct (Nat.eqb_spec p 2); [contradiction|]. cbn [orb].
  rewrite (div8 _ _ Hl). eexists. split; [reflexivity|]. cbv zeta.
  set (b := Nat.div (5 * length ds) 8).
  assert (B : (8 * b <= 5 * length ds)%nat) by (apply Nat.mul_div_le; lia).
  assert (V : value 32 ds * 32 ^ N.of_nat p < 2 ^ 40).
  { pose proof (value_lt 32 ds ltac:(lia) Hd) as L.
    replace (2 ^ 40) with (32 ^ N.of_nat (length ds) * 32 ^ N.of_nat p).
    - apply N.mul_lt_mono_pos_r; [|exact L]. assert (32 ^ N.of_nat p <> 0) by (apply N.pow_nonzero; lia). lia.
    - rewrite <- N.pow_add_r, pow_5. f_equal. lia. }
  destruct (low_bytes_ok (value 32 ds * 32 ^ N.of_nat p) b V) as (F & L & E); [lia|].
  split; [exact F|]. split; [exact L|]. rewrite E, L, pow_5. apply div_shift. lia.
Qed.
Lemma firstn_group : forall ds p (str : list N), (length ds + p = 8)%nat ->
  firstn 8 (List.map letter ds ++ repeat equals p ++ str) = List.map letter ds ++ repeat equals p
  /\ skipn 8 (List.map letter ds ++ repeat equals p ++ str) = str.
Proof.
  intros ds p str H. rewrite app_assoc.
  assert (L : length (List.map letter ds ++ repeat equals p) = 8%nat) by (rewrite app_length, map_length, repeat_length; exact H).
  split.
  - rewrite firstn_app, L, Nat.sub_diag, firstn_O, app_nil_r. apply firstn_all2. lia.
  - rewrite skipn_app, L, Nat.sub_diag, skipn_O, skipn_all2 by lia. reflexivity.
Qed.
Lemma decode_reads : forall str w, reads str w -> forall fuel, (length str <= fuel)%nat ->
  base32_decode fuel str (length w) = (true, w).
Proof.
  induction 1 as [|ds p b str w Hd Hl H2 H5 Hb Lb Vb Hr IH]; intros fuel Hf; [destruct fuel; reflexivity|].
  assert (L : length (List.map letter ds ++ repeat equals p ++ str) = (8 + length str)%nat)
    by (rewrite !app_length, map_length, repeat_length; lia).
  destruct fuel as [|fuel]; [lia|]. cbn [base32_decode]. rewrite L.
  destruct (Nat.ltb_spec (8 + length str) 8); [lia|].
  destruct (firstn_group ds p str Hl) as [-> ->].
  destruct (decode_8_ok ds p Hd Hl H2 H5) as (val & -> & F & Lv & V). cbv zeta in *.
  rewrite app_length. rewrite Lb in *. destruct (Nat.ltb_spec (Nat.div (5 * length ds) 8 + length w) (Nat.div (5 * length ds) 8)); [lia|].
  replace (Nat.div (5 * length ds) 8 + length w - Nat.div (5 * length ds) 8)%nat with (length w) by lia.
  rewrite (IH fuel) by lia. f_equal. f_equal.
  apply (value_inj 256); [lia|exact F|exact Hb|lia|]. rewrite V, Vb, Lv. reflexivity.
Qed.
Lemma decode_8_inv : forall cs val n, length cs = 8%nat -> decode_8_chars cs = Some (val, n) ->
  exists ds p, cs = List.map letter ds ++ repeat equals p /\ Forall (fun d => d < 32) ds
    /\ (length ds + p = 8)%nat /\ p <> 2%nat /\ p <> 5%nat.
Proof.
  intros cs val n L. unfold decode_8_chars. destruct (decode_chars cs 0 0) as [[a p]|] eqn:E; [|discriminate].
  destruct (Nat.eqb_spec p 5); [discriminate|]. destruct (Nat.eqb_spec p 2); [discriminate|]. intros _.
  apply decode_inv in E as (ds & -> & Hd). exists ds, p. rewrite app_length, map_length, repeat_length in L. auto.
Qed.
Lemma reads_decode : forall fuel str size w, base32_decode fuel str size = (true, w) -> reads str w /\ length w = size.
Proof.
  induction fuel as [|fuel IH]; intros str size w; cbn [base32_decode].
  - destruct (Nat.ltb (length str) 8); [|discriminate]. destruct str; [|discriminate]. destruct size; [|discriminate].
    intros [= <-]. split; [constructor|reflexivity].
  - destruct (Nat.ltb_spec (length str) 8) as [Hlt|Hge].
    + destruct str; [|discriminate]. destruct size; [|discriminate]. intros [= <-]. split; [constructor|reflexivity].
    + destruct (decode_8_chars (firstn 8 str)) as [[val n]|] eqn:E; [|discriminate].
      destruct (Nat.ltb_spec size n) as [|Hn]; [discriminate|].
      destruct (base32_decode fuel (skipn 8 str) (size - n)) as [r w'] eqn:D. intros [= -> <-].
      apply IH in D as [Hr Hw].
      assert (E' := E). apply decode_8_inv in E' as (ds & p & Es & Hd & Hl & H2 & H5); [|rewrite firstn_length; lia].
      rewrite Es in E. destruct (decode_8_ok ds p Hd Hl H2 H5) as (val' & E2 & F & Lv & V). cbv zeta in *.
      rewrite E2 in E. assert (n = Nat.div (5 * length ds) 8) as -> by congruence. assert (val = val') as -> by congruence.
      rewrite app_length, Lv, Hw. split; [|lia].
      rewrite <- (firstn_skipn 8 str), Es, <- app_assoc. apply reads_group; assumption.
Qed.
Lemma decode_iff : forall fuel str size w, (length str <= fuel)%nat ->
  (base32_decode fuel str size = (true, w) <-> reads str w /\ length w = size).
Proof.
  intros fuel str size w Hf. split; [apply reads_decode|]. intros [Hr <-]. apply decode_reads; assumption.
Qed.
Lemma decode_bound : forall fuel str size, (length (snd (base32_decode fuel str size)) <= size)%nat.
Proof.
  induction fuel as [|fuel IH]; intros str size; cbn [base32_decode].
  - destruct (Nat.ltb (length str) 8); cbn; lia.
  - destruct (Nat.ltb (length str) 8); [cbn; lia|]. destruct (decode_8_chars (firstn 8 str)) as [[val n]|]; [|cbn; lia].
    destruct (Nat.ltb_spec size n); [cbn; lia|]. specialize (IH (skipn 8 str) (size - n)%nat).
    destruct (base32_decode fuel (skipn 8 str) (size - n)) as [r w]. cbn [snd] in *. rewrite app_length, firstn_length. lia.
Qed.

(** ** Encoding a group *)
Fixpoint digs (k : nat) (r : N) : list N :=
  match k with O => [] | S k' => r / 2 ^ 35 :: digs k' ((r * 32) mod 2 ^ 40) end.
Lemma digs_length : forall k r, length (digs k r) = k.
Proof. induction k as [|k IH]; intros r; cbn; [reflexivity|]. rewrite IH. reflexivity. Qed.
Lemma digs_lt : forall k r, r < 2 ^ 40 -> Forall (fun d => d < 32) (digs k r).
Proof.
  induction k as [|k IH]; intros r Hr; cbn [digs]; constructor.
  - apply N.div_lt_upper_bound; [lia|]. change (2 ^ 35 * 32) with (2 ^ 40). exact Hr.
  - apply IH. apply N.mod_lt. lia.
Qed.
Lemma digs_value : forall k r, (k <= 8)%nat -> r < 2 ^ 40 -> value 32 (digs k r) = r / 2 ^ N.of_nat (40 - 5 * k).
Proof.
  induction k as [|k IH]; intros r Hk Hr.
  - cbn [digs]. unfold value. cbn [fold_left]. symmetry. apply N.div_small. exact Hr.
  - cbn [digs]. rewrite value_cons, digs_length, IH by (try lia; apply N.mod_lt; lia).
    set (d := r / 2 ^ 35). set (s := r mod 2 ^ 35).
    assert (Er : r = 2 ^ 35 * d + s) by (apply N.div_mod; lia).
    assert (Hs : s < 2 ^ 35) by (apply N.mod_lt; lia).
    assert (Es : (r * 32) mod 2 ^ 40 = s * 32).
    { symmetry. apply (N.mod_unique _ _ d); [change (2 ^ 40) with (2 ^ 35 * 32); nia|].
      rewrite Er. change (2 ^ 40) with (2 ^ 35 * 32). lia. }
    rewrite Es.
    replace (N.of_nat (40 - 5 * k)) with (5 + N.of_nat (35 - 5 * k)) by lia.
    change 32 with (2 ^ 5) at 2. rewrite (div_shift s 5 (N.of_nat (35 - 5 * k))) by lia.
    replace (40 - 5 * S k)%nat with (35 - 5 * k)%nat by lia.
    assert (E35 : 2 ^ 35 = 32 ^ N.of_nat k * 2 ^ N.of_nat (35 - 5 * k)).
    { rewrite pow_5, <- N.pow_add_r. f_equal. lia. }
    rewrite Er, E35.
    replace (32 ^ N.of_nat k * 2 ^ N.of_nat (35 - 5 * k) * d + s) with (d * 32 ^ N.of_nat k * 2 ^ N.of_nat (35 - 5 * k) + s) by lia.
    rewrite N.div_add_l by (apply N.pow_nonzero; lia). reflexivity.
Qed.
Lemma digit_of : forall res, N.land (N.shiftr res 35) 0x1f = (res mod 2 ^ 40) / 2 ^ 35.
Proof.
  intros res. change 0x1f with (N.ones 5). rewrite N.land_ones, N.shiftr_div_pow2.
  rewrite (N.div_mod res (2 ^ 40)) at 1 by lia.
  replace (2 ^ 40 * (res / 2 ^ 40)) with (res / 2 ^ 40 * 32 * 2 ^ 35) by (change (2 ^ 40) with (2 ^ 35 * 32); lia).
  rewrite N.div_add_l by lia. change (2 ^ 5) with 32. rewrite N.add_comm, N.mod_add by lia. apply N.mod_small.
  apply N.div_lt_upper_bound; [lia|]. change (2 ^ 35 * 32) with (2 ^ 40). apply N.mod_lt. lia.
Qed.
Lemma shifted : forall res, N.land (N.shiftl res 5) 0xffffffffffffffff mod 2 ^ 40 = (res mod 2 ^ 40 * 32) mod 2 ^ 40.
Proof.
  intros res. change 0xffffffffffffffff with (N.ones 64). rewrite N.land_ones, N.shiftl_mul_pow2. change (2 ^ 5) with 32.
  rewrite N.mul_mod_idemp_l by lia.
  rewrite (N.div_mod (res * 32) (2 ^ 64)) at 2 by lia.
  replace (2 ^ 64 * (res * 32 / 2 ^ 64)) with (2 ^ 24 * (res * 32 / 2 ^ 64) * 2 ^ 40) by (change (2 ^ 64) with (2 ^ 24 * 2 ^ 40); lia).
  rewrite N.add_comm, N.mod_add by lia. reflexivity.
Qed.
Lemma encode_digs : forall fuel k res bits, (k <= fuel)%nat -> (5 * k < bits + 5)%nat -> (bits <= 5 * k)%nat ->
  encode_chars fuel res bits = Some (List.map letter (digs k (res mod 2 ^ 40))).
Proof.
  induction fuel as [|fuel IH]; intros k res bits Hk H1 H2.
  - assert (bits = 0)%nat as -> by lia. assert (k = 0)%nat as -> by lia. reflexivity.
  - destruct bits as [|bits]; [assert (k = 0)%nat as -> by lia; reflexivity|].
    destruct k as [|k]; [lia|]. cbn [encode_chars digs List.map]. rewrite digit_of.
    rewrite nth_letter.
    + rewrite (IH k) by lia. rewrite shifted. reflexivity.
    + apply N.div_lt_upper_bound; [lia|]. change (2 ^ 35 * 32) with (2 ^ 40). apply N.mod_lt. lia.
Qed.
Lemma be40_value : forall buf, (length buf <= 5)%nat -> Forall byte buf ->
  be40 buf = value 256 buf * 2 ^ N.of_nat (40 - 8 * length buf) /\ be40 buf < 2 ^ 40.
Proof.
  intros buf Hl Hb. unfold be40. fold (value 256 (buf ++ repeat 0 (5 - length buf))).
  assert (Z : forall n, value 256 (repeat 0 n) = 0).
  { induction n as [|n IH]; [reflexivity|]. cbn [repeat]. rewrite value_cons, IH. lia. }
  split.
  - rewrite value_app, Z, repeat_length, N.add_0_r, pow_8. f_equal. f_equal. lia.
  - assert (F : Forall (fun d => d < 256) (buf ++ repeat 0 (5 - length buf))).
    { apply Forall_app. split; [exact Hb|]. apply Forall_forall. intros x Hx. apply repeat_spec in Hx. lia. }
    pose proof (value_lt 256 _ ltac:(lia) F) as L. rewrite app_length, repeat_length in L.
    replace (length buf + (5 - length buf))%nat with 5%nat in L by lia. exact L.
Qed.
Definition letters_of (n : nat) : nat := match n with O => 0 | 1 => 2 | 2 => 4 | 3 => 5 | 4 => 7 | _ => 8 end%nat.
Lemma encode_8_ok : forall buf, (1 <= length buf <= 5)%nat -> Forall byte buf ->
  exists ds p, encode_8_chars buf = Some (List.map letter ds ++ repeat equals p)
  /\ Forall (fun d => d < 32) ds /\ length ds = letters_of (length buf) /\ (length ds + p = 8)%nat
  /\ value 32 ds = value 256 buf * 2 ^ N.of_nat (5 * length ds - 8 * length buf).
Proof.
  intros buf Hl Hb. destruct (be40_value buf) as [Ev Lv]; [lia|exact Hb|].
  unfold encode_8_chars. destruct (Nat.eqb_spec (length buf) 0); [lia|]. destruct (Nat.ltb_spec 5 (length buf)); [lia|]. cbn [orb].
  set (k := letters_of (length buf)).
  assert (K : (k <= 8)%nat /\ (5 * k < length buf * 8 + 5)%nat /\ (length buf * 8 <= 5 * k)%nat).
  { unfold k. destruct (length buf) as [|[|[|[|[|[|?]]]]]]; cbn [letters_of]; lia. }
  rewrite (encode_digs 8 k) by lia. rewrite N.mod_small by exact Lv.
  exists (digs k (be40 buf)), (8 - k)%nat. split.
  - destruct (Nat.eqb_spec (length buf) 5) as [E5|N5].
    + unfold k. rewrite E5. cbn [letters_of]. rewrite Nat.sub_diag. cbn [repeat]. rewrite app_nil_r. reflexivity.
    + unfold k. destruct (length buf) as [|[|[|[|[|[|n']]]]]]; try lia; reflexivity.
  - split; [apply digs_lt; exact Lv|]. rewrite digs_length. split; [reflexivity|]. split; [lia|].
    rewrite digs_value by (try exact Lv; lia). rewrite Ev.
    replace (N.of_nat (40 - 8 * length buf)) with (N.of_nat (5 * k - 8 * length buf) + N.of_nat (40 - 5 * k)) by lia.
    rewrite N.pow_add_r, N.mul_assoc. apply N.div_mul. apply N.pow_nonzero. lia.
Qed.
