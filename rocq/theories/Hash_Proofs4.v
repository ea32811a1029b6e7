Require Import NArith ZArith List Bool Lia ZifyBool ZifyN ZifyNat.
Require Import Verif.Word Verif.Codec_Types Verif.Hash_Model Verif.Hash_Spec Verif.Hash_Proofs Verif.Hash_Proofs2 Verif.Hash_Proofs3.
Import ListNotations.
Local Open Scope N_scope.

(** Not a multiple of the number of elements in a block, or empty *)
Definition rest_ok (step : nat) (k : list N) : Prop := length k = 0%nat \/ (length k mod step <> 0)%nat.
Lemma rest_ok_skip : forall step k, (0 < step)%nat -> rest_ok step k -> (step < length k)%nat -> rest_ok step (skipn step k).
Proof.
  intros step k H0 [E|H] L; [lia|]. right. rewrite skipn_length.
  replace (length k) with (length k - step + 1 * step)%nat in H by lia. rewrite Nat.mod_add in H by lia. exact H.
Qed.
Definition halves (v : N) : list N := [v mod W32; (v / W32) mod W32].
Definition words64 (k : list N) : list N := flat_map halves k.
Fixpoint words16 (k : list N) : list N :=
  match k with [] => [] | [x] => [x] | x :: y :: r => x + y * 65536 :: words16 r end.

Lemma low_some : forall v, low (Some v) = Some (v mod W32). Proof. reflexivity. Qed.
Lemma high_some : forall v, high (Some v) = Some ((v / W32) mod W32).
Proof. intro v. unfold high, option_map. rewrite N.shiftr_div_pow2. reflexivity. Qed.
Ltac wreads := cbv beta iota zeta delta
  [switch execute Nat.eqb length A B C plus shl kw nth_error pair16 option_map seq3 block_s64 last_s64 block_s16 last_s16 last_s32 low high].
Lemma block_s64_ok : forall k s, (3 < length k)%nat -> is_triple s ->
  exists t, block_s64 k s = Some t /\ is_triple t /\ absorb (words64 k) s = absorb (words64 (skipn 3 k)) (mix t).
Proof.
  intros k s Hl Hs. do 4 (destruct k as [|? k]; [cbn [length] in Hl; lia|]).
  eexists. split; [wreads; reflexivity|]. rewrite !N.shiftr_div_pow2. change (2 ^ 32) with W32. rewrite !u32_mod. gather. rewrite !add_cba.
  split; [apply is_triple_add|]. cbn [skipn]. unfold words64. cbn [flat_map halves app].
  rewrite !absorb_more by discriminate. rewrite !(proj1 (mix_spec _ (is_triple_add _ _ _ _))). reflexivity.
Qed.
Lemma last_s64_ok : forall k s, rest_ok 3 k -> (0 < length k <= 3)%nat -> is_triple s ->
  exists t, switch (length k) (last_s64 k) s = Some (t, false) /\ is_triple t /\ final t = absorb (words64 k) s.
Proof.
  intros k s [E|R] Hl Hs; [lia|]. upto k.
  - eexists. split; [wreads; reflexivity|]. rewrite !N.shiftr_div_pow2. change (2 ^ 32) with W32. rewrite !u32_mod. gather. shape.
    split; [apply is_triple_add|]. finish. reflexivity.
  - eexists. split; [wreads; reflexivity|]. rewrite !N.shiftr_div_pow2. change (2 ^ 32) with W32. rewrite !u32_mod. gather. rewrite add_cba.
    pose proof (mix_spec _ (is_triple_add s (n mod W32) ((n / W32) mod W32) (n0 mod W32))) as [E T]. rewrite E.
    rewrite add_a1 by exact T. split; [apply is_triple_add|]. finish. reflexivity.
Qed.
Lemma last_s32_ok : forall k s, rest_ok 3 k -> (0 < length k <= 3)%nat -> is_triple s ->
  exists t, switch (length k) (last_s32 k) s = Some (t, false) /\ is_triple t /\ final t = absorb k s.
Proof.
  intros k s [E|R] Hl Hs; [lia|]. upto k.
  1, 2: eexists; split; [wreads; reflexivity|]; gather; shape; split; [apply is_triple_add|]; finish; reflexivity.
Qed.
Definition is_half (x : N) : Prop := x < 65536.
Definition P16 (k : list N) : Prop := rest_ok 6 k /\ Forall is_half k.
Ltac halfs := repeat match goal with H : Forall is_half (_ :: _) |- _ => inversion H; subst; clear H end; unfold is_half in *.
Lemma words16_cons : forall x y r, words16 (x :: y :: r) = x + y * 65536 :: words16 r. Proof. reflexivity. Qed.
Lemma block_s16_ok : forall k s, P16 k -> (6 < length k)%nat -> is_triple s ->
  exists t, block_s16 k s = Some t /\ is_triple t /\ absorb (words16 k) s = absorb (words16 (skipn 6 k)) (mix t).
Proof.
  intros k s [_ F] Hl Hs. do 7 (destruct k as [|? k]; [cbn [length] in Hl; lia|]). halfs.
  eexists. split; [wreads; reflexivity|]. small. gather. rewrite !add_cba.
  split; [apply is_triple_add|]. cbn [skipn]. rewrite !(proj1 (mix_spec _ (is_triple_add _ _ _ _))).
  rewrite !words16_cons.
  match goal with |- absorb (_ :: _ :: _ :: ?r) _ = _ => assert (r <> []) by (destruct k; discriminate) end.
  rewrite absorb_more by assumption. reflexivity.
Qed.
Lemma last_s16_ok : forall k s, P16 k -> (0 < length k <= 6)%nat -> is_triple s ->
  exists t, switch (length k) (last_s16 k) s = Some (t, false) /\ is_triple t /\ final t = absorb (words16 k) s.
Proof.
  intros k s [[E|R] F] Hl Hs; [lia|]. upto k.
  all: halfs; eexists; split; [wreads; reflexivity|]; small; gather; shape; split; [apply is_triple_add|]; finish; cbn [words16 absorb];
    f_equal; f_equal; lia.
Qed.
Lemma words64_nil : forall k, k = [] <-> words64 k = [].
Proof. intros [|x k]; split; intro H; auto; discriminate H. Qed.
Lemma words16_nil : forall k, k = [] <-> words16 k = [].
Proof. intros [|x [|y k]]; split; intro H; auto; discriminate H. Qed.
Lemma self_nil : forall k : list N, k = [] <-> k = []. Proof. reflexivity. Qed.

Lemma stable_run : forall step block last width (Wd : list N -> list N) (P : list N -> Prop) key base,
  (0 < step)%nat ->
  (forall k, P k -> (step < length k)%nat -> P (skipn step k)) ->
  (forall k s, P k -> (step < length k)%nat -> is_triple s ->
    exists t, block k s = Some t /\ is_triple t /\ absorb (Wd k) s = absorb (Wd (skipn step k)) (mix t)) ->
  (forall k s, P k -> (0 < length k <= step)%nat -> is_triple s ->
    exists t, switch (length k) (last k) s = Some (t, false) /\ is_triple t /\ final t = absorb (Wd k) s) ->
  (forall s, switch 0 (last []) s = Some (s, true)) ->
  (forall k, (k = [] <-> Wd k = [])) ->
  P key ->
  stable step block last width key base =
  Some (match key with
        | [] => (0xdeadbeef + base + base / W32) mod W32
        | _ => both (lookup3 (Wd key) (N.of_nat (length key) * width) ((base + base / W32) mod W32))
        end).
Proof.
  intros step block last width Wd P key base H1 H2 H3 H4 H5 H6 H7. unfold stable. rewrite mul4.
  set (b32 := (base + base / W32) mod W32).
  assert (E : init3 (0xdeadbeef + u32 (N.of_nat (length key) * width) + N.shiftr base 32 + base) =
              init3 (0xdeadbeef + u32 (N.of_nat (length key) * width) + b32)).
  { unfold b32. rewrite !init3_start, N.shiftr_div_pow2. change (2 ^ 32) with W32. rewrite N.add_mod_idemp_r by discriminate.
    replace (0xdeadbeef + u32 (N.of_nat (length key) * width) + base / W32 + base)
      with (0xdeadbeef + u32 (N.of_nat (length key) * width) + (base + base / W32)) by lia. reflexivity. }
  rewrite E. rewrite (lookup3_run N step block last Wd P key _ b32 H1 H2 H3 H4 H5 H6 H7 0).
  cbn [option_map fst snd]. f_equal. destruct key as [|x key].
  - rewrite (proj1 (H6 []) eq_refl). unfold lookup3. cbn [fst snd length N.of_nat]. unfold two. rewrite N.mul_0_l, N.lor_0_l.
    unfold b32. rewrite N.mul_0_l, N.add_0_r, N.add_mod_idemp_r by discriminate. f_equal. lia.
  - apply two_both. apply lookup3_lt. apply modW_lt.
Qed.
Lemma stable_64_ok : forall key base, rest_ok 3 key ->
  hash64_stable_64 key base =
  Some (match key with
        | [] => (0xdeadbeef + base + base / W32) mod W32
        | _ => both (lookup3 (words64 key) (N.of_nat (length key) * 8) ((base + base / W32) mod W32))
        end).
Proof.
  intros. apply (stable_run 3 block_s64 last_s64 8 words64 (rest_ok 3)); auto using words64_nil, block_s64_ok, last_s64_ok; try lia.
  intros. apply rest_ok_skip; auto; lia.
Qed.
Lemma stable_32_ok : forall key base, rest_ok 3 key ->
  hash64_stable_32 key base =
  Some (match key with
        | [] => (0xdeadbeef + base + base / W32) mod W32
        | _ => both (lookup3 key (N.of_nat (length key) * 4) ((base + base / W32) mod W32))
        end).
Proof.
  intros. apply (stable_run 3 block_u32 last_s32 4 (fun k => k) (rest_ok 3)); auto using self_nil, block_u32_ok, last_s32_ok; try lia.
  intros. apply rest_ok_skip; auto; lia.
Qed.
Lemma stable_16_ok : forall key base, rest_ok 6 key -> Forall is_half key ->
  hash64_stable_16 key base =
  Some (match key with
        | [] => (0xdeadbeef + base + base / W32) mod W32
        | _ => both (lookup3 (words16 key) (N.of_nat (length key) * 2) ((base + base / W32) mod W32))
        end).
Proof.
  intros. apply (stable_run 6 block_s16 last_s16 2 words16 P16); auto using words16_nil, block_s16_ok, last_s16_ok; try lia.
  - intros k [R F] L. split; [apply rest_ok_skip; auto; lia|apply Forall_skip; exact F].
  - split; assumption.
Qed.

(** ** The same in bytes *)
Lemma words_memory64 : forall k, Forall (fun v => v < 18446744073709551616) k ->
  words_of little_endian (flat_map (bytes_of 8) k) = words64 k.
Proof.
  intros k. induction k as [|x k IH]; intro H; [reflexivity|]. inversion H; subst.
  change (words64 (x :: k)) with (halves x ++ words64 k). rewrite <- IH by assumption.
  assert (B : bytes_of 8 x = bytes_of 4 (x mod W32) ++ bytes_of 4 (x / W32)).
  { cbn [bytes_of app]. rewrite !N.div_div by discriminate. unfold W32.
    assert (D : forall d e, d <> 0 -> e <> 0 -> (x mod (d * (256 * e)) / d) mod 256 = (x / d) mod 256).
    { intros d e Hd He. rewrite N.mod_mul_r by (try assumption; lia). rewrite (N.mul_comm d), N.div_add by assumption.
      rewrite (N.div_small (x mod d)) by (apply N.mod_lt; assumption). rewrite N.add_0_l, N.mod_mul_r by (try assumption; lia).
      rewrite (N.mul_comm 256), N.mod_add by lia. apply N.mod_mod. lia. }
    assert (D0 : (x mod 4294967296) mod 256 = x mod 256).
    { specialize (D 1 16777216). rewrite !N.div_1_r in D. apply D; lia. }
    pose proof (D 256 65536 ltac:(lia) ltac:(lia)) as D1. pose proof (D 65536 256 ltac:(lia) ltac:(lia)) as D2.
    pose proof (D 16777216 1 ltac:(lia) ltac:(lia)) as D3.
    change (256 * (256 * 65536)) with 4294967296 in D1. change (65536 * (256 * 256)) with 4294967296 in D2.
    change (16777216 * (256 * 1)) with 4294967296 in D3.
    change (256 * 256) with 65536. change (65536 * 256) with 16777216. rewrite D0, D1, D2, D3. reflexivity. }
  cbn [flat_map]. rewrite B, <- app_assoc. unfold halves.
  assert (L : x / W32 < W32) by (apply N.div_lt_upper_bound; [discriminate|assumption]).
  rewrite (N.mod_small (x / W32)) by exact L.
  change (bytes_of 4 (x mod W32) ++ ?l) with
    ((x mod W32) mod 256 :: (x mod W32 / 256) mod 256 :: (x mod W32 / 256 / 256) mod 256 :: (x mod W32 / 256 / 256 / 256) mod 256 :: l).
  rewrite words_cons.
  change (bytes_of 4 (x / W32) ++ ?l) with
    ((x / W32) mod 256 :: (x / W32 / 256) mod 256 :: (x / W32 / 256 / 256) mod 256 :: (x / W32 / 256 / 256 / 256) mod 256 :: l).
  rewrite words_cons. cbn [app]. f_equal; [|f_equal]; apply bytes4; [apply modW_lt|exact L].
Qed.
Lemma bytes2 : forall v, v < 65536 -> v mod 256 + 256 * ((v / 256) mod 256) = v.
Proof. intros v H. assert (v / 256 < 256) by (apply N.div_lt_upper_bound; lia). rewrite (N.mod_small (v / 256)) by assumption. pose proof (N.div_mod v 256). lia. Qed.
Lemma words_memory16 : forall k, Forall is_half k -> words_of little_endian (flat_map (bytes_of 2) k) = words16 k.
Proof.
  intro k. assert (H : forall n k, (length k < n)%nat -> Forall is_half k -> words_of little_endian (flat_map (bytes_of 2) k) = words16 k).
  2: { apply (H (S (length k))); lia. }
  clear k. induction n as [|n IH]; [lia|]. intros [|x [|y k]] L F; [reflexivity| |].
  - inversion F; subst. pose proof (bytes2 x H1). cbn [flat_map bytes_of app words_of words16]. f_equal. unfold little_endian, be_val.
    cbn [rev app fold_left]. lia.
  - inversion F as [|? ? Hx F']; subst. inversion F' as [|? ? Hy F'']; subst.
    change (flat_map (bytes_of 2) (x :: y :: k)) with
      (x mod 256 :: (x / 256) mod 256 :: y mod 256 :: (y / 256) mod 256 :: flat_map (bytes_of 2) k).
    rewrite words_cons. change (words16 (x :: y :: k)) with (x + y * 65536 :: words16 k).
    rewrite IH; [|cbn [length] in L; lia|assumption]. f_equal. pose proof (bytes2 x Hx). pose proof (bytes2 y Hy).
    unfold little_endian, be_val. cbn [rev app fold_left]. lia.
Qed.
Lemma flat_byte : forall w k, Forall is_byte (flat_map (bytes_of w) k).
Proof. intros. exact (memory_byte true w k). Qed.
Lemma flat_len : forall w k, length (flat_map (bytes_of w) k) = (w * length k)%nat.
Proof. intros. exact (memory_len true w k). Qed.
Lemma stable_bytes : forall w Wd key base (little : bool) addr, key <> [] ->
  words_of little_endian (flat_map (bytes_of w) key) = Wd ->
  hash64_stable_8 little addr (flat_map (bytes_of w) key) base =
  Some (both (lookup3 Wd (N.of_nat (length key) * N.of_nat w) ((base + base / W32) mod W32))).
Proof.
  intros w Wd key base little addr H E. rewrite hash64_stable_8_ok by apply flat_byte. unfold lookup3_bytes. rewrite E, flat_len.
  do 3 f_equal. lia.
Qed.
Lemma words_memory32 : forall k, Forall (fun v => v < W32) k -> words_of little_endian (flat_map (bytes_of 4) k) = k.
Proof. intros. exact (words_memory true k H). Qed.

(** ** What is ignored *)
Lemma blocks_split : forall step (block : list N -> stmt), (0 < step)%nat ->
  (forall k k' s, firstn step k = firstn step k' -> block k s = block k' s) ->
  (forall k s, (step < length k)%nat -> exists t, block k s = Some t) ->
  forall m pre x x' s fuel, length pre = (step * m)%nat -> length x = step -> length x' = step -> (m < fuel)%nat ->
  exists t, blocks fuel step block (pre ++ x) s = Some (x, t) /\ blocks fuel step block (pre ++ x') s = Some (x', t).
Proof.
  intros step block H0 Hloc Hb. induction m as [|m IH]; intros pre x x' s fuel Lp Lx Lx' Lf; (destruct fuel as [|fuel]; [lia|]).
  - replace pre with (@nil N) by (destruct pre; [reflexivity|cbn [length] in Lp; lia]). cbn [app blocks].
    rewrite Lx, Lx', (proj2 (Nat.ltb_ge step step)) by lia. exists s. auto.
  - cbn [blocks]. rewrite !app_length, Lx, Lx'.
    replace (Nat.ltb step (length pre + step)) with true by (symmetry; apply Nat.ltb_lt; lia).
    destruct (Hb (pre ++ x) s) as [t E]; [rewrite app_length; lia|].
    rewrite (Hloc (pre ++ x') (pre ++ x)), E.
    2: rewrite !firstn_app, (proj2 (Nat.sub_0_le step (length pre))) by lia; reflexivity.
    rewrite !skipn_app, !(proj2 (Nat.sub_0_le step (length pre))) by lia. cbn [skipn].
    apply IH; try lia. rewrite skipn_length. lia.
Qed.
Lemma ignored : forall step block last width, (0 < step)%nat ->
  (forall k k' s, firstn step k = firstn step k' -> block k s = block k' s) ->
  (forall k s, (step < length k)%nat -> exists t, block k s = Some t) ->
  (forall k s, length k = step -> switch step (last k) s = Some (s, false)) ->
  forall m (pre x x' : list N) base, length pre = (step * m)%nat -> length x = step -> length x' = step ->
  exists h, stable step block last width (pre ++ x) base = Some h /\ stable step block last width (pre ++ x') base = Some h.
Proof.
  intros step block last width H0 Hloc Hb Hl m pre x x' base Lp Lx Lx'. unfold stable, run.
  rewrite !app_length, Lx, Lx', Lp.
  destruct (blocks_split step block H0 Hloc Hb m pre x x'
              (init3 (0xdeadbeef + u32 (u32 (N.of_nat (step * m + step)) * width) + N.shiftr base 32 + base))
              (S (step * m + step)) Lp Lx Lx' ltac:(nia)) as ([[a b] c] & E & E').
  rewrite E, E', Lx, Lx', !Hl by assumption.
  destruct (final (a, b, c)) as [[a' b'] c']. eexists. split; reflexivity.
Qed.
Lemma seq3_local : forall f g h f' g' h' (s : st3), f = f' -> g = g' -> h = h' -> seq3 f g h s = seq3 f' g' h' s.
Proof. intros. subst. reflexivity. Qed.
Lemma kw_local : forall step k k' i, firstn step k = firstn step k' -> (i < step)%nat -> kw k i = kw k' i.
Proof.
  intros step k k' i E L. unfold kw. rewrite <- (firstn_skipn step k), <- (firstn_skipn step k').
  revert k k' E. intros. rewrite <- E.
  destruct (Nat.lt_ge_cases i (length (firstn step k))) as [G|G].
  - rewrite !nth_error_app1 by assumption. reflexivity.
  - assert (Lk : (length k <= i)%nat) by (rewrite firstn_length in G; lia).
    assert (Lk' : (length k' <= i)%nat) by (rewrite E, firstn_length in G; lia).
    rewrite !skipn_all2 by lia. reflexivity.
Qed.
Lemma ignored_64 : forall m (pre x x' : list N) base, length pre = (3 * m)%nat -> length x = 3%nat -> length x' = 3%nat ->
  exists h, hash64_stable_64 (pre ++ x) base = Some h /\ hash64_stable_64 (pre ++ x') base = Some h.
Proof.
  intros m pre x x' base. apply (ignored 3 block_s64 last_s64 8 ltac:(lia)).
  - intros k k' s E. unfold block_s64. rewrite !(kw_local 3 k k' _ E) by lia. reflexivity.
  - intros k s L. do 4 (destruct k as [|? k]; [cbn [length] in L; lia|]). eexists. wreads. reflexivity.
  - reflexivity.
Qed.
Lemma ignored_32 : forall m (pre x x' : list N) base, length pre = (3 * m)%nat -> length x = 3%nat -> length x' = 3%nat ->
  exists h, hash64_stable_32 (pre ++ x) base = Some h /\ hash64_stable_32 (pre ++ x') base = Some h.
Proof.
  intros m pre x x' base. apply (ignored 3 block_u32 last_s32 4 ltac:(lia)).
  - intros k k' s E. unfold block_u32. rewrite !(kw_local 3 k k' _ E) by lia. reflexivity.
  - intros k s L. do 4 (destruct k as [|? k]; [cbn [length] in L; lia|]). eexists. reflexivity.
  - reflexivity.
Qed.
Lemma ignored_16 : forall m (pre x x' : list N) base, length pre = (6 * m)%nat -> length x = 6%nat -> length x' = 6%nat ->
  exists h, hash64_stable_16 (pre ++ x) base = Some h /\ hash64_stable_16 (pre ++ x') base = Some h.
Proof.
  intros m pre x x' base. apply (ignored 6 block_s16 last_s16 2 ltac:(lia)).
  - intros k k' s E. unfold block_s16. rewrite !(kw_local 6 k k' _ E) by lia. reflexivity.
  - intros k s L. do 7 (destruct k as [|? k]; [cbn [length] in L; lia|]). eexists. wreads. reflexivity.
  - reflexivity.
Qed.
