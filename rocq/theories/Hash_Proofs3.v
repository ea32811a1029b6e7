Require Import NArith ZArith List Bool Lia ZifyBool ZifyN ZifyNat.
Require Import Verif.Word Verif.Codec_Types Verif.Hash_Model Verif.Hash_Spec Verif.Hash_Proofs Verif.Hash_Proofs2.
Import ListNotations.
Local Open Scope N_scope.

Lemma Forall_skip : forall (Q : N -> Prop) n k, Forall Q k -> Forall Q (skipn n k).
Proof. intros Q n. induction n; intros [|x k] H; cbn; auto. inversion H; auto. Qed.
Lemma init3_start : forall v, init3 v = (v mod W32, v mod W32, v mod W32).
Proof. reflexivity. Qed.
Lemma start_len : forall n v, (0xdeadbeef + u32 n + v) mod W32 = (0xdeadbeef + n + v) mod W32.
Proof.
  intros n v. rewrite u32_mod. replace (0xdeadbeef + n mod W32 + v) with (0xdeadbeef + v + n mod W32) by lia.
  rewrite N.add_mod_idemp_r by discriminate. f_equal. lia.
Qed.
Lemma lookup3_run : forall (X : Type) step block last (Wd : list X -> list N) (P : list X -> Prop) (key : list X) n v,
  (0 < step)%nat ->
  (forall k, P k -> (step < length k)%nat -> P (skipn step k)) ->
  (forall k s, P k -> (step < length k)%nat -> is_triple s ->
    exists t, block k s = Some t /\ is_triple t /\ absorb (Wd k) s = absorb (Wd (skipn step k)) (mix t)) ->
  (forall k s, P k -> (0 < length k <= step)%nat -> is_triple s ->
    exists t, switch (length k) (last k) s = Some (t, false) /\ is_triple t /\ final t = absorb (Wd k) s) ->
  (forall s, switch 0 (last []) s = Some (s, true)) ->
  (forall k, (k = [] <-> Wd k = [])) ->
  P key ->
  forall w, run step block last key (init3 (0xdeadbeef + u32 n + v)) w =
    Some (fst (lookup3 (Wd key) n v), match key with [] => w | _ => snd (lookup3 (Wd key) n v) end).
Proof.
  intros X step block last Wd P key n v Hstep HP Hb Hl H0 Hn Pk w. unfold lookup3.
  destruct key as [|x key].
  - rewrite run_nil by apply H0. rewrite (proj1 (Hn []) eq_refl). rewrite u32_mod, start_len. reflexivity.
  - rewrite (run_ok step block last Wd P Hstep HP Hb Hl (x :: key)); [|exact Pk|cbn; lia|apply is_triple_init].
    rewrite init3_start, start_len.
    destruct (Wd (x :: key)) eqn:E; [apply Hn in E; discriminate E|]. rewrite <- E.
    destruct (absorb (Wd (x :: key)) _) as [[a b] c]. reflexivity.
Qed.
Lemma lookup3_run_same : forall (X : Type) step block last (Wd : list X -> list N) (P : list X -> Prop) (key : list X) n v,
  (0 < step)%nat ->
  (forall k, P k -> (step < length k)%nat -> P (skipn step k)) ->
  (forall k s, P k -> (step < length k)%nat -> is_triple s ->
    exists t, block k s = Some t /\ is_triple t /\ absorb (Wd k) s = absorb (Wd (skipn step k)) (mix t)) ->
  (forall k s, P k -> (0 < length k <= step)%nat -> is_triple s ->
    exists t, switch (length k) (last k) s = Some (t, false) /\ is_triple t /\ final t = absorb (Wd k) s) ->
  (forall s, switch 0 (last []) s = Some (s, true)) ->
  (forall k, (k = [] <-> Wd k = [])) ->
  P key ->
  run step block last key (init3 (0xdeadbeef + u32 n + v)) v = Some (lookup3 (Wd key) n v).
Proof.
  intros X step block last Wd P key n v Hstep HP Hb Hl H0 Hn Pk.
  rewrite (lookup3_run X step block last Wd P key n v Hstep HP Hb Hl H0 Hn Pk v). destruct key.
  - rewrite (proj1 (Hn []) eq_refl). reflexivity.
  - destruct (lookup3 _ _ _). reflexivity.
Qed.
Lemma words_nil : forall o k, k = [] <-> words_of o k = [].
Proof. intros o [|x k]; split; intro H; auto; [discriminate H|]. apply words_nonnil in H. destruct H. Qed.

Lemma hashlittle_ok : forall (little : bool) addr key v, Forall is_byte key ->
  hashlittle little addr key v = Some (lookup3_bytes little_endian key v).
Proof.
  intros little addr key v Hk. unfold hashlittle, lookup3_bytes. destruct little; cbn [andb].
  1: destruct (N.land addr 3 =? 0); [|destruct (N.land addr 1 =? 0)].
  - apply lookup3_run_same with (P := Forall is_byte); auto using Forall_skip, block32_little_ok, last32_little_ok, words_nil; lia.
  - apply lookup3_run_same with (P := Forall is_byte); auto using Forall_skip, block16_ok, last16_ok, words_nil; lia.
  - apply lookup3_run_same with (P := Forall is_byte); auto using Forall_skip, block8_little_ok, last8_little_ok, words_nil; lia.
  - apply lookup3_run_same with (P := Forall is_byte); auto using Forall_skip, block8_little_ok, last8_little_ok, words_nil; lia.
Qed.
Lemma hashbig_ok : forall (little : bool) addr key v, Forall is_byte key ->
  hashbig little addr key v = Some (lookup3_bytes big_endian key v).
Proof.
  intros little addr key v Hk. unfold hashbig, lookup3_bytes. destruct little; cbn [andb negb].
  2: destruct (N.land addr 3 =? 0).
  - apply lookup3_run_same with (P := Forall is_byte); auto using Forall_skip, block8_big_ok, last8_big_ok, words_nil; lia.
  - apply lookup3_run_same with (P := Forall is_byte); auto using Forall_skip, block32_big_ok, last32_big_ok, words_nil; lia.
  - apply lookup3_run_same with (P := Forall is_byte); auto using Forall_skip, block8_big_ok, last8_big_ok, words_nil; lia.
Qed.

(** ** Words *)
Definition words32 (k : list N) : list N := k.
Lemma block_u32_ok : forall k s, (3 < length k)%nat -> is_triple s ->
  exists t, block_u32 k s = Some t /\ is_triple t /\ absorb k s = absorb (skipn 3 k) (mix t).
Proof.
  intros k s Hl Hs. do 4 (destruct k as [|? k]; [cbn [length] in Hl; lia|]).
  eexists. split; [reflexivity|]. cbn [skipn]. rewrite add_cba. split; [apply is_triple_add|].
  rewrite absorb_more by discriminate. rewrite (proj1 (mix_spec _ (is_triple_add _ _ _ _))). reflexivity.
Qed.
Ltac upto k := repeat (destruct k as [|? k]; try (cbn [length] in *; lia)).
Ltac finish :=
  match goal with |- final (spec_add ?s ?x ?y ?z) = _ =>
     rewrite (proj1 (final_spec _ (is_triple_add s x y z))) end.
Lemma last_u32_ok : forall k s, (0 < length k <= 3)%nat -> is_triple s ->
  exists t, switch (length k) (last_u32 k) s = Some (t, false) /\ is_triple t /\ final t = absorb k s.
Proof.
  intros k s Hl Hs. upto k; (eexists; split; [reflexivity|]; gather; shape; split; [apply is_triple_add|]; finish; reflexivity).
Qed.
Lemma mul4 : forall n k, u32 (u32 n * k) = u32 (n * k).
Proof. intros. rewrite !u32_mod. apply N.mul_mod_idemp_l. discriminate. Qed.
Lemma run_val2 : forall X step (block : list X -> stmt) last k s v w r,
  run step block last k s v = Some r -> option_map fst (run step block last k s w) = Some (fst r).
Proof.
  intros X step block last k s v w r. unfold run. destruct (blocks _ _ _ _ _) as [[k' s']|]; [|discriminate].
  destruct (switch _ _ _) as [[[[a b] c] [|]]|]; [| |discriminate].
  - intro H. injection H as <-. reflexivity.
  - destruct (final _) as [[a' b'] c']. intro H. injection H as <-. reflexivity.
Qed.
Lemma hash_u32_ok : forall key v, hash_u32 key v = Some (fst (lookup3 key (N.of_nat (length key) * 4) v)).
Proof.
  intros key v. unfold hash_u32. rewrite mul4.
  apply run_val2 with (v := v).
  apply (lookup3_run_same N 3 block_u32 last_u32 (fun k => k) (fun _ => True)); auto using block_u32_ok, last_u32_ok; try lia.
  intro k. reflexivity.
Qed.
(** The bytes of words in memory *)
Definition in_memory (little : bool) (w : nat) (v : N) : list N := if little then bytes_of w v else rev (bytes_of w v).
Lemma bytes4 : forall v, v < W32 -> be_val (rev (bytes_of 4 v)) = v.
Proof.
  intros v Hv. cbn [bytes_of rev app]. unfold be_val. cbn [fold_left]. rewrite !N.div_div by discriminate.
  unfold W32 in Hv. pose proof (N.div_mod v 256). pose proof (N.div_mod (v / 256) 256). pose proof (N.div_mod (v / 65536) 256).
  rewrite N.div_div in H0, H1 by discriminate. change (256 * 256) with 65536 in *. change (65536 * 256) with 16777216 in *.
  assert (v / 16777216 < 256) by (apply N.div_lt_upper_bound; lia).
  rewrite (N.mod_small (v / 16777216)) by assumption. lia.
Qed.
Lemma words_memory : forall (little : bool) k, Forall (fun v => v < W32) k ->
  words_of (if little then little_endian else big_endian) (flat_map (in_memory little 4) k) = k.
Proof.
  intros little k. induction k as [|x k IH]; intro H; [reflexivity|]. inversion H; subst. cbn [flat_map].
  destruct little.
  - match goal with |- context [in_memory true 4 x ++ ?l] => change (in_memory true 4 x ++ l) with (x mod 256 :: (x / 256) mod 256 :: (x / 256 / 256) mod 256 :: (x / 256 / 256 / 256) mod 256 :: l) end.
    rewrite words_cons, IH by assumption. f_equal. apply bytes4; assumption.
  - match goal with |- context [in_memory false 4 x ++ ?l] => change (in_memory false 4 x ++ l) with ((x / 256 / 256 / 256) mod 256 :: (x / 256 / 256) mod 256 :: (x / 256) mod 256 :: x mod 256 :: l) end.
    rewrite words_cons, IH by assumption. f_equal. apply bytes4; assumption.
Qed.
Lemma bytes_of_byte : forall w v, Forall is_byte (bytes_of w v).
Proof. induction w; intro v; cbn [bytes_of]; constructor; auto. apply N.mod_lt. discriminate. Qed.
Lemma bytes_of_len : forall w v, length (bytes_of w v) = w.
Proof. induction w; intro v; cbn [bytes_of length]; auto. Qed.
Lemma memory_byte : forall (little : bool) w k, Forall is_byte (flat_map (in_memory little w) k).
Proof.
  intros little w k. induction k; cbn [flat_map]; [constructor|]. apply Forall_app. split; [|assumption].
  unfold in_memory. destruct little; [apply bytes_of_byte|apply Forall_rev, bytes_of_byte].
Qed.
Lemma memory_len : forall (little : bool) w k, length (flat_map (in_memory little w) k) = (w * length k)%nat.
Proof.
  intros little w k. induction k; cbn [flat_map length]; [lia|]. rewrite app_length, IHk.
  unfold in_memory. destruct little; [|rewrite rev_length]; rewrite bytes_of_len; lia.
Qed.
Lemma hash_any_ok : forall (little : bool) addr key v, Forall is_byte key ->
  hash_any little addr key v = Some (fst (lookup3_bytes (if little then little_endian else big_endian) key v)).
Proof. intros [|] addr key v H; unfold hash_any; [rewrite hashlittle_ok by assumption|rewrite hashbig_ok by assumption]; reflexivity. Qed.
Lemma hash_u32_any : forall (little : bool) addr key v, Forall (fun x => x < W32) key ->
  hash_u32 key v = hash_any little addr (flat_map (in_memory little 4) key) v.
Proof.
  intros. rewrite hash_u32_ok, hash_any_ok by apply memory_byte. unfold lookup3_bytes.
  rewrite words_memory, memory_len by assumption. do 3 f_equal. lia.
Qed.
(** ** 64-bit results *)
Lemma lookup3_lt : forall ws n v, v < W32 -> fst (lookup3 ws n v) < W32 /\ snd (lookup3 ws n v) < W32.
Proof.
  intros ws n v Hv. unfold lookup3. destruct ws as [|x ws]; [split; [apply modW_lt|exact Hv]|].
  assert (T : forall ws s, is_triple s -> is_triple (absorb ws s)).
  { clear. enough (T : forall n ws s, (length ws < n)%nat -> is_triple s -> is_triple (absorb ws s))
      by (intros ws s; apply (T (S (length ws))); lia).
    induction n as [|n IH]; [lia|].
    intros [|x [|y [|z [|w ws]]]] s Hl Hs; try (apply final_spec; try apply is_triple_add; exact Hs).
    apply (IH (w :: ws)); [cbn [length] in *; lia|]. apply mix_spec, is_triple_add. }
  specialize (T (x :: ws) ((0xdeadbeef + n + v) mod W32, (0xdeadbeef + n + v) mod W32, (0xdeadbeef + n + v) mod W32)).
  destruct (absorb _ _) as [[a b] c]. destruct T as (_ & Tb & Tc); [repeat split; apply modW_lt|]. split; assumption.
Qed.
Lemma two_both : forall r, fst r < W32 -> two (snd r) (fst r) = both r.
Proof.
  intros [c b] H. cbn [fst snd] in *. unfold two, both. cbn [fst snd]. change W32 with (2 ^ 32) in *.
  rewrite <- N.shiftl_mul_pow2. rewrite <- N.lxor_lor, N.add_nocarry_lxor; try reflexivity; apply N.bits_inj_0; intro n; rewrite N.land_spec;
    (destruct (N.lt_ge_cases n 32) as [L|L];
     [rewrite N.shiftl_spec_low by exact L; reflexivity
     |rewrite andb_comm; replace (N.testbit c n) with false; [reflexivity|];
      symmetry; rewrite <- (N.mod_small _ _ H); apply N.mod_pow2_bits_high; exact L]).
Qed.

Lemma hash64_any_ok : forall (little : bool) addr key base, Forall is_byte key ->
  hash64_any little addr key base =
  Some (both (lookup3_bytes (if little then little_endian else big_endian) key ((base + base / W32) mod W32))).
Proof.
  intros little addr key base H. unfold hash64_any, b32_of. rewrite u32_mod, N.shiftr_div_pow2. change (2 ^ 32) with W32.
  destruct little; [rewrite hashlittle_ok by assumption|rewrite hashbig_ok by assumption]; cbn [option_map]; f_equal;
    apply two_both, lookup3_lt, modW_lt.
Qed.
Lemma hash64_stable_8_ok : forall (little : bool) addr key base, Forall is_byte key ->
  hash64_stable_8 little addr key base = Some (both (lookup3_bytes little_endian key ((base + base / W32) mod W32))).
Proof.
  intros little addr key base H. unfold hash64_stable_8, b32_of. rewrite u32_mod, N.shiftr_div_pow2. change (2 ^ 32) with W32.
  rewrite hashlittle_ok by assumption. cbn [option_map]. f_equal. apply two_both, lookup3_lt, modW_lt.
Qed.
Lemma hash_stable_8_ok : forall (little : bool) addr key base, Forall is_byte key ->
  hash_stable_8 little addr key base = Some (fst (lookup3_bytes little_endian key base)).
Proof. intros. unfold hash_stable_8. rewrite hashlittle_ok by assumption. reflexivity. Qed.
Lemma both_low : forall r, fst r < W32 -> both r mod W32 = fst r.
Proof. intros [c b] H. unfold both. cbn [fst snd] in *. rewrite N.add_comm, N.mod_add by discriminate. apply N.mod_small; assumption. Qed.
Lemma hash64_any_low : forall (little : bool) addr key base r, Forall is_byte key -> base < W32 ->
  hash64_any little addr key base = Some r -> hash_any little addr key base = Some (r mod W32).
Proof.
  intros little addr key base r H Hb E. rewrite hash64_any_ok in E by assumption. injection E as <-.
  rewrite (N.div_small base), N.add_0_r, (N.mod_small base) by assumption.
  rewrite hash_any_ok by assumption. rewrite both_low by (apply lookup3_lt; assumption). reflexivity.
Qed.
