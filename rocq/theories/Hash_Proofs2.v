Require Import NArith ZArith List Bool Lia ZifyBool ZifyN ZifyNat.
Require Import Verif.Word Verif.Codec_Types Verif.Hash_Model Verif.Hash_Spec Verif.Hash_Proofs.
Import ListNotations.
Local Open Scope N_scope.

Lemma is_triple_init : forall v, is_triple (init3 v).
Proof. intro. repeat split; apply u32_lt. Qed.
Lemma is_triple_add : forall s x y z, is_triple (spec_add s x y z).
Proof. intros [[a b] c] x y z. repeat split; apply modW_lt. Qed.

(** Loop and switch, for any way of cutting a key into words *)
Section RUN.
  Context {X : Type} (step : nat) (block : list X -> stmt) (last : list X -> list item) (W : list X -> list N) (P : list X -> Prop).
  Hypothesis Hstep : (0 < step)%nat.
  Hypothesis HP : forall k, P k -> (step < length k)%nat -> P (skipn step k).
  Hypothesis Hblock : forall k s, P k -> (step < length k)%nat -> is_triple s ->
    exists t, block k s = Some t /\ is_triple t /\ absorb (W k) s = absorb (W (skipn step k)) (mix t).
  Hypothesis Hlast : forall k s, P k -> (0 < length k <= step)%nat -> is_triple s ->
    exists t, switch (length k) (last k) s = Some (t, false) /\ is_triple t /\ final t = absorb (W k) s.

  Lemma run_blocks : forall fuel k s, P k -> (0 < length k < fuel)%nat -> is_triple s ->
    exists k' s', blocks fuel step block k s = Some (k', s') /\ is_triple s' /\ P k' /\ (0 < length k' <= step)%nat /\
                  absorb (W k) s = absorb (W k') s'.
  Proof.
    induction fuel as [|fuel IH]; intros k s Pk Hl Hs; [lia|].
    cbn [blocks]. destruct (Nat.ltb_spec step (length k)) as [L|L].
    - destruct (Hblock k s Pk L Hs) as (t & E & Tt & A). rewrite E.
      assert (L' : length (skipn step k) = (length k - step)%nat) by apply skipn_length.
      destruct (IH (skipn step k) (mix t)) as (k' & s' & E' & T' & P' & L'' & A').
      + apply HP; assumption.
      + rewrite L'. lia.
      + rewrite (proj1 (mix_spec t Tt)). apply mix_spec; assumption.
      + exists k', s'. repeat split; try assumption; try lia. rewrite A, A'. reflexivity.
    - exists k, s. repeat split; try assumption; lia.
  Qed.
  Lemma run_ok : forall k s v, P k -> (0 < length k)%nat -> is_triple s ->
    run step block last k s v = Some (snd (absorb (W k) s), snd (fst (absorb (W k) s))).
  Proof.
    intros k s v Pk Hl Hs. unfold run.
    destruct (run_blocks (S (length k)) k s Pk ltac:(lia) Hs) as (k' & s' & E & T' & P' & L' & A). rewrite E.
    destruct (Hlast k' s' P' L' T') as ([[a b] c] & E2 & T2 & F). rewrite E2, A, <- F.
    destruct (final (a, b, c)) as [[a' b'] c']. reflexivity.
  Qed.
End RUN.
Lemma run_nil : forall X step (block : list X -> stmt) last v w, switch 0 (last []) (init3 v) = Some (init3 v, true) ->
  run step block last [] (init3 v) w = Some (u32 v, w).
Proof. intros. unfold run. cbn [length blocks]. rewrite (proj2 (Nat.ltb_ge step 0)) by lia. cbn [length]. rewrite H. reflexivity. Qed.

(** ** Additions to the state *)
Lemma add_aa : forall v w s, add_a v (add_a w s) = add_a (w + v) s.
Proof. intros v w [[a b] c]. cbn [add_a]. rewrite !u32_mod, N.add_mod_idemp_l by discriminate. rewrite N.add_assoc. reflexivity. Qed.
Lemma add_bb : forall v w s, add_b v (add_b w s) = add_b (w + v) s.
Proof. intros v w [[a b] c]. cbn [add_b]. rewrite !u32_mod, N.add_mod_idemp_l by discriminate. rewrite N.add_assoc. reflexivity. Qed.
Lemma add_cc : forall v w s, add_c v (add_c w s) = add_c (w + v) s.
Proof. intros v w [[a b] c]. cbn [add_c]. rewrite !u32_mod, N.add_mod_idemp_l by discriminate. rewrite N.add_assoc. reflexivity. Qed.
Lemma add_ab : forall v w s, add_a v (add_b w s) = add_b w (add_a v s).
Proof. intros v w [[a b] c]. reflexivity. Qed.
Lemma add_ac : forall v w s, add_a v (add_c w s) = add_c w (add_a v s).
Proof. intros v w [[a b] c]. reflexivity. Qed.
Lemma add_bc : forall v w s, add_b v (add_c w s) = add_c w (add_b v s).
Proof. intros v w [[a b] c]. reflexivity. Qed.
Lemma add_cba : forall x y z s, add_c z (add_b y (add_a x s)) = spec_add s x y z.
Proof. intros x y z [[a b] c]. reflexivity. Qed.
Lemma add_ba : forall x y s, is_triple s -> add_b y (add_a x s) = spec_add s x y 0.
Proof.
  intros x y [[a b] c] (Ha & Hb & Hc). cbn [add_a add_b spec_add]. rewrite N.add_0_r, (N.mod_small c) by assumption. reflexivity.
Qed.
Lemma add_a1 : forall x s, is_triple s -> add_a x s = spec_add s x 0 0.
Proof.
  intros x [[a b] c] (Ha & Hb & Hc). cbn [add_a spec_add]. rewrite !N.add_0_r, (N.mod_small c), (N.mod_small b) by assumption. reflexivity.
Qed.
Lemma add_0 : forall s, is_triple s -> s = spec_add s 0 0 0.
Proof. intros [[a b] c] (Ha & Hb & Hc). cbn [spec_add]. rewrite !N.add_0_r, !N.mod_small by assumption. reflexivity. Qed.
Lemma absorb3 : forall x y z s, absorb [x; y; z] s = spec_final (spec_add s x y z). Proof. reflexivity. Qed.
Lemma absorb_more : forall x y z r s, r <> [] -> absorb (x :: y :: z :: r) s = absorb r (spec_mix (spec_add s x y z)).
Proof. intros x y z [|w r] s H; [congruence|reflexivity]. Qed.

(** ** Words of twelve or fewer bytes *)
Lemma bytes_lt : forall l, Forall is_byte l -> forall x, In x l -> x < 256.
Proof. intros l H x. rewrite Forall_forall in H. apply H. Qed.
Lemma sh8 : forall x, x < 256 -> u32 (x * 2 ^ 8) = x * 256.
Proof. intros. apply u32_small. unfold W32. change (2 ^ 8) with 256. lia. Qed.
Lemma sh16 : forall x, x < 65536 -> u32 (x * 2 ^ 16) = x * 65536.
Proof. intros. apply u32_small. unfold W32. change (2 ^ 16) with 65536. lia. Qed.
Lemma sh24 : forall x, x < 256 -> u32 (x * 2 ^ 24) = x * 16777216.
Proof. intros. apply u32_small. unfold W32. change (2 ^ 24) with 16777216. lia. Qed.
Lemma sh0 : forall x, x < 256 -> u32 (x * 2 ^ 0) = x.
Proof. intros. rewrite N.mul_1_r. apply u32_small. unfold W32. lia. Qed.

Ltac reads := cbv beta iota zeta delta
  [switch execute Nat.eqb length A B C plus shl k8 nth_error k16 k32 word_at firstn skipn host_word pair16 be_val fold_left
   rev app option_map Nat.mul Nat.add seq3 four fst snd last32_little last32_big last16 last8_little last8_big
   block32 block16 block8_little block8_big words_of little_endian big_endian].
Ltac small := change (2 ^ 0) with 1; change (2 ^ 8) with 256; change (2 ^ 16) with 65536; change (2 ^ 24) with 16777216;
  repeat match goal with |- context [u32 ?x] => rewrite (u32_small x) by (unfold W32; lia) end.
Ltac gather := repeat first [rewrite add_aa | rewrite add_bb | rewrite add_cc | rewrite add_ab | rewrite add_ac | rewrite add_bc].
Ltac shape := first [rewrite add_cba | rewrite add_ba by assumption | rewrite add_a1 by assumption].
Ltac explicit k := let rec go k := (destruct k as [|? k]; [|match goal with |- context [_ :: _ :: _ :: _ :: _ :: _ :: _ :: _ :: _ :: _ :: _ :: _ :: k] => idtac | _ => go k end]) in go k.
Ltac bytes := repeat match goal with H : Forall is_byte (_ :: _) |- _ => inversion H; subst; clear H end; unfold is_byte in *.
Ltac tail :=
  eexists; split; [reads; reflexivity|]; split;
  [small; gather; shape; apply is_triple_add
  |reads; small; gather; shape;
   match goal with |- final (spec_add ?s ?x ?y ?z) = _ =>
     rewrite (proj1 (final_spec _ (is_triple_add s x y z))) end;
   cbn [absorb]; f_equal; f_equal; lia].

Lemma last32_little_ok : forall k s, Forall is_byte k -> (0 < length k <= 12)%nat -> is_triple s ->
  exists t, switch (length k) (last32_little true k) s = Some (t, false) /\ is_triple t /\ final t = absorb (words_of little_endian k) s.
Proof.
  intros k s Hb Hl Hs. explicit k; try (destruct k; [|cbn [length] in Hl; lia]); try (cbn [length] in Hl; lia); bytes.
  all: tail.
Qed.
Lemma last16_ok : forall k s, Forall is_byte k -> (0 < length k <= 12)%nat -> is_triple s ->
  exists t, switch (length k) (last16 true k) s = Some (t, false) /\ is_triple t /\ final t = absorb (words_of little_endian k) s.
Proof.
  intros k s Hb Hl Hs. explicit k; try (destruct k; [|cbn [length] in Hl; lia]); try (cbn [length] in Hl; lia); bytes.
  all: tail.
Qed.
Lemma last8_little_ok : forall k s, Forall is_byte k -> (0 < length k <= 12)%nat -> is_triple s ->
  exists t, switch (length k) (last8_little k) s = Some (t, false) /\ is_triple t /\ final t = absorb (words_of little_endian k) s.
Proof.
  intros k s Hb Hl Hs. explicit k; try (destruct k; [|cbn [length] in Hl; lia]); try (cbn [length] in Hl; lia); bytes.
  all: tail.
Qed.
Lemma last32_big_ok : forall k s, Forall is_byte k -> (0 < length k <= 12)%nat -> is_triple s ->
  exists t, switch (length k) (last32_big false k) s = Some (t, false) /\ is_triple t /\ final t = absorb (words_of big_endian k) s.
Proof.
  intros k s Hb Hl Hs. explicit k; try (destruct k; [|cbn [length] in Hl; lia]); try (cbn [length] in Hl; lia); bytes.
  all: tail.
Qed.
Lemma last8_big_ok : forall k s, Forall is_byte k -> (0 < length k <= 12)%nat -> is_triple s ->
  exists t, switch (length k) (last8_big k) s = Some (t, false) /\ is_triple t /\ final t = absorb (words_of big_endian k) s.
Proof.
  intros k s Hb Hl Hs. explicit k; try (destruct k; [|cbn [length] in Hl; lia]); try (cbn [length] in Hl; lia); bytes.
  all: tail.
Qed.

Lemma words_cons : forall o x y z w r, words_of o (x :: y :: z :: w :: r) = be_val (o [x; y; z; w]) :: words_of o r.
Proof. reflexivity. Qed.
Lemma words_nonnil : forall o x r, words_of o (x :: r) <> [].
Proof. intros o x [|y [|z [|w r]]]; discriminate. Qed.
Lemma absorb_words : forall o x0 x1 x2 x3 y0 y1 y2 y3 z0 z1 z2 z3 w r s,
  absorb (words_of o (x0 :: x1 :: x2 :: x3 :: y0 :: y1 :: y2 :: y3 :: z0 :: z1 :: z2 :: z3 :: w :: r)) s =
  absorb (words_of o (w :: r)) (mix (spec_add s (be_val (o [x0; x1; x2; x3])) (be_val (o [y0; y1; y2; y3])) (be_val (o [z0; z1; z2; z3])))).
Proof.
  intros. rewrite !words_cons, absorb_more by apply words_nonnil. rewrite (proj1 (mix_spec _ (is_triple_add _ _ _ _))). reflexivity.
Qed.
Ltac blk :=
  eexists; split; [reads; reflexivity|]; split;
  [small; gather; shape; apply is_triple_add
  |cbn [skipn]; rewrite absorb_words; f_equal; f_equal; reads; small; gather; shape; f_equal; lia].
Lemma block32_little_ok : forall k s, Forall is_byte k -> (12 < length k)%nat -> is_triple s ->
  exists t, block32 true k s = Some t /\ is_triple t /\ absorb (words_of little_endian k) s = absorb (words_of little_endian (skipn 12 k)) (mix t).
Proof.
  intros k s Hb Hl Hs. do 13 (destruct k as [|? k]; [cbn [length] in Hl; lia|]). clear Hl. bytes. blk.
Qed.
Lemma block32_big_ok : forall k s, Forall is_byte k -> (12 < length k)%nat -> is_triple s ->
  exists t, block32 false k s = Some t /\ is_triple t /\ absorb (words_of big_endian k) s = absorb (words_of big_endian (skipn 12 k)) (mix t).
Proof.
  intros k s Hb Hl Hs. do 13 (destruct k as [|? k]; [cbn [length] in Hl; lia|]). clear Hl. bytes. blk.
Qed.
Lemma block16_ok : forall k s, Forall is_byte k -> (12 < length k)%nat -> is_triple s ->
  exists t, block16 true k s = Some t /\ is_triple t /\ absorb (words_of little_endian k) s = absorb (words_of little_endian (skipn 12 k)) (mix t).
Proof.
  intros k s Hb Hl Hs. do 13 (destruct k as [|? k]; [cbn [length] in Hl; lia|]). clear Hl. bytes. blk.
Qed.
Lemma block8_little_ok : forall k s, Forall is_byte k -> (12 < length k)%nat -> is_triple s ->
  exists t, block8_little k s = Some t /\ is_triple t /\ absorb (words_of little_endian k) s = absorb (words_of little_endian (skipn 12 k)) (mix t).
Proof.
  intros k s Hb Hl Hs. do 13 (destruct k as [|? k]; [cbn [length] in Hl; lia|]). clear Hl. bytes. blk.
Qed.
Lemma block8_big_ok : forall k s, Forall is_byte k -> (12 < length k)%nat -> is_triple s ->
  exists t, block8_big k s = Some t /\ is_triple t /\ absorb (words_of big_endian k) s = absorb (words_of big_endian (skipn 12 k)) (mix t).
Proof.
  intros k s Hb Hl Hs. do 13 (destruct k as [|? k]; [cbn [length] in Hl; lia|]). clear Hl. bytes. blk.
Qed.
