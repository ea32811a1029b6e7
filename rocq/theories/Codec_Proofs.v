(** Reading back what the writer emitted: building blocks. *)
Require Import Arith NArith List Bool Lia ZifyBool ZifyN ZifyNat.
Require Import Verif.Word Verif.Codec_Types Verif.Writer_Model Verif.Writer_Proofs
  Verif.Branch_Model Verif.Reader_Model Verif.Codec_Spec.
Import ListNotations.
Local Open Scope N_scope.

(** ** Integers *)
Lemma fold_put_be n v : forall a,
  fold_left (fun a b => a * 256 + b) (put_be n v) a = a * 256 ^ N.of_nat n + v mod 256 ^ N.of_nat n.
Proof.
  induction n as [|n IH]; intros a; cbn [put_be fold_left].
  - change (256 ^ N.of_nat 0) with 1. rewrite N.mod_1_r. lia.
  - rewrite IH. rewrite Nat2N.inj_succ, N.pow_succ_r'.
    rewrite (N.mul_comm 256 (256 ^ _)), N.mod_mul_r by (try apply N.pow_nonzero; discriminate).
    lia.
Qed.
Lemma be_val_put n v : be_val (put_be n v) = v mod 256 ^ N.of_nat n.
Proof. unfold be_val. rewrite fold_put_be. lia. Qed.

Lemma firstn_put n v t : firstn n (put_be n v ++ t) = put_be n v.
Proof.
  rewrite firstn_app, put_be_length, Nat.sub_diag, firstn_O, app_nil_r.
  apply firstn_all2. rewrite put_be_length. apply Nat.le_refl.
Qed.
Lemma skipn_put n v t : skipn n (put_be n v ++ t) = t.
Proof.
  rewrite skipn_app, put_be_length, Nat.sub_diag. cbn [skipn].
  rewrite skipn_all2; [reflexivity|]. rewrite put_be_length. apply Nat.le_refl.
Qed.

Lemma get_put n v t : get n (put_be n v ++ t) = ROk (v mod 256 ^ N.of_nat n, t).
Proof.
  unfold get. rewrite firstn_put, skipn_put, be_val_put, app_length, put_be_length.
  destruct (Nat.ltb_spec (n + length t) n); [lia|reflexivity].
Qed.
Lemma get8_put v t : get8 (put8 v ++ t) = ROk (v mod 2 ^ 8, t).
Proof. apply (get_put 1). Qed.
Lemma get16_put v t : get16 (put16 v ++ t) = ROk (v mod 2 ^ 16, t).
Proof. apply (get_put 2). Qed.
Lemma get32_put v t : get32 (put32 v ++ t) = ROk (v mod 2 ^ 32, t).
Proof. apply (get_put 4). Qed.
Lemma get64_put v t : get64 (put64 v ++ t) = ROk (v mod 2 ^ 64, t).
Proof. apply (get_put 8). Qed.

(** Optional bytes. *)
Definition wb (c : bool) (l : list N) : list N := if c then l else [].

Lemma opt_wb {A} (c : bool) (p : P A) d l t v :
  p (l ++ t) = ROk (v, t) -> opt c p d (wb c l ++ t) = ROk (if c then v else d, t).
Proof. intros H. destruct c; cbn [opt wb app]; [exact H|reflexivity]. Qed.

Lemma bind_ok {A B} (p : P A) (k : A -> P B) b a b' : p b = ROk (a, b') -> bind p k b = k a b'.
Proof. intros H. unfold bind. now rewrite H. Qed.

(** ** Arrays *)
Lemma read_arr_put l : forall cap t,
  word64s l -> (length l <= cap)%nat ->
  read_arr (length l) cap (flat_map put64 l ++ t) = ROk (l, t).
Proof.
  induction l as [|v l IH]; intros cap t W L; cbn [length] in L |- *; [reflexivity|].
  destruct cap; [lia|]. inversion_clear W. cbn [flat_map read_arr].
  rewrite <- app_assoc. erewrite bind_ok by apply get64_put.
  erewrite bind_ok by (apply IH; [assumption|lia]).
  unfold ret. rewrite N.mod_small by assumption. reflexivity.
Qed.

Lemma read_rows_put rows : forall nr rc t,
  Forall (fun row => length row = nr /\ word64s row) rows ->
  (length rows <= rc)%nat -> (nr <= 4)%nat ->
  read_rows (length rows) nr rc 4 (flat_map (flat_map put64) rows ++ t) = ROk (rows, t).
Proof.
  induction rows as [|row rows IH]; intros nr rc t W L L4; cbn [length] in L |- *; [reflexivity|].
  destruct rc; [lia|]. inversion_clear W as [|x y [Hl Hw] Hr]. cbn [flat_map read_rows].
  rewrite <- app_assoc. rewrite <- Hl at 1.
  erewrite bind_ok by (apply read_arr_put; [assumption|lia]).
  cbn [Nat.pred]. erewrite bind_ok by (apply IH; [assumption|lia|assumption]).
  reflexivity.
Qed.

Lemma emit_ptes_rows rows cols r :
  emit_ptes rows cols r
  = flat_map (flat_map put64) (map (firstn cols) (firstn rows (rx_host_ptes r))).
Proof.
  unfold emit_ptes. induction (firstn rows (rx_host_ptes r)) as [|x l IH]; cbn; [reflexivity|].
  now rewrite IH.
Qed.

Lemma word64s_firstn n l : word64s l -> word64s (firstn n l).
Proof.
  unfold word64s. rewrite !Forall_forall. intros H x I. apply H.
  rewrite <- (firstn_skipn n l). apply in_or_app. now left.
Qed.

Lemma rows_ok n w r :
  typed_radix r -> (n <= 4)%nat ->
  Forall (fun row => length row = n /\ word64s row) (map (firstn n) (firstn w (rx_host_ptes r))).
Proof.
  intros (_ & H & _) L. rewrite Forall_map.
  rewrite Forall_forall in *. intros x I.
  assert (I' : In x (rx_host_ptes r)).
  { rewrite <- (firstn_skipn w (rx_host_ptes r)). apply in_or_app. now left. }
  destruct (H x I') as [Hl Hw]. split; [|now apply word64s_firstn].
  rewrite firstn_length. lia.
Qed.

(** ** Walks *)
Lemma kind_single r : kind r = KSingle <-> single r = true.
Proof.
  unfold kind, single. destruct (rx_nr_ptes r =? 0); cbn; [split; discriminate|].
  destruct (rx_walks r =? 1); [tauto|]. destruct (1 <? rx_walks r); split; discriminate.
Qed.
Lemma has_ptes_walked r : has_ptes r = walked r.
Proof.
  unfold has_ptes, kind, walked. destruct (rx_nr_ptes r =? 0); cbn; [reflexivity|].
  destruct (N.eqb_spec (rx_walks r) 1) as [->|]; [reflexivity|].
  destruct (N.ltb_spec 1 (rx_walks r)), (N.eqb_spec (rx_walks r) 0); cbn; lia || reflexivity.
Qed.
Lemma storable_assert r : storable r -> walk_assert r = true.
Proof.
  unfold storable, walk_assert, kind. intros H.
  change (N.of_nat NR_RADIX_PTES) with 4. change (N.of_nat MAX_RADIX_WALKS) with 5.
  destruct (N.eqb_spec (rx_nr_ptes r) 0); [reflexivity|].
  destruct (H n) as [H1 H2].
  destruct (N.eqb_spec (rx_walks r) 1).
  - destruct (H1 e) as [-> | ->]; reflexivity.
  - destruct (N.ltb_spec 1 (rx_walks r)); [|reflexivity]. lia.
Qed.

(** The reader's copy of a walk [r], over the previous contents [old]. *)
Definition back (ty : N) (old r : radix) : radix :=
  match kind r with
  | KNone => old
  | KSingle =>
      mk_radix ty 4 1 (overlay_rows (rx_host_ptes old) (map (firstn 4) (firstn 1 (rx_host_ptes r))))
               (rx_host_real old) (rx_guest_real old)
  | KMulti =>
      let w := N.to_nat (rx_walks r) in
      mk_radix (rx_type old) (rx_nr_ptes r) (rx_walks r)
        (overlay_rows (rx_host_ptes old) (map (firstn (N.to_nat (rx_nr_ptes r))) (firstn w (rx_host_ptes r))))
        (overlay (rx_host_real old) (firstn (w - 1) (rx_host_real r)))
        (overlay (rx_guest_real old) (firstn w (rx_guest_real r)))
  end.

Lemma multi_bounds r : storable r -> kind r = KMulti ->
  rx_nr_ptes r <> 0 /\ rx_nr_ptes r <= 4 /\ 1 < rx_walks r <= 5.
Proof.
  unfold storable, kind. intros H K.
  destruct (N.eqb_spec (rx_nr_ptes r) 0); [discriminate|].
  destruct (N.eqb_spec (rx_walks r) 1); [discriminate|].
  destruct (N.ltb_spec 1 (rx_walks r)); [|discriminate].
  destruct (H n) as [_ H2]. lia.
Qed.

Lemma parse_emit gm st old r t :
  typed_radix r -> storable r -> has_ptes r = true ->
  (kind r = KSingle -> gm = MODE_REAL \/ gm = MODE_NOT_DEFINED) ->
  (kind r = KMulti -> gm = MODE_RADIX) ->
  parse_walk MODE_RADIX gm st old (emit_walk r ++ t)
  = ROk (back (if st then get_type MODE_RADIX gm else rx_type old) old r, t).
Proof.
  intros T S HP H1 HM. unfold emit_walk, back, parse_walk.
  unfold has_ptes in HP. destruct (kind r) eqn:K; [discriminate| |].
  - pose proof (rows_ok 4 1 r T (Nat.le_refl _)) as F.
    rewrite emit_ptes_rows. change NR_RADIX_PTES with 4%nat.
    assert (Lr : length (map (firstn 4) (firstn 1 (rx_host_ptes r))) = 1%nat).
    { destruct T as (Tl & _). rewrite map_length, firstn_length. lia. }
    destruct (map (firstn 4) (firstn 1 (rx_host_ptes r))) as [|row [|? ?]]; try discriminate.
    cbn [flat_map]. inversion_clear F as [|x y [Fl Fw] _]. rewrite app_nil_r.
    assert (E : forall g, g <> MODE_RADIX ->
              forall k, get_count MODE_RADIX g k (flat_map put64 row ++ t) = ROk (k, flat_map put64 row ++ t)).
    { intros g Hg k. unfold get_count. change (MODE_RADIX =? MODE_RADIX) with true.
      apply N.eqb_neq in Hg. rewrite Hg. reflexivity. }
    assert (Hg : gm <> MODE_RADIX) by (destruct (H1 eq_refl) as [-> | ->]; discriminate).
    erewrite bind_ok by (apply E, Hg). erewrite bind_ok by (apply E, Hg).
    change (1 =? 1) with true. cbn match. change (N.to_nat (N.of_nat 4)) with 4%nat.
    rewrite <- Fl at 1. erewrite bind_ok by (apply read_arr_put; [assumption|lia]).
    reflexivity.
  - destruct (multi_bounds r S K) as (B0 & B4 & B1 & B5). rewrite (HM eq_refl).
    assert (Hc : forall v x t, v < 256 -> get_count MODE_RADIX MODE_RADIX x (put8 v ++ t) = ROk (v, t)).
    { intros v x t0 Hv. unfold get_count, put8. cbn [put_be app]. change (256 ^ N.of_nat 0) with 1.
      rewrite N.div_1_r, N.mod_small by assumption. reflexivity. }
    rewrite <- !app_assoc.
    erewrite bind_ok by (apply Hc; lia). erewrite bind_ok by (apply Hc; lia).
    destruct (N.eqb_spec (rx_walks r) 1); [lia|]. destruct (N.ltb_spec 1 (rx_walks r)); [|lia].
    pose proof (rows_ok (N.to_nat (rx_nr_ptes r)) (N.to_nat (rx_walks r)) r T ltac:(lia)) as F.
    destruct T as (Tl & Tr & Thl & Thw & Tgl & Tgw).
    rewrite emit_ptes_rows.
    set (rows := map _ _) in *.
    assert (Lr : length rows = N.to_nat (rx_walks r)).
    { unfold rows. rewrite map_length, firstn_length. lia. }
    rewrite <- Lr at 1.
    change NR_RADIX_PTES with 4%nat. change MAX_RADIX_WALKS with 5%nat.
    erewrite bind_ok by (apply read_rows_put; [exact F|lia|lia]).
    replace (N.to_nat (rx_walks r - 1)) with (N.to_nat (rx_walks r) - 1)%nat by lia.
    set (hr := firstn (N.to_nat (rx_walks r) - 1) (rx_host_real r)).
    assert (Lh : length hr = (N.to_nat (rx_walks r) - 1)%nat).
    { unfold hr. rewrite firstn_length. lia. }
    rewrite <- Lh at 1.
    erewrite bind_ok by (apply read_arr_put; [now apply word64s_firstn|lia]).
    set (gr := firstn (N.to_nat (rx_walks r)) (rx_guest_real r)).
    assert (Lg : length gr = N.to_nat (rx_walks r)).
    { unfold gr. rewrite firstn_length. lia. }
    rewrite <- Lg at 1.
    erewrite bind_ok by (apply read_arr_put; [now apply word64s_firstn|lia]).
    reflexivity.
Qed.

(** Shape of the reader's arrays. *)
Definition shape (r : radix) : Prop :=
  length (rx_host_ptes r) = 5%nat /\ Forall (fun row => length row = 4%nat) (rx_host_ptes r) /\
  length (rx_host_real r) = 4%nat /\ length (rx_guest_real r) = 5%nat.

Lemma zero_shape : shape zero_radix.
Proof. repeat split; repeat constructor. Qed.

Lemma overlay_length {A} (old new : list A) :
  (length new <= length old)%nat -> length (overlay old new) = length old.
Proof. intros H. unfold overlay. rewrite app_length, skipn_length. lia. Qed.
Lemma overlay_firstn {A} (old new : list A) : firstn (length new) (overlay old new) = new.
Proof. unfold overlay. rewrite firstn_app, Nat.sub_diag, firstn_O, app_nil_r. apply firstn_all. Qed.

Lemma overlay_rows_length new : forall old,
  (length new <= length old)%nat -> length (overlay_rows old new) = length old.
Proof.
  induction new as [|n new IH]; intros [|o old] L; cbn in L |- *; try lia. rewrite IH; lia.
Qed.
Lemma overlay_rows_shape new : forall old,
  Forall (fun row => length row = 4%nat) old ->
  Forall (fun row => (length row <= 4)%nat) new ->
  Forall (fun row => length row = 4%nat) (overlay_rows old new).
Proof.
  induction new as [|n new IH]; intros [|o old] F G; cbn; try assumption; try constructor.
  - inversion_clear F. inversion_clear G. rewrite overlay_length by lia. assumption.
  - inversion_clear F. inversion_clear G. now apply IH.
Qed.
Lemma overlay_rows_firstn n new : forall old,
  Forall (fun row => length row = n) new ->
  (length new <= length old)%nat ->
  map (firstn n) (firstn (length new) (overlay_rows old new)) = new.
Proof.
  induction new as [|x new IH]; intros [|o old] G L; cbn in L |- *; try reflexivity; try lia.
  inversion_clear G. rewrite IH by (assumption || lia). f_equal.
  subst n. apply overlay_firstn.
Qed.

Lemma back_spec ty old r :
  typed_radix r -> storable r -> has_ptes r = true -> shape old ->
  shape (back ty old r) /\ rx_nr_ptes (back ty old r) <> 0 /\
  (forall u, walk_of u (back ty old r) = walk_of u r) /\
  rx_type (back ty old r) = (if single r then ty else rx_type old).
Proof.
  intros T S HP (Sl & Sr & Sh & Sg). unfold back, has_ptes in *.
  destruct (kind r) eqn:K; [discriminate| |].
  - pose proof (rows_ok 4 1 r T (Nat.le_refl _)) as F.
    pose proof (proj1 (kind_single r) K) as K1. rewrite K1.
    set (rows := map _ _) in *.
    assert (Lr : length rows = 1%nat).
    { unfold rows. destruct T as (Tl & _). rewrite map_length, firstn_length. lia. }
    assert (Fl : Forall (fun row => length row = 4%nat) rows).
    { eapply Forall_impl; [|exact F]. cbn. tauto. }
    split; [|split; [|split]]; try reflexivity; try discriminate.
    + repeat split; cbn [rx_host_ptes rx_host_real rx_guest_real]; try assumption.
      * rewrite overlay_rows_length; lia.
      * apply overlay_rows_shape; [assumption|]. eapply Forall_impl; [|exact Fl]. cbn. lia.
    + intros u. unfold walk_of. cbn [rx_nr_ptes rx_walks rx_host_ptes].
      unfold single in K1. apply andb_true_iff in K1 as [Kn Kw]. rewrite negb_true_iff in Kn.
      apply N.eqb_eq in Kw. rewrite Kn, Kw.
      change (4 =? 0) with false. change (1 =? 0) with false. change (1 =? 1) with true. cbn match.
      pose proof (overlay_rows_firstn 4 rows (rx_host_ptes old) Fl ltac:(lia)) as E.
      rewrite Lr in E. rewrite E. reflexivity.
  - destruct (multi_bounds r S K) as (B0 & B4 & B1 & B5).
    assert (K1 : single r = false).
    { destruct (single r) eqn:E; [|reflexivity]. apply kind_single in E. congruence. }
    rewrite K1.
    pose proof (rows_ok (N.to_nat (rx_nr_ptes r)) (N.to_nat (rx_walks r)) r T ltac:(lia)) as F.
    destruct T as (Tl & Tr & Thl & Thw & Tgl & Tgw).
    cbv zeta. set (rows := map _ _) in *.
    assert (Lr : length rows = N.to_nat (rx_walks r)).
    { unfold rows. rewrite map_length, firstn_length. lia. }
    assert (Fl : Forall (fun row => length row = N.to_nat (rx_nr_ptes r)) rows).
    { eapply Forall_impl; [|exact F]. cbn. tauto. }
    set (hr := firstn (N.to_nat (rx_walks r) - 1) (rx_host_real r)) in *.
    assert (Lh : length hr = (N.to_nat (rx_walks r) - 1)%nat).
    { unfold hr. rewrite firstn_length. lia. }
    set (gr := firstn (N.to_nat (rx_walks r)) (rx_guest_real r)) in *.
    assert (Lg : length gr = N.to_nat (rx_walks r)).
    { unfold gr. rewrite firstn_length. lia. }
    split; [|split; [|split]]; cbn [rx_nr_ptes rx_type]; try assumption; try reflexivity.
    + repeat split; cbn [rx_host_ptes rx_host_real rx_guest_real].
      * rewrite overlay_rows_length; lia.
      * apply overlay_rows_shape; [assumption|]. eapply Forall_impl; [|exact Fl]. cbn. lia.
      * rewrite overlay_length; lia.
      * rewrite overlay_length; lia.
    + intros u. unfold walk_of. cbn [rx_nr_ptes rx_walks rx_host_ptes rx_host_real rx_guest_real].
      destruct (N.eqb_spec (rx_nr_ptes r) 0); [lia|].
      destruct (N.eqb_spec (rx_walks r) 0); [lia|].
      destruct (N.eqb_spec (rx_walks r) 1); [lia|]. cbv zeta.
      fold rows hr gr. f_equal. f_equal.
      * rewrite <- Lr. apply overlay_rows_firstn; [assumption|lia].
      * rewrite <- Lh. apply overlay_firstn.
      * rewrite <- Lg. apply overlay_firstn.
Qed.

(** ** Real addresses *)
Lemma real_addr_spec rpn (psv : bool) ps ea :
  (psv = true -> ps < 64) ->
  real_addr rpn psv ps ea = Some (ra_of rpn (optb psv ps) ea).
Proof.
  intros H. unfold real_addr, ra_of, optb.
  assert (Hs : (if psv then u8 ps else 16) = dflt (if psv then Some ps else None) 16).
  { destruct psv; cbn; [|reflexivity]. unfold u8, w8. specialize (H eq_refl). rewrite N.mod_small; lia. }
  rewrite Hs. set (s := dflt _ 16).
  assert (L : s < 64). { unfold s. destruct psv; cbn; [auto|lia]. }
  destruct (N.ltb_spec s 64); [|lia]. cbv zeta. f_equal.
  rewrite N.shiftl_1_l, <- N.pred_sub, <- N.ones_equiv, N.land_ones.
  unfold u64. rewrite w64_pow, N.shiftl_mul_pow2.
  replace 64 with (64 - s + s) by lia. rewrite N.pow_add_r.
  rewrite N.mul_mod_distr_r by (apply N.pow_nonzero; discriminate).
  apply lor_disjoint_add. apply N.mod_lt, N.pow_nonzero. discriminate.
Qed.

Lemma put_rpn_ok ra (v : bool) ps :
  (v = true -> ps < 64) ->
  put_rpn ra v ps = inr (put32 (rpn_of ra (optb v ps))).
Proof.
  intros H. unfold put_rpn, rpn_of, pshift_of, optb.
  assert (Hs : (if v then u8 ps else 16) = dflt (if v then Some ps else None) 16).
  { destruct v; cbn; [|reflexivity]. unfold u8, w8. specialize (H eq_refl). rewrite N.mod_small; lia. }
  rewrite Hs. set (s := dflt _ 16).
  assert (L : s < 64). { unfold s. destruct v; cbn; [auto|lia]. }
  destruct (N.ltb_spec s 64); [|lia]. cbv zeta. unfold u32. rewrite w32_pow, N.shiftr_div_pow2. reflexivity.
Qed.
Lemma rpn_of_lt ra ps : rpn_of ra ps < 2 ^ 32.
Proof. apply N.mod_lt. discriminate. Qed.
