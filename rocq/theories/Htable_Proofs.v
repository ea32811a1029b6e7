(** The hash table: slots, probe sequences, insertion and lookup. *)
Require Import NArith ZArith List Bool Lia Permutation.
Require Import ZifyBool ZifyN ZifyNat.
Require Import Verif.Word Verif.Htable_Model Verif.Htable_Spec.
Import ListNotations.
Local Open Scope N_scope.

(** ** Lists *)
Definition get (T : list N) (i : N) : N := nth (N.to_nat i) T 0.
Definition nonz (e : N) : bool := negb (e =? 0).
Definition nz (T : list N) : N := N.of_nat (length (filter nonz T)).
Definition vd (T : list N) : N := N.of_nat (length (filter valid T)).
Definition len (T : list N) : N := N.of_nat (length T).

Lemma replace_split : forall l n v, (n < length l)%nat ->
  exists l1 l2, l = l1 ++ nth n l 0 :: l2 /\ replace_nth n l v = l1 ++ v :: l2 /\ length l1 = n.
Proof.
  induction l as [|x l IH]; intros n v H; [cbn in H; lia|].
  destruct n as [|n].
  - exists [], l. auto.
  - cbn in H. destruct (IH n v) as (l1 & l2 & E1 & E2 & E3); [lia|].
    exists (x :: l1), l2. cbn [nth replace_nth app length]. repeat split; congruence.
Qed.
Lemma replace_length : forall l n v, length (replace_nth n l v) = length l.
Proof. induction l; intros [|n] v; cbn; auto. Qed.
Lemma get_replace : forall T i j v, i < len T ->
  get (replace_nth (N.to_nat i) T v) j = if j =? i then v else get T j.
Proof.
  unfold get, len. intros T i j v H.
  assert (G : forall l n m, (n < length l)%nat ->
     nth m (replace_nth n l v) 0 = if Nat.eqb m n then v else nth m l 0).
  { clear. induction l as [|x l IH]; intros n m H; [cbn in H; lia|].
    destruct n, m; cbn; auto. apply IH. cbn in H. lia. }
  rewrite G by lia.
  destruct (N.eqb_spec j i); destruct (Nat.eqb_spec (N.to_nat j) (N.to_nat i)); auto; lia.
Qed.
Lemma load_ok : forall h i, h_inline h = false -> i < len (h_table h) ->
  load h i = HtOk (get (h_table h) i).
Proof.
  unfold load, slots, get, len. intros h i -> H.
  rewrite (nth_error_nth' _ 0) by lia. reflexivity.
Qed.
Lemma store_ok : forall h i v, h_inline h = false -> i < len (h_table h) ->
  store h i v = HtOk (set_table (replace_nth (N.to_nat i) (h_table h) v) h).
Proof.
  unfold store, len. intros h i v -> H.
  destruct (N.ltb_spec i (N.of_nat (length (h_table h)))); [reflexivity|lia].
Qed.
Lemma in_get : forall T e, In e T -> exists i, i < len T /\ get T i = e.
Proof.
  unfold get, len. intros T e H. destruct (In_nth T e 0 H) as (n & Hn & E).
  exists (N.of_nat n). rewrite Nat2N.id. split; [lia|exact E].
Qed.
Lemma get_in : forall T i, i < len T -> In (get T i) T.
Proof. unfold get, len. intros. apply nth_In. lia. Qed.

Lemma filter_full : forall (f : N -> bool) l, (length (filter f l) < length l)%nat ->
  exists x, In x l /\ f x = false.
Proof.
  induction l as [|x l IH]; cbn; intro H; [lia|].
  destruct (f x) eqn:E.
  - cbn in H. destruct IH as (y & Hy & Ey); [lia|]. eauto.
  - eauto.
Qed.
Lemma empty_slot : forall T, nz T < len T -> exists i, i < len T /\ get T i = 0.
Proof.
  unfold nz, len. intros T H. destruct (filter_full nonz T) as (x & Hx & E); [lia|].
  destruct (in_get _ _ Hx) as (i & Hi & G). exists i. split; [exact Hi|].
  rewrite G. unfold nonz in E. lia.
Qed.
Lemma valid_nonz : forall e, valid e = true -> nonz e = true.
Proof. unfold valid, nonz, DELETED. intros. lia. Qed.

(** ** Positions *)
Section POS.
  Variable sz : N.
  Hypothesis Hsz : 0 < sz.
  Lemma wrap1 : forall a, a < 2 * sz -> a mod sz = if a <? sz then a else a - sz.
  Proof.
    intros a H. destruct (N.ltb_spec a sz).
    - now apply N.mod_small.
    - replace a with (a - sz + 1 * sz) at 1 by lia. rewrite N.mod_add by lia. apply N.mod_small. lia.
  Qed.
  Lemma mod_inj : forall b k1 k2, k1 < sz -> k2 < sz -> (b + k1) mod sz = (b + k2) mod sz -> k1 = k2.
  Proof.
    intros b k1 k2 H1 H2 E.
    rewrite <- (N.add_mod_idemp_l b k1), <- (N.add_mod_idemp_l b k2) in E by lia.
    pose proof (N.mod_lt b sz ltac:(lia)) as Hb. revert E Hb. generalize (b mod sz). intros c E Hb.
    rewrite !wrap1 in E by lia.
    destruct (N.ltb_spec (c + k1) sz); destruct (N.ltb_spec (c + k2) sz); lia.
  Qed.
  Lemma mod_reach : forall b i, b < sz -> i < sz -> exists k, k < sz /\ i = (b + k) mod sz.
  Proof.
    intros b i Hb Hi. exists (if b <=? i then i - b else i + sz - b).
    destruct (N.leb_spec b i); (split; [lia|]); rewrite wrap1 by lia;
      match goal with |- context [?x <? ?y] => destruct (N.ltb_spec x y) end; lia.
  Qed.
End POS.

Lemma least : forall (P : N -> bool) n, (exists k, k < n /\ P k = true) ->
  exists k, k < n /\ P k = true /\ forall j, j < k -> P j = false.
Proof.
  intros P n (k & Hk & HP). revert Hk HP. revert k.
  induction k as [k IH] using (well_founded_induction N.lt_wf_0). intros Hk HP.
  assert (D : (exists j, j < k /\ P j = true) \/ forall j, j < k -> P j = false).
  { clear IH Hk HP. induction k as [|k IH] using N.peano_ind.
    - right. intros. lia.
    - destruct IH as [(j & Hj & E)|H].
      + left. exists j. split; [lia|exact E].
      + destruct (P k) eqn:E.
        * left. exists k. split; [lia|exact E].
        * right. intros j Hj. destruct (N.eq_dec j k) as [->|Hn]; [exact E|apply H; lia]. }
  destruct D as [(j & Hj & E)|H].
  - apply (IH j Hj); [lia|exact E].
  - exists k. auto.
Qed.

Lemma size_pos : forall h, 0 < size h.
Proof. intros. unfold size. apply N.neq_0_lt_0. apply N.pow_nonzero. lia. Qed.
Lemma mask_mod : forall h x, N.land x (mask h) = x mod size h.
Proof.
  intros. unfold mask, size. replace (2 ^ h_bits h - 1) with (N.ones (h_bits h)).
  - apply N.land_ones.
  - rewrite N.ones_equiv. lia.
Qed.
Lemma next_pos : forall h b k, next h ((b + k) mod size h) = (b + (k + 1)) mod size h.
Proof.
  intros. unfold next. rewrite mask_mod. pose proof (size_pos h).
  rewrite N.add_mod_idemp_l by lia. f_equal. lia.
Qed.
Lemma bucket_lt : forall h x, bucket h x < size h.
Proof. intros. unfold bucket. rewrite mask_mod. apply N.mod_lt. pose proof (size_pos h). lia. Qed.
Lemma pos0 : forall h x, (bucket h x + 0) mod size h = bucket h x.
Proof. intros. rewrite N.add_0_r. apply N.mod_small, bucket_lt. Qed.

(** ** Bits *)
Ltac bits :=
  apply N.bits_inj; intro;
  repeat (rewrite ?N.lor_spec, ?N.land_spec, ?N.ldiff_spec, ?N.lxor_spec).
Definition sub_of (a b : N) : Prop := N.land a b = a.
Lemma sub_bit : forall a b, sub_of a b <-> forall n, N.testbit a n = true -> N.testbit b n = true.
Proof.
  unfold sub_of. split.
  - intros E n H. rewrite <- E, N.land_spec in H. apply andb_true_iff in H. tauto.
  - intro H. bits. specialize (H n). destruct (N.testbit a n); [now rewrite H|reflexivity].
Qed.
Lemma sub_b : forall a b, sub_of a b -> forall n, N.testbit a n = true -> N.testbit b n = true.
Proof. intros a b H. now apply sub_bit. Qed.

Lemma hb_mask : forall h x, sub_of (hash_bits h x) (h_cmask h).
Proof.
  intros. apply sub_bit. intros n. unfold hash_bits.
  rewrite N.ldiff_spec, N.land_spec. destruct (N.testbit (h_cmask h) n); [auto|].
  now rewrite andb_false_r.
Qed.
Lemma hb_pbit : forall h x, N.land (hash_bits h x) (h_pbit h) = 0.
Proof.
  intros. unfold hash_bits. bits. rewrite N.bits_0.
  destruct (N.testbit (h_pbit h) n); cbn; now rewrite ?andb_false_r.
Qed.

Section TOP.
  Variable t : N.
  Hypothesis Ht : 1 <= t.

  Lemma top_bit_set : forall p, top_is t p -> N.testbit p t = true.
  Proof.
    intros p [H1 H2]. apply N.testbit_true.
    rewrite N.add_1_r, N.pow_succ_r' in H2.
    assert (E : p / 2 ^ t = 1).
    { symmetry. apply (N.div_unique p (2 ^ t) 1 (p - 2 ^ t)); lia. }
    now rewrite E.
  Qed.
  Lemma bit_valid : forall e, N.testbit e t = true -> valid e = true.
  Proof.
    intros e H. unfold valid, DELETED.
    destruct (N.ltb_spec 1 e) as [L|L]; [reflexivity|].
    assert (E : e = 0 \/ e = 1) by lia. destruct E as [-> | ->].
    - now rewrite N.bits_0 in H.
    - destruct t as [|q] eqn:Et; [lia|]. destruct q; discriminate H.
  Qed.

  Variable rehash : N -> N.
  Notation rhp p := (rh rehash p).

  Record core (h : ht) (els : list N) : Prop := {
    co_inline : h_inline h = false;
    co_len : len (h_table h) = size h;
    co_sub_p : sub_of (h_pbit h) (h_cmask h);
    co_sub_c : sub_of (h_cbits h) (h_cmask h);
    co_top : Forall (top_is t) els;
    co_els : Permutation els (map (raw h) (filter valid (h_table h)));
    co_extra : forall i, i < size h -> valid (get (h_table h) i) = true ->
      extra h (get (h_table h) i) =
        N.lor (hash_bits h (rhp (raw h (get (h_table h) i))))
              (if i =? bucket h (rhp (raw h (get (h_table h) i))) then h_pbit h else 0);
    co_path : forall i, i < size h -> valid (get (h_table h) i) = true ->
      exists k, k < size h /\ i = (bucket h (rhp (raw h (get (h_table h) i))) + k) mod size h /\
        forall j, j < k ->
          get (h_table h) ((bucket h (rhp (raw h (get (h_table h) i))) + j) mod size h) <> 0 }.

  Definition hid (h : ht) : Prop := N.testbit (h_cmask h) t = false.

  (** *** The stored word *)
  Lemma make_raw : forall h p b, sub_of b (h_cmask h) -> N.land p (h_cmask h) = h_cbits h ->
    raw h (make_hval h p b) = p.
  Proof.
    intros h p b Hb Hc. unfold raw, make_hval. rewrite <- Hc. bits.
    pose proof (sub_b _ _ Hb n) as Hn.
    destruct (N.testbit (h_cmask h) n), (N.testbit p n), (N.testbit b n); auto;
      discriminate (Hn eq_refl).
  Qed.
  Lemma make_extra : forall h p b, sub_of b (h_cmask h) -> extra h (make_hval h p b) = b.
  Proof.
    intros h p b Hb. unfold extra, make_hval. bits.
    pose proof (sub_b _ _ Hb n) as Hn.
    destruct (N.testbit (h_cmask h) n), (N.testbit p n), (N.testbit b n); auto;
      discriminate (Hn eq_refl).
  Qed.
  Lemma make_valid : forall h p b, hid h -> top_is t p -> valid (make_hval h p b) = true.
  Proof.
    intros h p b Hh Hp. apply bit_valid. unfold make_hval.
    rewrite N.lor_spec, N.ldiff_spec, (top_bit_set p Hp), Hh. reflexivity.
  Qed.
  Lemma hb_or_mask : forall h x b, sub_of b (h_cmask h) -> sub_of (N.lor (hash_bits h x) b) (h_cmask h).
  Proof.
    intros h x b Hb. apply sub_bit. intros n. rewrite N.lor_spec. intro H.
    apply orb_prop in H. destruct H as [H|H]; [exact (sub_b _ _ (hb_mask h x) n H)|exact (sub_b _ _ Hb n H)].
  Qed.
  Lemma sub_if : forall h (c : bool), sub_of (h_pbit h) (h_cmask h) ->
    sub_of (if c then h_pbit h else 0) (h_cmask h).
  Proof. intros h [|] H; [exact H|]. unfold sub_of. reflexivity. Qed.

  (** *** Where ht_add stores *)
  Lemma add_loop_ok : forall h p hash, h_inline h = false -> len (h_table h) = size h ->
    forall n k fuel perfect,
    (forall j, j < n -> valid (get (h_table h) ((bucket h hash + (k + j)) mod size h)) = true) ->
    valid (get (h_table h) ((bucket h hash + (k + n)) mod size h)) = false ->
    (N.to_nat n < fuel)%nat ->
    add_loop fuel h p hash ((bucket h hash + k) mod size h) perfect =
    HtOk (set_table (replace_nth (N.to_nat ((bucket h hash + (k + n)) mod size h)) (h_table h)
           (make_hval h p (N.lor (hash_bits h hash) (if n =? 0 then perfect else 0)))) h).
  Proof.
    intros h p hash Hi Hl. pose proof (size_pos h) as Hs.
    induction n as [|n IH] using N.peano_ind; intros k fuel perfect Hv Hn Hf.
    - destruct fuel as [|fuel]; [lia|]. cbn [add_loop].
      rewrite N.add_0_r in Hn.
      assert (L : (bucket h hash + k) mod size h < len (h_table h)) by (rewrite Hl; apply N.mod_lt; lia).
      rewrite load_ok by assumption. cbn [ht_bind]. rewrite Hn, N.add_0_r.
      cbn [N.eqb]. now apply store_ok.
    - destruct fuel as [|fuel]; [lia|]. cbn [add_loop].
      assert (L : (bucket h hash + k) mod size h < len (h_table h)) by (rewrite Hl; apply N.mod_lt; lia).
      rewrite load_ok by assumption. cbn [ht_bind].
      assert (V := Hv 0 ltac:(lia)). rewrite N.add_0_r in V. rewrite V, next_pos.
      rewrite IH.
      + replace (k + 1 + n) with (k + N.succ n) by lia.
        destruct (N.eqb_spec n 0), (N.eqb_spec (N.succ n) 0); try lia; reflexivity.
      + intros j Hj. replace (k + 1 + j) with (k + (j + 1)) by lia. apply Hv. lia.
      + now replace (k + 1 + n) with (k + N.succ n) by lia.
      + lia.
  Qed.
  Lemma add_raw_ok : forall h p hash k, h_inline h = false -> len (h_table h) = size h ->
    k < size h ->
    (forall j, j < k -> valid (get (h_table h) ((bucket h hash + j) mod size h)) = true) ->
    valid (get (h_table h) ((bucket h hash + k) mod size h)) = false ->
    add_raw h p hash =
    HtOk (set_table (replace_nth (N.to_nat ((bucket h hash + k) mod size h)) (h_table h)
           (make_hval h p (N.lor (hash_bits h hash) (if k =? 0 then h_pbit h else 0)))) h).
  Proof.
    intros h p hash k Hi Hl Hk Hv Hn. unfold add_raw. rewrite <- (pos0 h hash) at 1.
    rewrite (add_loop_ok h p hash Hi Hl k 0); auto.
    unfold fuel_of, slots. rewrite Hi. unfold len in Hl. lia.
  Qed.

  (** *** Replacing one slot *)
  Lemma fields : forall T h, h_bits (set_table T h) = h_bits h /\ h_cmask (set_table T h) = h_cmask h /\
    h_cbits (set_table T h) = h_cbits h /\ h_pbit (set_table T h) = h_pbit h /\
    h_inline (set_table T h) = h_inline h /\ h_table (set_table T h) = T /\
    h_elems (set_table T h) = h_elems h /\ h_deleted (set_table T h) = h_deleted h.
  Proof. intros. repeat split. Qed.
  Lemma raw_set : forall T h e, raw (set_table T h) e = raw h e. Proof. reflexivity. Qed.
  Lemma hb_set : forall T h e, hash_bits (set_table T h) e = hash_bits h e. Proof. reflexivity. Qed.
  Lemma bu_set : forall T h e, bucket (set_table T h) e = bucket h e. Proof. reflexivity. Qed.
  Lemma sz_set : forall T h, size (set_table T h) = size h. Proof. reflexivity. Qed.
  Lemma ex_set : forall T h e, extra (set_table T h) e = extra h e. Proof. reflexivity. Qed.

  Lemma nz_replace : forall T i v, i < len T ->
    nz (replace_nth (N.to_nat i) T v) + (if nonz (get T i) then 1 else 0) = nz T + (if nonz v then 1 else 0).
  Proof.
    unfold nz, len, get. intros T i v H.
    destruct (replace_split T (N.to_nat i) v) as (l1 & l2 & E1 & E2 & _); [lia|].
    rewrite E2. rewrite E1 at 2. rewrite !filter_app. cbn [filter].
    rewrite !app_length.
    destruct (nonz (nth (N.to_nat i) T 0)), (nonz v); cbn [length]; lia.
  Qed.
  Lemma els_replace : forall h T i v, i < len T -> valid (get T i) = false -> valid v = true ->
    Permutation (raw h v :: map (raw h) (filter valid T))
                (map (raw h) (filter valid (replace_nth (N.to_nat i) T v))).
  Proof.
    unfold len, get. intros h T i v H Ho Hv.
    destruct (replace_split T (N.to_nat i) v) as (l1 & l2 & E1 & E2 & _); [lia|].
    rewrite E2. rewrite E1 at 1. rewrite !filter_app. cbn [filter]. rewrite Ho, Hv.
    rewrite !map_app. cbn [map]. apply Permutation_middle.
  Qed.
  Lemma els_remove : forall h T i v, i < len T -> valid (get T i) = true -> valid v = false ->
    Permutation (map (raw h) (filter valid T))
                (raw h (get T i) :: map (raw h) (filter valid (replace_nth (N.to_nat i) T v))).
  Proof.
    unfold len, get. intros h T i v H Ho Hv.
    destruct (replace_split T (N.to_nat i) v) as (l1 & l2 & E1 & E2 & _); [lia|].
    rewrite E2. rewrite E1 at 1. rewrite !filter_app. cbn [filter]. rewrite Ho, Hv.
    rewrite !map_app. cbn [map]. symmetry. apply Permutation_middle.
  Qed.

  (** *** ht_add keeps the invariant *)
  Lemma add_raw_core : forall h els p, core h els -> hid h -> top_is t p ->
    N.land p (h_cmask h) = h_cbits h ->
    (exists i, i < size h /\ valid (get (h_table h) i) = false) ->
    exists T, add_raw h p (rhp p) = HtOk (set_table T h) /\ core (set_table T h) (p :: els) /\
      nz T <= nz (h_table h) + 1.
  Proof.
    intros h els p C Hh Hp Hc (i0 & Hi0 & Hv0).
    destruct C as [Ci Cl Cp Cc Ct Ce Cx Cy]. pose proof (size_pos h) as Hs.
    destruct (mod_reach (size h) Hs (bucket h (rhp p)) i0 (bucket_lt _ _) Hi0) as (k0 & Hk0 & ->).
    destruct (least (fun k => negb (valid (get (h_table h) ((bucket h (rhp p) + k) mod size h)))) (size h))
      as (k & Hk & Hkv & Hkl).
    { exists k0. rewrite Hv0. auto. }
    apply negb_true_iff in Hkv.
    assert (Hkl' : forall j, j < k -> valid (get (h_table h) ((bucket h (rhp p) + j) mod size h)) = true).
    { intros j Hj. specialize (Hkl j Hj). now apply negb_false_iff in Hkl. }
    clear Hkl. pose proof (add_raw_ok h p (rhp p) k Ci Cl Hk Hkl' Hkv) as E.
    set (q := (bucket h (rhp p) + k) mod size h) in *.
    assert (Hq : q < size h) by (apply N.mod_lt; lia).
    set (v := make_hval h p (N.lor (hash_bits h (rhp p)) (if k =? 0 then h_pbit h else 0))) in *.
    assert (Sb : sub_of (N.lor (hash_bits h (rhp p)) (if k =? 0 then h_pbit h else 0)) (h_cmask h))
      by (apply hb_or_mask, sub_if, Cp).
    assert (Vv : valid v = true) by (apply make_valid; assumption).
    assert (Vr : raw h v = p) by (apply make_raw; assumption).
    assert (Vx : extra h v = N.lor (hash_bits h (rhp p)) (if k =? 0 then h_pbit h else 0))
      by (apply make_extra; assumption).
    assert (Hqb : (q =? bucket h (rhp p)) = (k =? 0)).
    { destruct (N.eqb_spec k 0) as [K|K].
      - subst q. rewrite K, pos0. apply N.eqb_refl.
      - apply N.eqb_neq. intro E'. apply K. apply (mod_inj (size h) Hs (bucket h (rhp p))); auto.
        rewrite pos0. exact E'. }
    eexists. split; [exact E|]. split.
    - constructor; rewrite ?sz_set; cbn [h_inline h_table h_cmask h_cbits h_pbit set_table]; auto.
      + unfold len in *. now rewrite replace_length.
      + refine (Permutation_trans (perm_skip p Ce) _). rewrite <- Vr at 1.
        apply (els_replace h); auto. now rewrite Cl.
      + intros i Hi. rewrite get_replace by (now rewrite Cl).
        destruct (N.eqb_spec i q) as [-> |Hn].
        * intros _. rewrite raw_set, ex_set, hb_set, bu_set, Vr, Vx, Hqb. reflexivity.
        * intro V. apply Cx; auto.
      + intros i Hi. rewrite get_replace by (now rewrite Cl).
        destruct (N.eqb_spec i q) as [-> |Hn].
        * intros _. rewrite raw_set, bu_set, Vr. exists k. split; [exact Hk|]. split; [reflexivity|].
          intros j Hj. rewrite get_replace by (now rewrite Cl).
          match goal with |- context [N.eqb ?x q] => destruct (N.eqb_spec x q) end.
          -- apply valid_nonz in Vv. unfold nonz in Vv. lia.
          -- specialize (Hkl' j Hj). apply valid_nonz in Hkl'. unfold nonz in Hkl'. lia.
        * intro V. destruct (Cy i Hi V) as (k1 & K1 & K2 & K3). exists k1.
          rewrite raw_set, bu_set. split; [exact K1|]. split; [exact K2|].
          intros j Hj. rewrite get_replace by (now rewrite Cl).
          match goal with |- context [N.eqb ?x q] => destruct (N.eqb_spec x q) end.
          -- apply valid_nonz in Vv. unfold nonz in Vv. lia.
          -- now apply K3.
    - pose proof (nz_replace (h_table h) q v ltac:(now rewrite Cl)).
      destruct (nonz (get (h_table h) q)), (nonz v); lia.
  Qed.

  (** ** Lookup *)
  Section LOOK.
    Variable h : ht.
    Variable els : list N.
    Hypothesis C : core h els.
    Variable hash : N.
    Notation slot k := (get (h_table h) ((bucket h hash + k) mod size h)).
    Notation tgt k := (N.lor (hash_bits h hash) (if k =? 0 then h_pbit h else 0)).
    Definition hit (k : N) : bool := negb (slot k =? DELETED) && (extra h (slot k) =? tgt k).
    Variable z : N.
    Hypothesis Hz : z < size h.
    Hypothesis Hz0 : slot z = 0.
    Hypothesis Hzl : forall j, j < z -> slot j <> 0.

    Definition first_hit (k0 : N) (r : option (N * N)) : Prop :=
      match r with
      | None => forall k, k0 <= k < z -> hit k = false
      | Some (off, p) => exists k, k0 <= k < z /\ off = (bucket h hash + k) mod size h /\
          p = raw h (slot k) /\ hit k = true /\ forall j, k0 <= j < k -> hit j = false
      end.

    Lemma val_loop_ok : forall fuel k h2 perfect, k <= z -> (N.to_nat (z - k) < fuel)%nat ->
      h2 = tgt k -> N.ldiff h2 perfect = hash_bits h hash ->
      N.ldiff (hash_bits h hash) perfect = hash_bits h hash ->
      exists r, val_loop fuel h ((bucket h hash + k) mod size h) h2 perfect = HtOk r /\ first_hit k r.
    Proof.
      induction fuel as [|fuel IH]; intros k h2 perfect Hk Hf H2 Hp Hq; [lia|].
      cbn [val_loop]. pose proof (size_pos h) as Hs.
      rewrite load_ok; [|exact (co_inline _ _ C)|rewrite (co_len _ _ C); apply N.mod_lt; lia].
      cbn [ht_bind].
      destruct (N.eqb_spec (slot k) 0) as [E|E].
      - exists None. split; [reflexivity|]. intros j Hj. destruct (N.eq_dec k z) as [-> |Hn]; [lia|].
        exfalso. apply (Hzl k); [lia|exact E].
      - destruct (N.eq_dec k z) as [-> |Hn]; [congruence|].
        rewrite H2. fold (hit k).
        destruct (hit k) eqn:Hh.
        + eexists. split; [reflexivity|]. exists k. repeat split; auto; try lia.
        + rewrite next_pos, <- H2, Hp.
          destruct (IH (k + 1) (hash_bits h hash) perfect) as (r & Er & Fr).
          * lia.
          * lia.
          * destruct (N.eqb_spec (k + 1) 0); [lia|]. now rewrite N.lor_0_r.
          * exact Hq.
          * exact Hq.
          * exists r. split; [exact Er|].
            destruct r as [[off p]|]; cbn [first_hit] in Fr |- *.
            -- destruct Fr as (k1 & ? & ? & ? & ? & L). exists k1. repeat split; auto; try lia.
               intros j Hj. destruct (N.eq_dec j k) as [-> |]; [exact Hh|apply L; lia].
            -- intros j Hj. destruct (N.eq_dec j k) as [-> |]; [exact Hh|apply Fr; lia].
    Qed.
    Lemma hb_clear : N.ldiff (hash_bits h hash) (h_pbit h) = hash_bits h hash.
    Proof.
      bits. pose proof (hb_pbit h hash) as E.
      assert (B : N.testbit (N.land (hash_bits h hash) (h_pbit h)) n = false) by (rewrite E; apply N.bits_0).
      rewrite N.land_spec in B.
      destruct (N.testbit (hash_bits h hash) n), (N.testbit (h_pbit h) n); auto.
    Qed.
    Lemma fuel_z : (N.to_nat z < fuel_of h)%nat.
    Proof.
      unfold fuel_of, slots. rewrite (co_inline _ _ C). pose proof (co_len _ _ C) as L.
      unfold len in L. lia.
    Qed.
    Lemma firstval_ok : exists r, firstval h hash = HtOk r /\ first_hit 0 r.
    Proof.
      unfold firstval, val.
      pose proof (val_loop_ok (fuel_of h) 0 (N.lor (hash_bits h hash) (h_pbit h)) (h_pbit h)) as V.
      rewrite pos0 in V. apply V.
      - lia.
      - pose proof fuel_z. lia.
      - reflexivity.
      - pose proof hb_clear as E. bits.
        assert (B := f_equal (fun x => N.testbit x n) E). cbn beta in B. rewrite N.ldiff_spec in B.
        destruct (N.testbit (hash_bits h hash) n), (N.testbit (h_pbit h) n); auto.
      - apply hb_clear.
    Qed.
    Lemma nextval_ok : forall k, k < z ->
      exists r, nextval h ((bucket h hash + k) mod size h) hash = HtOk r /\ first_hit (k + 1) r.
    Proof.
      intros k Hk. unfold nextval, val. rewrite next_pos. apply val_loop_ok.
      - lia.
      - pose proof fuel_z. lia.
      - destruct (N.eqb_spec (k + 1) 0); [lia|reflexivity].
      - now rewrite N.lor_0_r, N.ldiff_0_r.
      - apply N.ldiff_0_r.
    Qed.
    Lemma find_loop_ok : forall cmp fuel k0 c, first_hit k0 c -> (N.to_nat (z - k0) <= fuel)%nat ->
      exists r, find_loop fuel h hash cmp c = HtOk r /\
        match r with
        | None => forall k, k0 <= k < z -> hit k = true -> cmp (raw h (slot k)) = false
        | Some (off, p) => exists k, k < z /\ off = (bucket h hash + k) mod size h /\
            p = raw h (slot k) /\ hit k = true /\ cmp p = true
        end.
    Proof.
      intro cmp. induction fuel as [|fuel IH]; intros k0 c Hc Hf; destruct c as [[off p]|]; cbn [find_loop].
      - destruct Hc as (k & ? & _). lia.
      - exists None. split; [reflexivity|]. cbn in Hc. intros k Hk H. rewrite Hc in H; [discriminate|lia].
      - destruct Hc as (k & K1 & K2 & K3 & K4 & K5). destruct (cmp p) eqn:Ep.
        + eexists. split; [reflexivity|]. exists k. repeat split; auto; lia.
        + rewrite K2. destruct (nextval_ok k) as (r & Er & Fr); [lia|].
          rewrite Er. cbn [ht_bind].
          destruct (IH (k + 1) r Fr) as (r' & Er' & Fr'); [lia|].
          exists r'. split; [exact Er'|]. destruct r' as [[off' p']|]; [exact Fr'|].
          intros j Hj Hh. destruct (N.lt_trichotomy j k) as [L|[L|L]].
          * rewrite K5 in Hh; [discriminate|lia].
          * subst j. now rewrite <- K3.
          * apply Fr'; [lia|exact Hh].
      - exists None. split; [reflexivity|]. cbn in Hc. intros k Hk H. rewrite Hc in H; [discriminate|lia].
    Qed.
    Lemma find_val_ok : forall cmp, exists r, find_val h hash cmp = HtOk r /\
        match r with
        | None => forall k, k < z -> hit k = true -> cmp (raw h (slot k)) = false
        | Some (off, p) => exists k, k < z /\ off = (bucket h hash + k) mod size h /\
            p = raw h (slot k) /\ hit k = true /\ cmp p = true
        end.
    Proof.
      intro cmp. unfold find_val. destruct firstval_ok as (c & Ec & Fc). rewrite Ec. cbn [ht_bind].
      destruct (find_loop_ok cmp (fuel_of h) 0 c Fc) as (r & Er & Fr).
      { pose proof fuel_z. lia. }
      exists r. split; [exact Er|]. destruct r as [[off p]|]; [exact Fr|].
      intros k Hk. apply Fr. lia.
    Qed.
    Lemma hit_valid : forall k, k < z -> hit k = true -> valid (slot k) = true.
    Proof.
      intros k Hk H. unfold hit in H. specialize (Hzl k Hk). unfold valid, DELETED in *. lia.
    Qed.
    Lemma member_hit : forall i, i < size h -> valid (get (h_table h) i) = true ->
      rhp (raw h (get (h_table h) i)) = hash ->
      exists k, k < z /\ i = (bucket h hash + k) mod size h /\ hit k = true.
    Proof.
      intros i Hi V E. pose proof (size_pos h) as Hs.
      destruct (co_path _ _ C i Hi V) as (k & K1 & K2 & K3). rewrite E in K2, K3.
      assert (Kz : k < z).
      { destruct (N.lt_trichotomy k z) as [L|[L|L]]; [exact L| |].
        - exfalso. rewrite K2, L, Hz0 in V. discriminate V.
        - exfalso. now apply (K3 z L). }
      exists k. split; [exact Kz|]. split; [exact K2|].
      unfold hit. rewrite <- K2. rewrite (co_extra _ _ C i Hi V), E.
      assert (B : (i =? bucket h hash) = (k =? 0)).
      { destruct (N.eqb_spec k 0) as [K|K].
        - rewrite K2, K, pos0. apply N.eqb_refl.
        - apply N.eqb_neq. intro E'. apply K. apply (mod_inj (size h) Hs (bucket h hash)); auto.
          rewrite pos0. congruence. }
      rewrite B, N.eqb_refl, andb_true_r. unfold valid, DELETED in *. lia.
    Qed.
  End LOOK.

  Lemma probe_end : forall h els hash, core h els -> nz (h_table h) < size h ->
    exists z, z < size h /\ get (h_table h) ((bucket h hash + z) mod size h) = 0 /\
      forall j, j < z -> get (h_table h) ((bucket h hash + j) mod size h) <> 0.
  Proof.
    intros h els hash C Hn. pose proof (size_pos h) as Hs. rewrite <- (co_len _ _ C) in Hn.
    destruct (empty_slot _ Hn) as (i & Hi & E). rewrite (co_len _ _ C) in Hi.
    destruct (mod_reach (size h) Hs (bucket h hash) i (bucket_lt _ _) Hi) as (k & Hk & ->).
    destruct (least (fun k => get (h_table h) ((bucket h hash + k) mod size h) =? 0) (size h))
      as (z & Z1 & Z2 & Z3).
    { exists k. rewrite E. auto. }
    exists z. split; [exact Z1|]. split; [lia|]. intros j Hj. specialize (Z3 j Hj). lia.
  Qed.
  Lemma els_get : forall h els p, core h els -> In p els ->
    exists i, i < size h /\ valid (get (h_table h) i) = true /\ raw h (get (h_table h) i) = p.
  Proof.
    intros h els p C H. apply (Permutation_in _ (co_els _ _ C)) in H.
    apply in_map_iff in H. destruct H as (e & <- & H). apply filter_In in H. destruct H as [H V].
    destruct (in_get _ _ H) as (i & Hi & E). rewrite (co_len _ _ C) in Hi. exists i. rewrite E. auto.
  Qed.
  Lemma get_els : forall h els i, core h els -> i < size h -> valid (get (h_table h) i) = true ->
    In (raw h (get (h_table h) i)) els.
  Proof.
    intros h els i C Hi V. apply (Permutation_in _ (Permutation_sym (co_els _ _ C))).
    apply in_map, filter_In. split; [|exact V]. apply get_in. now rewrite (co_len _ _ C).
  Qed.
  Lemma get_ok : forall h els hash cmp, core h els -> nz (h_table h) < size h ->
    exists r, ht_get h hash cmp = HtOk r /\
     match r with
     | Some p => In p els /\ cmp p = true
     | None => forall p, In p els -> rhp p = hash -> cmp p = false
     end.
  Proof.
    intros h els hash cmp C Hn. destruct (probe_end h els hash C Hn) as (z & Z1 & Z2 & Z3).
    destruct (find_val_ok h els C hash z Z1 Z2 Z3 cmp) as (r & Er & Fr).
    unfold ht_get. rewrite Er. cbn [ht_bind]. eexists. split; [reflexivity|].
    pose proof (size_pos h) as Hs.
    destruct r as [[off p]|].
    - destruct Fr as (k & K1 & K2 & K3 & K4 & K5). split; [|exact K5]. rewrite K3.
      apply get_els; [exact C|apply N.mod_lt; lia|]. exact (hit_valid h hash z Z1 Z2 Z3 k K1 K4).
    - intros p Hp Eh. destruct (els_get h els p C Hp) as (i & Hi & V & <-).
      destruct (member_hit h els C hash z Z1 Z2 Z3 i Hi V Eh) as (k & K1 & K2 & K3).
      rewrite K2. now apply Fr.
  Qed.
End TOP.
