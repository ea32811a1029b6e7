(** The hash table: rehashing in place, removal, iteration, histories. *)
Require Import NArith ZArith List Bool Lia Permutation.
Require Import ZifyBool ZifyN ZifyNat.
Require Import Verif.Word Verif.Htable_Model Verif.Htable_Spec Verif.Htable_Proofs Verif.Htable_Proofs2.
Import ListNotations.
Local Open Scope N_scope.

Lemma first_empty_ok : forall h, h_inline h = false -> forall fuel i j, i <= j -> j < len (h_table h) ->
  get (h_table h) j = 0 -> (N.to_nat (j - i) < fuel)%nat ->
  exists s, first_empty fuel h i = HtOk s /\ s < len (h_table h) /\ get (h_table h) s = 0.
Proof.
  intros h Hi. induction fuel as [|fuel IH]; intros i j Hij Hj E Hf; [lia|].
  cbn [first_empty]. rewrite load_ok by (auto; lia). cbn [ht_bind].
  destruct (N.eqb_spec (get (h_table h) i) 0) as [Z|Z].
  - exists i. repeat split; auto. lia.
  - destruct (N.eq_dec i j) as [-> |D]; [congruence|]. apply (IH (i + 1) j); auto; lia.
Qed.

Section TOP.
  Variable t : N.
  Hypothesis Ht : 1 <= t.
  Variable rehash : N -> N.
  Notation rhp p := (rh rehash p).
  Notation core := (core t rehash).
  Notation hid := (hid t).
  Notation inv := (inv t rehash).
  Notation vis := (vis t).

  Section REHASH.
    Variable h : ht.
    Variable els : list N.
    Hypothesis C : core h els.
    Hypothesis V : vis h els.
    Variable start : N.
    Hypothesis Hst : start < size h.
    Hypothesis Hs0 : get (h_table h) start = 0.
    Notation sz := (size h).
    Notation T0 := (h_table h).
    Notation pos r := ((start + r) mod sz).
    Definition hr (p : N) : N := (bucket h (rhp p) + (sz - start)) mod sz.

    Lemma szp : 0 < sz. Proof. apply size_pos. Qed.
    Lemma hr_lt : forall p, hr p < sz.
    Proof. intro. apply N.mod_lt. pose proof szp. lia. Qed.
    Lemma hr_pos : forall p, pos (hr p) = bucket h (rhp p).
    Proof.
      intro p. unfold hr. pose proof szp. rewrite N.add_mod_idemp_r by lia.
      replace (start + (bucket h (rhp p) + (sz - start))) with (bucket h (rhp p) + 1 * sz) by lia.
      rewrite N.mod_add by lia. apply N.mod_small, bucket_lt.
    Qed.
    Lemma bucket_step : forall p j, (bucket h (rhp p) + j) mod sz = pos (hr p + j).
    Proof.
      intros p j. rewrite <- (hr_pos p). pose proof szp. rewrite N.add_mod_idemp_l by lia.
      f_equal. lia.
    Qed.
    Lemma pos_lt : forall r, pos r < sz.
    Proof. intro. apply N.mod_lt. pose proof szp. lia. Qed.
    Lemma pos_inj : forall a b, a < sz -> b < sz -> pos a = pos b -> a = b.
    Proof. intros a b Ha Hb. apply (mod_inj sz szp); auto. Qed.
    Lemma pos_start : pos 0 = start.
    Proof. rewrite N.add_0_r. now apply N.mod_small. Qed.

    (** Read from the empty slot on, an element is not before its bucket. *)
    Lemma linear0 : forall r, r < sz -> valid (get T0 (pos r)) = true -> hr (raw h (get T0 (pos r))) <= r.
    Proof.
      intros r Hr Vr. pose proof szp as Hz.
      destruct (co_path _ _ _ _ C (pos r) (pos_lt r) Vr) as (k & K1 & K2 & K3).
      set (p := raw h (get T0 (pos r))) in *. rewrite bucket_step in K2.
      pose proof (hr_lt p) as Hh.
      destruct (N.lt_ge_cases (hr p + k) sz) as [L|L].
      - apply (pos_inj r (hr p + k)) in K2; [lia|exact Hr|exact L].
      - exfalso.
        destruct (N.eq_dec k (sz - hr p)) as [E|E].
        + rewrite E in K2. replace (start + (hr p + (sz - hr p))) with (start + 1 * sz) in K2 by lia.
          rewrite N.mod_add in K2 by lia. rewrite (N.mod_small start) in K2 by exact Hst.
          rewrite K2, Hs0 in Vr. discriminate Vr.
        + apply (K3 (sz - hr p)); [lia|]. rewrite bucket_step.
          replace (start + (hr p + (sz - hr p))) with (start + 1 * sz) by lia.
          rewrite N.mod_add by lia. rewrite (N.mod_small start) by exact Hst. exact Hs0.
    Qed.

    Record mid (i : N) (T : list N) : Prop := {
      mi_len : len T = sz;
      mi_els : Permutation els (map (raw h) (filter valid T));
      mi_del : forall r, r < i -> get T (pos r) <> DELETED;
      mi_lin : forall r, r < i -> valid (get T (pos r)) = true ->
        hr (raw h (get T (pos r))) <= r /\
        forall j, hr (raw h (get T (pos r))) <= j -> j < r -> valid (get T (pos j)) = true;
      mi_rest : forall r, i <= r -> r < sz -> get T (pos r) = get T0 (pos r);
      mi_extra : forall r, r < sz -> valid (get T (pos r)) = true ->
        extra h (get T (pos r)) =
          N.lor (hash_bits h (rhp (raw h (get T (pos r)))))
                (if pos r =? bucket h (rhp (raw h (get T (pos r)))) then h_pbit h else 0) }.

    Lemma mid0 : mid 0 T0.
    Proof.
      destruct C as [C1 C2 C3 C4 C5 C6 C7 C8]. constructor; auto; intros; try lia.
      apply C7; [apply pos_lt|assumption].
    Qed.

    Lemma get_pos : forall T i r v, len T = sz -> i < sz -> r < sz ->
      get (replace_nth (N.to_nat (pos i)) T v) (pos r) = if r =? i then v else get T (pos r).
    Proof.
      intros T i r v Hl Hi Hr. rewrite get_replace by (rewrite Hl; apply pos_lt).
      destruct (N.eqb_spec (pos r) (pos i)) as [E|E]; destruct (N.eqb_spec r i) as [D|D]; auto; exfalso.
      - apply D. now apply pos_inj.
      - apply E. now rewrite D.
    Qed.

    Lemma mid_hid : forall i T, mid i T -> forall r, r < sz -> valid (get T (pos r)) = true ->
      hid h /\ top_is t (raw h (get T (pos r))).
    Proof.
      intros i T M r Hr Vr.
      assert (Hin : In (raw h (get T (pos r))) els).
      { apply (Permutation_in _ (Permutation_sym (mi_els _ _ M))), in_map, filter_In.
        split; [|exact Vr]. apply get_in. rewrite (mi_len _ _ M). apply pos_lt. }
      split.
      - destruct V as [Hh|[E _]]; [exact Hh|]. rewrite E in Hin. destruct Hin.
      - pose proof (co_top _ _ _ _ C) as Ft. rewrite Forall_forall in Ft. auto.
    Qed.

    Lemma step_ok : forall i T, mid i T -> i < sz ->
      exists T', (let e := get T (pos i) in
               if e =? 0 then HtOk (set_table T h)
               else if e =? DELETED then store (set_table T h) (pos i) 0
               else if N.land e (h_pbit h) =? 0 then
                 h1 <~ store (set_table T h) (pos i) 0 ;;
                 add_raw h1 (raw h e) (rhp (raw h e))
               else HtOk (set_table T h)) = HtOk (set_table T' h) /\ mid (i + 1) T'.
    Proof.
      intros i T M Hi. pose proof szp as Hz. cbv zeta.
      assert (Hlt : pos i < len T) by (rewrite (mi_len _ _ M); apply pos_lt).
      destruct (N.eqb_spec (get T (pos i)) 0) as [E0|E0].
      { exists T. split; [reflexivity|]. destruct M as [M1 M2 M3 M4 M5 M6].
        constructor; auto.
        - intros r Hr. destruct (N.eq_dec r i) as [-> |]; [rewrite E0; discriminate|apply M3; lia].
        - intros r Hr Vr. destruct (N.eq_dec r i) as [-> |]; [rewrite E0 in Vr; discriminate Vr|].
          apply M4; [lia|exact Vr].
        - intros r Hr1 Hr2. apply M5; lia. }
      destruct (N.eqb_spec (get T (pos i)) DELETED) as [E1|E1].
      { rewrite store_ok; [|exact (co_inline _ _ _ _ C)|exact Hlt]. cbn [h_table set_table].
        eexists. split; [reflexivity|]. destruct M as [M1 M2 M3 M4 M5 M6].
        constructor.
        - unfold len in *. now rewrite replace_length.
        - rewrite M2. 
          destruct (replace_split T (N.to_nat (pos i)) 0) as (l1 & l2 & Es & Er & _);
            [unfold len in Hlt; lia|].
          rewrite Er. rewrite Es at 1. rewrite !filter_app. cbn [filter].
          change (nth (N.to_nat (pos i)) T 0) with (get T (pos i)). rewrite E1. reflexivity.
        - intros r Hr. rewrite get_pos by (auto; lia).
          destruct (N.eqb_spec r i); [discriminate|apply M3; lia].
        - intros r Hr. rewrite get_pos by (auto; lia).
          destruct (N.eqb_spec r i); [discriminate|]. intro Vr.
          destruct (M4 r ltac:(lia) Vr) as (L1 & L2). split; [exact L1|].
          intros j J1 J2. rewrite get_pos by (auto; lia).
          destruct (N.eqb_spec j i); [lia|]. now apply L2.
        - intros r Hr1 Hr2. rewrite get_pos by (auto; lia).
          destruct (N.eqb_spec r i); [lia|]. apply M5; lia.
        - intros r Hr. rewrite get_pos by (auto; lia).
          destruct (N.eqb_spec r i); [discriminate|]. now apply M6. }
      assert (Vi : valid (get T (pos i)) = true) by (unfold valid, DELETED in *; lia).
      destruct (mid_hid i T M i Hi Vi) as [Hh Hp].
      set (e := get T (pos i)) in *. set (p := raw h e) in *.
      assert (Lp : hr p <= i).
      { pose proof (mi_rest _ _ M i ltac:(lia) Hi) as R. fold e in R. subst p. rewrite R.
        apply linear0; [exact Hi|]. rewrite <- R. exact Vi. }
      destruct (N.eqb_spec (N.land e (h_pbit h)) 0) as [Ep|Ep].
      2: { (* an element in its own bucket *)
        exists T. split; [reflexivity|].
        assert (Hhome : pos i = bucket h (rhp p)).
        { destruct (N.eqb_spec (pos i) (bucket h (rhp p))) as [D|D]; [exact D|]. exfalso. apply Ep.
          pose proof (mi_extra _ _ M i Hi Vi) as X. fold e in X. fold p in X.
          destruct (N.eqb_spec (pos i) (bucket h (rhp p))); [contradiction|].
          rewrite N.lor_0_r in X.
          assert (Y : N.land e (h_pbit h) = N.land (extra h e) (h_pbit h)).
          { unfold extra. bits. pose proof (sub_b _ _ (co_sub_p _ _ _ _ C) n0) as Hn.
            destruct (N.testbit (h_pbit h) n0); [rewrite Hn by reflexivity|]; now rewrite ?andb_true_r, ?andb_false_r. }
          rewrite Y, X. apply hb_pbit. }
        assert (Hri : hr p = i).
        { apply pos_inj; [apply hr_lt|exact Hi|]. rewrite hr_pos. now symmetry. }
        destruct M as [M1 M2 M3 M4 M5 M6]. constructor; auto.
        - intros r Hr. destruct (N.eq_dec r i) as [-> |]; [exact E1|apply M3; lia].
        - intros r Hr Vr. destruct (N.eq_dec r i) as [-> |]; [|apply M4; [lia|exact Vr]].
          change (raw h (get T (pos i))) with p. rewrite Hri. split; [lia|]. intros. lia.
        - intros r Hr1 Hr2. apply M5; lia. }
      (* an element to be put in again *)
      rewrite store_ok; [|exact (co_inline _ _ _ _ C)|exact Hlt]. cbn [h_table set_table ht_bind].
      change (set_table (replace_nth (N.to_nat (pos i)) T 0) (set_table T h))
        with (set_table (replace_nth (N.to_nat (pos i)) T 0) h).
      set (T1 := replace_nth (N.to_nat (pos i)) T 0).
      assert (L1 : len T1 = sz) by (unfold len, T1 in *; rewrite replace_length; exact (mi_len _ _ M)).
      assert (G1 : forall r, r < sz -> get T1 (pos r) = if r =? i then 0 else get T (pos r)).
      { intros r Hr. unfold T1. apply get_pos; auto. exact (mi_len _ _ M). }
      destruct (least (fun k => negb (valid (get T1 (pos (hr p + k))))) (i - hr p + 1)) as (k & Hk & Kv & Kl).
      { exists (i - hr p). split; [lia|]. replace (hr p + (i - hr p)) with i by lia.
        rewrite G1 by exact Hi. rewrite N.eqb_refl. reflexivity. }
      apply negb_true_iff in Kv.
      set (q := hr p + k) in *. assert (Hq : q <= i) by lia. assert (Hqs : q < sz) by lia.
      pose proof (add_raw_ok t Ht rehash (set_table T1 h) p (rhp p) k (co_inline _ _ _ _ C) L1) as A.
      rewrite sz_set, bu_set in A. cbn [h_table set_table] in A.
      assert (A' := A ltac:(lia)). clear A.
      rewrite bucket_step in A'. fold q in A'.
      assert (A2 : forall j, j < k -> valid (get T1 ((bucket h (rhp p) + j) mod sz)) = true).
      { intros j Hj. rewrite bucket_step. specialize (Kl j Hj). now apply negb_false_iff in Kl. }
      specialize (A' A2 Kv).
      set (v := make_hval (set_table T1 h) p
                  (N.lor (hash_bits (set_table T1 h) (rhp p)) (if k =? 0 then h_pbit (set_table T1 h) else 0))) in *.
      assert (Sb : sub_of (N.lor (hash_bits h (rhp p)) (if k =? 0 then h_pbit h else 0)) (h_cmask h))
        by (apply hb_or_mask, sub_if, (co_sub_p _ _ _ _ C)).
      assert (Vv : valid v = true) by (apply (make_valid t Ht h); assumption).
      assert (Vr : raw h v = p).
      { apply (make_raw h); [exact Sb|]. apply raw_common. exact (co_sub_c _ _ _ _ C). }
      assert (Vx : extra h v = N.lor (hash_bits h (rhp p)) (if k =? 0 then h_pbit h else 0))
        by (apply (make_extra h); assumption).
      rewrite A'. set (T2 := replace_nth (N.to_nat (pos q)) T1 v).
      exists T2. split; [reflexivity|].
      assert (G2 : forall r, r < sz -> get T2 (pos r) =
                 if r =? q then v else if r =? i then 0 else get T (pos r)).
      { intros r Hr. unfold T2. rewrite get_pos by auto. rewrite G1 by exact Hr. reflexivity. }
      assert (Kl' : forall j, hr p <= j -> j < q -> valid (get T (pos j)) = true).
      { intros j J1 J2. specialize (Kl (j - hr p) ltac:(lia)).
        replace (hr p + (j - hr p)) with j in Kl by lia. apply negb_false_iff in Kl.
        rewrite G1 in Kl by lia. destruct (N.eqb_spec j i); [lia|exact Kl]. }
      assert (Hqb : (pos q =? bucket h (rhp p)) = (k =? 0)).
      { rewrite <- (hr_pos p). destruct (N.eqb_spec k 0) as [K|K].
        - apply N.eqb_eq. unfold q. now rewrite K, N.add_0_r.
        - apply N.eqb_neq. intro E'. apply pos_inj in E'; [lia|exact Hqs|apply hr_lt]. }
      destruct M as [M1 M2 M3 M4 M5 M6]. constructor.
      - unfold len, T2 in *. now rewrite replace_length.
      - rewrite M2. transitivity (p :: map (raw h) (filter valid T1)).
        + apply (els_remove t Ht rehash); auto.
        + rewrite <- Vr at 1. apply (els_replace t Ht rehash); auto. rewrite L1. apply pos_lt.
      - intros r Hr. rewrite G2 by lia.
        destruct (N.eqb_spec r q).
        + intro D. rewrite D in Vv. discriminate Vv.
        + destruct (N.eqb_spec r i); [discriminate|apply M3; lia].
      - intros r Hr. rewrite G2 by lia.
        destruct (N.eqb_spec r q) as [-> |Nq].
        + intros _. rewrite Vr. split; [lia|]. intros j J1 J2. rewrite G2 by lia.
          destruct (N.eqb_spec j q); [exact Vv|]. destruct (N.eqb_spec j i); [lia|]. now apply Kl'.
        + destruct (N.eqb_spec r i) as [-> |Ni]; [discriminate|]. intro Vr'.
          destruct (M4 r ltac:(lia) Vr') as (R1 & R2). split; [exact R1|].
          intros j J1 J2. rewrite G2 by lia.
          destruct (N.eqb_spec j q); [exact Vv|]. destruct (N.eqb_spec j i); [lia|]. now apply R2.
      - intros r Hr1 Hr2. rewrite G2 by lia.
        destruct (N.eqb_spec r q); [lia|]. destruct (N.eqb_spec r i); [lia|]. apply M5; lia.
      - intros r Hr. rewrite G2 by lia.
        destruct (N.eqb_spec r q) as [-> |Nq].
        + intros _. rewrite Vr, Vx, Hqb. reflexivity.
        + destruct (N.eqb_spec r i) as [-> |Ni]; [discriminate|]. now apply M6.
    Qed.

    Lemma rehash_loop_ok : forall n i T, mid i T -> i + N.of_nat n = sz ->
      exists T', rehash_loop rehash n (set_table T h) start i = HtOk (set_table T' h) /\ mid sz T'.
    Proof.
      induction n as [|n IH]; intros i T M Hn.
      - exists T. split; [reflexivity|]. now replace sz with i by lia.
      - cbn [rehash_loop]. rewrite mask_mod, sz_set, (N.add_comm i start).
        rewrite load_ok; [|exact (co_inline _ _ _ _ C)|].
        2: { cbn [h_table set_table]. rewrite (mi_len _ _ M). apply pos_lt. }
        cbn [ht_bind h_table set_table].
        destruct (step_ok i T M ltac:(lia)) as (T1 & E1 & M1). cbv zeta in E1.
        change (raw (set_table T h)) with (raw h). change (h_pbit (set_table T h)) with (h_pbit h).
        rewrite E1. cbn [ht_bind]. apply IH; [exact M1|lia].
    Qed.

    Lemma mid_core : forall T, mid sz T -> core (set_table T h) els /\ nz T = N.of_nat (length els).
    Proof.
      intros T M. pose proof szp as Hz.
      assert (P : forall i, i < sz -> exists r, r < sz /\ i = pos r).
      { intros i Hi. apply (mod_reach sz Hz start i Hst Hi). }
      destruct M as [M1 M2 M3 M4 M5 M6]. pose proof C as C0. destruct C0 as [C1 C2 C3 C4 C5 C6 C7 C8].
      split.
      - constructor; rewrite ?sz_set; cbn [h_inline h_table h_cmask h_cbits h_pbit set_table]; auto.
        + intros i Hi Vi. destruct (P i Hi) as (r & Hr & ->). now apply M6.
        + intros i Hi Vi. destruct (P i Hi) as (r & Hr & ->).
          change (raw (set_table T h)) with (raw h). change (bucket (set_table T h)) with (bucket h).
          destruct (M4 r Hr Vi) as (R1 & R2). set (p := raw h (get T (pos r))) in *.
          exists (r - hr p). split; [lia|]. split.
          * rewrite bucket_step. f_equal. lia.
          * intros j Hj. rewrite bucket_step. specialize (R2 (hr p + j) ltac:(lia) ltac:(lia)).
            apply valid_nonz in R2. unfold nonz in R2. lia.
      - rewrite (Permutation_length M2), map_length. unfold nz. f_equal. f_equal.
        apply filter_ext_in. intros e He. destruct (in_get _ _ He) as (i & Hi & <-).
        rewrite M1 in Hi. destruct (P i Hi) as (r & Hr & ->). specialize (M3 r Hr).
        unfold nonz, valid, DELETED in *. lia.
    Qed.
  End REHASH.

  Lemma rehash_ok : forall h els, inv h els -> h_elems h + 1 <= h_max h ->
    exists h', rehash_table rehash h = HtOk h' /\ inv h' els /\ h_elems h' + 1 <= h_max h' /\
      h_elems h' + 1 + h_deleted h' <= h_maxd h' /\ h_max h' = h_max h.
  Proof.
    intros h els [C Iv Ib Im Imd Ie Il In_ Ic] Hm. unfold rehash_table.
    destruct (caps t Ht rehash (h_bits h) ltac:(lia)) as (K1 & K2 & _).
    assert (Hn : nz (h_table h) < len (h_table h)).
    { rewrite (co_len _ _ _ _ C). unfold size. lia. }
    destruct (empty_slot _ Hn) as (j & Hj & Ej).
    destruct (first_empty_ok h (co_inline _ _ _ _ C) (fuel_of h) 0 j) as (s & Es & Hs & E0); auto.
    { lia. }
    { unfold fuel_of, slots. rewrite (co_inline _ _ _ _ C). unfold len in Hj. lia. }
    rewrite Es. cbn [ht_bind]. rewrite (co_len _ _ _ _ C) in Hs.
    destruct (rehash_loop_ok h els C Iv s Hs E0 (N.to_nat (size h)) 0 (h_table h)) as (T & ET & MT).
    { apply mid0; assumption. }
    { lia. }
    replace (set_table (h_table h) h) with h in ET by (destruct h; reflexivity).
    rewrite ET. cbn [ht_bind]. destruct (mid_core h els C s Hs E0 T MT) as (CT & NT).
    eexists. split; [reflexivity|].
    cbn [h_table h_bits h_elems h_deleted h_max h_maxd h_cmask h_cbits h_pbit h_inline set_table].
    split; [|lia].
    constructor; cbn [h_table h_bits h_elems h_deleted h_max h_maxd h_cmask h_cbits h_pbit h_inline];
      auto; try lia.
    eapply core_ext; [exact CT|reflexivity..].
  Qed.

  (** ** Addition *)
  Lemma add_ok : forall ok h els p, state_ok t rehash h els -> top_is t p -> t <= 63 ->
    (805306368 <= N.of_nat (length els) /\ ht_add rehash ok h (rhp p) p = HtErr HtBig) \/
    (ok = false /\ h_max h < h_elems h + 1 /\ ht_add rehash ok h (rhp p) p = HtOk (h, false)) \/
    exists h', ht_add rehash ok h (rhp p) p = HtOk (h', true) /\ inv h' (p :: els) /\
      (h_elems h + 1 <= h_max h -> h_max h' = h_max h).
  Proof.
    intros ok h els p Hst Hp Ht63. unfold ht_add.
    assert (D : (805306368 <= N.of_nat (length els) /\
                  (if h_max h <? h_elems h + 1 then double_table rehash ok h else HtOk (h, true)) = HtErr HtBig) \/
                (ok = false /\ h_max h < h_elems h + 1 /\
                  (if h_max h <? h_elems h + 1 then double_table rehash ok h else HtOk (h, true)) = HtOk (h, false)) \/
                exists h', (if h_max h <? h_elems h + 1 then double_table rehash ok h else HtOk (h, true)) = HtOk (h', true)
                  /\ inv h' els /\ h_elems h' + 1 <= h_max h' /\ (h_elems h + 1 <= h_max h -> h_max h' = h_max h)).
    { destruct (N.ltb_spec (h_max h) (h_elems h + 1)) as [L|L].
      - destruct (double_ok t Ht rehash ok h els Hst L) as [(B1 & B2 & B3)|[(B1 & B2)|(h' & B1 & B2 & B3)]]; auto.
        2: { right. right. exists h'. split; [exact B1|]. split; [exact B2|]. split; [exact B3|]. intro. exfalso. lia. }
        left. split; [|exact B3]. destruct Hst as [[-> ->]|I]; [cbn in B1; discriminate|].
        rewrite <- (in_elems _ _ _ _ I). exact B2.
      - right. right. exists h. split; [reflexivity|].
        destruct Hst as [[-> _]|I]; [cbn in L; lia|]. auto. }
    destruct D as [(D1 & D2)|[(D1 & D3 & D2)|(h1 & D2 & I1 & L1 & L0)]]; rewrite D2; cbn [ht_bind negb]; auto.
    right. right.
    assert (R : exists h2, (if h_maxd h1 <? h_elems h1 + 1 + h_deleted h1 then rehash_table rehash h1 else HtOk h1) = HtOk h2
       /\ inv h2 els /\ h_elems h2 + 1 <= h_max h2 /\ h_elems h2 + 1 + h_deleted h2 <= h_maxd h2 /\ h_max h2 = h_max h1).
    { destruct (N.ltb_spec (h_maxd h1) (h_elems h1 + 1 + h_deleted h1)) as [L|L].
      - now apply rehash_ok.
      - exists h1. auto. }
    destruct R as (h2 & E2 & I2 & L2 & L3 & L4). rewrite E2. cbn [ht_bind].
    assert (P0 : p <> 0).
    { destruct Hp as [Hp _]. assert (2 ^ t <> 0) by (apply N.pow_nonzero; lia). lia. }
    destruct (N.eqb_spec p 0); [contradiction|].
    destruct (update_ok t Ht rehash h2 els p I2 Hp Ht63) as (h3 & E3 & I3 & H3 & H4 & Q1 & Q2 & Q3 & Q4).
    rewrite E3. cbn [ht_bind].
    destruct I3 as [C Iv Ib Im Imd Ie Il In_ Ic].
    destruct (caps t Ht rehash (h_bits h3) ltac:(lia)) as (K1 & K2 & _).
    destruct (add_raw_core t Ht rehash h3 els p C H3 Hp H4) as (T & ET & CT & NT).
    { destruct (empty_slot (h_table h3)) as (i & Hi & E).
      - rewrite (co_len _ _ _ _ C). unfold size. lia.
      - exists i. rewrite (co_len _ _ _ _ C) in Hi. rewrite E. auto. }
    rewrite ET. cbn [ht_bind]. eexists. split; [reflexivity|].
    split; [|intro Hr; cbn [h_max set_table]; rewrite Q3, L4; auto].
    constructor; cbn [h_table h_bits h_elems h_deleted h_max h_maxd h_cmask h_cbits h_pbit h_inline set_table];
      auto; try lia.
    - eapply core_ext; [exact CT|reflexivity..].
    - left. exact H3.
    - cbn [length]. lia.
  Qed.

  (** ** Removal *)
  Lemma get_init : forall hash cmp, ht_get ht_init hash cmp = HtOk None.
  Proof.
    intros. unfold ht_get, find_val, firstval, val, fuel_of, bucket.
    rewrite mask_mod. replace (hash mod size ht_init) with 0; [reflexivity|].
    change (size ht_init) with 1. now rewrite N.mod_1_r.
  Qed.
  Lemma find_init : forall hash cmp, find_val ht_init hash cmp = HtOk None.
  Proof.
    intros. unfold find_val, firstval, val, fuel_of, bucket.
    rewrite mask_mod. replace (hash mod size ht_init) with 0; [reflexivity|].
    change (size ht_init) with 1. now rewrite N.mod_1_r.
  Qed.
  Lemma inv_room : forall h els, inv h els -> nz (h_table h) < size h.
  Proof.
    intros h els I. destruct (caps t Ht rehash (h_bits h)) as (K1 & K2 & _); [pose proof (in_bits _ _ _ _ I); lia|].
    pose proof (in_nz _ _ _ _ I). pose proof (in_cap _ _ _ _ I). pose proof (in_maxd _ _ _ _ I).
    unfold size. lia.
  Qed.

  Lemma del_ok : forall h els p, state_ok t rehash h els ->
    (~ In p els /\ ht_del h (rhp p) p = HtOk (h, false)) \/
    exists h' els', ht_del h (rhp p) p = HtOk (h', true) /\ Permutation els (p :: els') /\ inv h' els' /\
      h_max h' = h_max h.
  Proof.
    intros h els p [[-> ->]|I].
    { left. split; [auto|]. unfold ht_del. now rewrite find_init. }
    pose proof (inv_room h els I) as Hn. pose proof (size_pos h) as Hs.
    destruct I as [C Iv Ib Im Imd Ie Il In_ Ic].
    destruct (probe_end t Ht rehash h els (rhp p) C Hn) as (z & Z1 & Z2 & Z3).
    destruct (find_val_ok t Ht rehash h els C (rhp p) z Z1 Z2 Z3 (N.eqb p)) as (r & Er & Fr).
    unfold ht_del. rewrite Er. cbn [ht_bind].
    destruct r as [[off p']|].
    - right. destruct Fr as (k & F1 & F2 & F3 & F4 & F5).
      apply N.eqb_eq in F5. rewrite <- F5 in F3. clear F5.
      assert (Ho : off < size h) by (rewrite F2; apply N.mod_lt; lia).
      assert (Vo : valid (get (h_table h) off) = true)
        by (rewrite F2; exact (hit_valid t Ht h (rhp p) z Z1 Z2 Z3 k F1 F4)).
      rewrite <- F2 in F3.
      unfold delval. destruct (N.ltb_spec off (size h)); [|lia]. cbn [negb].
      rewrite load_ok; [|exact (co_inline _ _ _ _ C)|rewrite (co_len _ _ _ _ C); exact Ho].
      cbn [ht_bind]. rewrite Vo. cbn [negb].
      rewrite store_ok; [|exact (co_inline _ _ _ _ C)|rewrite (co_len _ _ _ _ C); exact Ho].
      cbn [ht_bind].
      set (T := replace_nth (N.to_nat off) (h_table h) DELETED).
      set (els' := map (raw h) (filter valid T)).
      assert (Pe : Permutation els (p :: els')).
      { rewrite (co_els _ _ _ _ C), F3. apply (els_remove t Ht rehash); auto. now rewrite (co_len _ _ _ _ C). }
      do 2 eexists. split; [reflexivity|]. split; [exact Pe|]. split; [|reflexivity].
      pose proof (Permutation_length Pe) as Pl. cbn [length] in Pl.
      destruct (caps t Ht rehash (h_bits h) ltac:(lia)) as (K1 & K2 & _).
      assert (B30 : 2 ^ h_bits h <= 2 ^ 30) by (apply N.pow_le_mono_r; lia).
      change (2 ^ 30) with 1073741824 in B30.
      assert (Es : sub64 (h_elems h) 1 = h_elems h - 1).
      { unfold sub64. change (1 mod w64) with 1.
        replace (h_elems h + w64 - 1) with (h_elems h - 1 + 1 * w64) by (unfold w64; lia).
        rewrite N.mod_add by discriminate. apply N.mod_small. unfold w64. lia. }
      assert (Zr : nz T = nz (h_table h)).
      { pose proof (nz_replace t Ht rehash (h_table h) off DELETED ltac:(now rewrite (co_len _ _ _ _ C))) as X.
        rewrite (valid_nonz _ Vo) in X. cbn [nonz] in X. change (nonz DELETED) with true in X.
        fold T in X. cbv iota in X. lia. }
      constructor;
        cbn [h_table h_bits h_elems h_deleted h_max h_maxd h_cmask h_cbits h_pbit h_inline set_table];
        auto; try lia.
      + apply (core_ext t rehash (set_table T h)); try reflexivity.
        destruct C as [C1 C2 C3 C4 C5 C6 C7 C8].
        constructor; rewrite ?sz_set; cbn [h_inline h_table h_cmask h_cbits h_pbit set_table]; auto.
        * unfold len, T in *. now rewrite replace_length.
        * rewrite Forall_forall in *. intros x Hx. apply C5.
          apply (Permutation_in _ (Permutation_sym Pe)). now right.
        * intros i Hi. unfold T. rewrite get_replace by (now rewrite C2).
          destruct (N.eqb_spec i off); [discriminate|]. now apply C7.
        * intros i Hi. unfold T. rewrite get_replace by (now rewrite C2).
          destruct (N.eqb_spec i off); [discriminate|]. intro Vi.
          destruct (C8 i Hi Vi) as (k1 & B1 & B2 & B3). exists k1. split; [exact B1|].
          split; [exact B2|]. intros j Hj. rewrite get_replace by (now rewrite C2).
          match goal with |- context [N.eqb ?x off] => destruct (N.eqb_spec x off) end; [discriminate|].
          now apply B3.
      + destruct Iv as [Iv|(Iv & _)]; [left; exact Iv|]. exfalso. rewrite Iv in Pl. discriminate Pl.
    - left. split; [|reflexivity]. intro Hin.
      destruct (els_get t rehash h els p C Hin) as (i & Hi & Vi & Ei).
      destruct (member_hit t Ht rehash h els C (rhp p) z Z1 Z2 Z3 i Hi Vi) as (k & K1 & K2 & K3).
      { now rewrite Ei. }
      specialize (Fr k K1 K3). rewrite <- K2, Ei, N.eqb_refl in Fr. discriminate Fr.
  Qed.

  (** ** Observation *)
  Lemma iter_ok : forall h els, core h els -> forall fuel i, i <= size h ->
    (N.to_nat (size h - i) <= fuel)%nat ->
    iter_loop fuel h i = HtOk (map (raw h) (filter valid (skipn (N.to_nat i) (h_table h)))).
  Proof.
    intros h els C. pose proof (co_len _ _ _ _ C) as Hl. unfold len in Hl.
    induction fuel as [|fuel IH]; intros i Hi Hf; cbn [iter_loop];
      destruct (N.ltb_spec i (size h)) as [L|L]; try lia.
    - rewrite skipn_all2 by lia. reflexivity.
    - rewrite load_ok; [|exact (co_inline _ _ _ _ C)|unfold len; lia]. cbn [ht_bind].
      rewrite IH by lia. cbn [ht_bind].
      assert (Sk : skipn (N.to_nat i) (h_table h) = get (h_table h) i :: skipn (N.to_nat (i + 1)) (h_table h)).
      { unfold get. replace (N.to_nat (i + 1)) with (S (N.to_nat i)) by lia.
        assert (G : forall n l, (n < length l)%nat -> skipn n l = nth n l 0 :: skipn (S n) l).
        { clear. induction n; intros [|x l] H; cbn in *; try lia; [reflexivity|]. apply IHn. lia. }
        apply G. lia. }
      rewrite Sk. cbn [filter]. destruct (valid (get (h_table h) i)); reflexivity.
    - rewrite skipn_all2 by lia. reflexivity.
  Qed.

  Lemma shows_ok : forall h els, state_ok t rehash h els -> shows rehash h els.
  Proof.
    intros h els [[-> ->]|I].
    - split; [reflexivity|]. split.
      + exists []. split; [reflexivity|constructor].
      + intros hash cmp. exists None. split; [apply get_init|]. intros p [].
    - pose proof (in_core _ _ _ _ I) as C. split; [exact (in_elems _ _ _ _ I)|]. split.
      + eexists. unfold iterate. split.
        * rewrite (iter_ok h els C); [reflexivity|lia|].
          unfold fuel_of, slots. rewrite (co_inline _ _ _ _ C). pose proof (co_len _ _ _ _ C) as L.
          unfold len in L. lia.
        * cbn [N.to_nat skipn]. symmetry. exact (co_els _ _ _ _ C).
      + intros hash cmp. apply (get_ok t Ht rehash h els hash cmp C). eapply inv_room; eauto.
  Qed.

  (** ** Histories *)
  Lemma run_ok : forall os h els, t <= 63 -> state_ok t rehash h els ->
    Forall (fun o => top_is t (op_ptr o)) os ->
    N.of_nat (length els) + N.of_nat (length os) <= 805306368 ->
    exists h' rs els', run_ops rehash os h = HtOk (h', rs) /\ explains os rs els els' /\
      state_ok t rehash h' els'.
  Proof.
    induction os as [|o os IH]; intros h els Ht63 Hst Ho Hl.
    - exists h, [], els. repeat split; auto. constructor.
    - inversion Ho as [|o' os' Hp Ho' Eo]. subst o' os'. cbn [length] in Hl. cbn [run_ops].
      destruct o as [ok p|p]; cbn [run_op op_ptr] in *.
      + destruct (add_ok ok h els p Hst Hp Ht63) as [(B1 & _)|[(-> & _ & B2)|(h1 & B1 & B2 & _)]]; [lia| |].
        * rewrite B2. destruct (IH h els Ht63 Hst Ho') as (h' & rs & els' & E1 & E2 & E3); [lia|].
          rewrite E1. exists h', (false :: rs), els'. repeat split; auto. now constructor.
        * rewrite B1.
          destruct (IH h1 (p :: els) Ht63 (or_intror B2) Ho') as (h' & rs & els' & E1 & E2 & E3).
          { cbn [length]. lia. }
          rewrite E1. exists h', (true :: rs), els'. repeat split; auto. now constructor.
      + destruct (del_ok h els p Hst) as [(B1 & B2)|(h1 & els1 & B1 & B2 & B3 & _)].
        * rewrite B2. destruct (IH h els Ht63 Hst Ho') as (h' & rs & els' & E1 & E2 & E3); [lia|].
          rewrite E1. exists h', (false :: rs), els'. repeat split; auto. now constructor.
        * rewrite B1. destruct (IH h1 els1 Ht63 (or_intror B3) Ho') as (h' & rs & els' & E1 & E2 & E3).
          { pose proof (Permutation_length B2) as Pl. cbn [length] in Pl. lia. }
          rewrite E1. exists h', (true :: rs), els'. repeat split; auto.
          econstructor; eauto.
  Qed.

  (** While the reserved size is not used up, no allocation is needed. *)
  Lemma reserved_ok : forall os h els h' rs, t <= 63 -> inv h els ->
    Forall (fun o => top_is t (op_ptr o)) os ->
    h_elems h + adds os <= h_max h -> run_ops rehash os h = HtOk (h', rs) ->
    forall i ok p, nth_error os i = Some (OpAdd ok p) -> nth_error rs i = Some true.
  Proof.
    induction os as [|o os IH]; intros h els h' rs Ht63 I Ho Hl E i ok p Hi; [destruct i; discriminate Hi|].
    inversion Ho as [|o' os' Hp Ho' Eo]. subst o' os'. cbn [run_ops] in E.
    pose proof (in_elems _ _ _ _ I) as Ie.
    destruct o as [ok1 p1|p1]; cbn [run_op op_ptr adds] in *.
    - destruct (add_ok ok1 h els p1 (or_intror I) Hp Ht63) as [(B1 & B2)|[(_ & B1 & _)|(h1 & B1 & B2 & B3)]].
      + rewrite B2 in E. discriminate E.
      + exfalso. lia.
      + rewrite B1 in E. destruct (run_ops rehash os h1) as [[h2 rs2]|] eqn:E2; [|discriminate E].
        injection E as <- <-. destruct i as [|i]; [reflexivity|].
        cbn [nth_error] in *. eapply IH; eauto. rewrite B3 by lia.
        rewrite (in_elems _ _ _ _ B2). cbn [length]. lia.
    - destruct i as [|i]; [discriminate Hi|]. cbn [nth_error] in Hi.
      destruct (del_ok h els p1 (or_intror I)) as [(_ & B2)|(h1 & els1 & B1 & B2 & B3 & B4)].
      + rewrite B2 in E. destruct (run_ops rehash os h) as [[h2 rs2]|] eqn:E2; [|discriminate E].
        injection E as <- <-. cbn [nth_error]. eapply IH; eauto.
      + rewrite B1 in E. destruct (run_ops rehash os h1) as [[h2 rs2]|] eqn:E2; [|discriminate E].
        injection E as <- <-. cbn [nth_error]. eapply IH; eauto. rewrite B4.
        rewrite (in_elems _ _ _ _ B3). pose proof (Permutation_length B2) as Pl. cbn [length] in Pl. lia.
  Qed.
End TOP.

Lemma size_loop_range : forall n b e, 1 <= b <= 30 -> 1 <= size_loop n b e <= 30.
Proof.
  induction n; intros b e Hb; cbn [size_loop]; [exact Hb|].
  destruct (_ <? e); [|exact Hb]. destruct (N.eqb_spec b 30); [exact Hb|]. apply IHn. lia.
Qed.
Lemma sized_ok : forall t rehash expect, 1 <= t -> state_ok t rehash (fst (ht_init_sized true expect)) [].
Proof.
  intros. right. unfold ht_init_sized. cbn [fst].
  pose proof (size_loop_range 30 1 expect ltac:(lia)) as Hb. set (b := size_loop 30 1 expect) in *.
  constructor; cbn [h_table h_bits h_elems h_deleted h_max h_maxd h_cmask h_cbits h_pbit h_inline]; auto; try lia.
  - apply fresh_core; [assumption|reflexivity..].
  - right. auto.
  - unfold nz. rewrite filter_repeat by reflexivity. cbn. lia.
Qed.

Lemma history : forall rehash t os h, 1 <= t <= 63 ->
  (h = ht_init \/ exists expect, h = fst (ht_init_sized true expect)) ->
  Forall (fun o => top_is t (op_ptr o)) os -> N.of_nat (length os) <= 805306368 ->
  exists h' rs c, run_ops rehash os h = HtOk (h', rs) /\ explains os rs [] c /\ shows rehash h' c.
Proof.
  intros rehash t os h [Ht1 Ht2] Hh Ho Hl.
  assert (Hst : state_ok t rehash h []).
  { destruct Hh as [-> |(expect & ->)]; [left; auto|now apply sized_ok]. }
  destruct (run_ok t Ht1 rehash os h [] Ht2 Hst Ho) as (h' & rs & c & E1 & E2 & E3).
  { cbn [length]. lia. }
  exists h', rs, c. split; [exact E1|]. split; [exact E2|]. now apply (shows_ok t Ht1 rehash).
Qed.

Lemma size_loop_enough : forall n b e, 1 <= b <= 30 -> 30 <= b + N.of_nat n -> e <= 805306368 ->
  e <= max_of (size_loop n b e).
Proof.
  induction n; intros b e Hb Hn He; cbn [size_loop].
  - replace b with 30 by lia. exact He.
  - destruct (N.ltb_spec (max_of b) e); [|assumption].
    destruct (N.eqb_spec b 30) as [-> |]; [exact He|]. apply IHn; lia.
Qed.
Lemma sized_inv : forall t rehash expect, 1 <= t -> inv t rehash (fst (ht_init_sized true expect)) [].
Proof.
  intros t rehash expect H. destruct (sized_ok t rehash expect H) as [[E _]|I]; [discriminate E|exact I].
Qed.
Lemma reserved : forall rehash t os expect h rs, 1 <= t <= 63 -> expect <= 805306368 ->
  Forall (fun o => top_is t (op_ptr o)) os -> adds os <= expect ->
  run_ops rehash os (fst (ht_init_sized true expect)) = HtOk (h, rs) ->
  forall i ok p, nth_error os i = Some (OpAdd ok p) -> nth_error rs i = Some true.
Proof.
  intros rehash t os expect h rs [Ht1 Ht2] He Ho Ha E.
  apply (reserved_ok t Ht1 rehash os _ [] h rs Ht2 (sized_inv t rehash expect Ht1) Ho); [|exact E].
  unfold ht_init_sized. cbn [fst h_elems h_max].
  pose proof (size_loop_enough 30 1 expect). lia.
Qed.
