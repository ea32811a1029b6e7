(** The hash table: growing, rehashing, changing the common bits, removal. *)
Require Import NArith ZArith List Bool Lia Permutation.
Require Import ZifyBool ZifyN ZifyNat.
Require Import Verif.Word Verif.Htable_Model Verif.Htable_Spec Verif.Htable_Proofs.
Import ListNotations.
Local Open Scope N_scope.

Lemma get_repeat : forall n i, get (repeat 0 n) i = 0.
Proof. intros. unfold get. apply nth_repeat. Qed.
Lemma filter_repeat : forall (f : N -> bool) n, f 0 = false -> filter f (repeat 0 n) = [].
Proof. induction n; cbn; intro E; [reflexivity|]. rewrite E. auto. Qed.

Section TOP.
  Variable t : N.
  Hypothesis Ht : 1 <= t.
  Variable rehash : N -> N.
  Notation rhp p := (rh rehash p).
  Notation core := (core t rehash).
  Notation hid := (hid t).

  Lemma raw_common : forall h e, sub_of (h_cbits h) (h_cmask h) ->
    N.land (raw h e) (h_cmask h) = h_cbits h.
  Proof.
    intros h e Hc. unfold raw. bits. pose proof (sub_b _ _ Hc n) as Hn.
    destruct (N.testbit (h_cmask h) n), (N.testbit e n), (N.testbit (h_cbits h) n); auto;
      discriminate (Hn eq_refl).
  Qed.

  (** ** Doubling *)
  Lemma readd_ok : forall old h acc, core h acc ->
    (forall e, In e old -> valid e = true -> top_is t (raw h e) /\ hid h) ->
    nz (h_table h) + vd old < size h ->
    exists T, readd rehash h old = HtOk (set_table T h) /\
      core (set_table T h) (rev (map (raw h) (filter valid old)) ++ acc) /\
      nz T <= nz (h_table h) + vd old.
  Proof.
    induction old as [|e old IH]; intros h acc C Ho Hn.
    - exists (h_table h). cbn. split; [destruct h; reflexivity|]. split; [destruct h; exact C|].
      unfold vd. cbn. lia.
    - cbn [readd filter]. unfold vd in *. cbn [filter] in Hn |- *.
      destruct (valid e) eqn:V.
      + cbn [length map rev] in Hn |- *.
        destruct (Ho e (or_introl eq_refl) V) as [Hp Hh].
        destruct (add_raw_core t Ht rehash h acc (raw h e) C Hh Hp (raw_common h e (co_sub_c _ _ _ _ C)))
          as (T & E1 & C1 & N1).
        { rewrite <- (co_len _ _ _ _ C) in Hn.
          destruct (empty_slot (h_table h)) as (i & Hi & E); [lia|].
          rewrite (co_len _ _ _ _ C) in Hi. exists i. rewrite E. auto. }
        rewrite E1. cbn [ht_bind].
        destruct (IH (set_table T h) (raw h e :: acc) C1) as (T' & E2 & C2 & N2).
        { intros e' He'. apply Ho. now right. }
        { rewrite sz_set. cbn [h_table set_table]. lia. }
        rewrite E2. exists T'. split; [reflexivity|]. split.
        * rewrite <- app_assoc. exact C2.
        * cbn [h_table set_table] in N2. lia.
      + destruct (IH h acc C) as (T' & E2 & C2 & N2).
        { intros e' He'. apply Ho. now right. }
        { exact Hn. }
        cbn [ht_bind]. rewrite E2. exists T'. auto.
  Qed.

  Lemma lowest_sub : forall n m i, sub_of (lowest n m i) m.
  Proof.
    induction n; intros m i; cbn [lowest]; [reflexivity|].
    destruct (N.testbit m i) eqn:E; [|apply IHn].
    apply sub_bit. intros k Hk. rewrite N.pow2_bits_eqb in Hk. now replace k with i by lia.
  Qed.

  Lemma core_perm : forall h a b, Permutation a b -> core h a -> core h b.
  Proof.
    intros h a b P [C1 C2 C3 C4 C5 C6 C7 C8]. constructor; auto.
    - eapply Permutation_Forall; eauto.
    - rewrite <- P. exact C6.
  Qed.
  Lemma core_ext : forall h h' els, core h els -> h_bits h' = h_bits h -> h_cmask h' = h_cmask h ->
    h_cbits h' = h_cbits h -> h_pbit h' = h_pbit h -> h_inline h' = h_inline h ->
    h_table h' = h_table h -> core h' els.
  Proof.
    intros [b e d m md cm cb pb il T] [b' e' d' m' md' cm' cb' pb' il' T'] els C.
    cbn. intros -> -> -> -> -> ->. destruct C as [C1 C2 C3 C4 C5 C6 C7 C8].
    constructor; assumption.
  Qed.

  (** A table freshly allocated. *)
  Lemma fresh_core : forall b e d m md cm cb pb, sub_of pb cm -> sub_of cb cm ->
    core (mk_ht b e d m md cm cb pb false (repeat 0 (N.to_nat (2 ^ b)))) [].
  Proof.
    intros. constructor; cbn [h_table h_bits h_elems h_deleted h_max h_maxd h_cmask h_cbits h_pbit h_inline]; auto.
    - unfold len, size. cbn [h_table h_bits h_elems h_deleted h_max h_maxd h_cmask h_cbits h_pbit h_inline]. rewrite repeat_length. lia.
    - rewrite filter_repeat by reflexivity. constructor.
    - intros i _ V. rewrite get_repeat in V. discriminate V.
    - intros i _ V. rewrite get_repeat in V. discriminate V.
  Qed.

  Definition vis (h : ht) (els : list N) : Prop :=
    hid h \/ (els = [] /\ h_cmask h = ones64 /\ h_cbits h = 0).
  Record inv (h : ht) (els : list N) : Prop := {
    in_core : core h els;
    in_vis : vis h els;
    in_bits : 1 <= h_bits h <= 30;
    in_max : h_max h = max_of (h_bits h);
    in_maxd : h_maxd h = maxd_of (h_bits h);
    in_elems : h_elems h = N.of_nat (length els);
    in_le : h_elems h <= h_max h;
    in_nz : nz (h_table h) <= h_elems h + h_deleted h;
    in_cap : h_elems h + h_deleted h <= h_maxd h }.
  (** Every state of a table: as initialised, or with a table. *)
  Definition state_ok (h : ht) (els : list N) : Prop := (h = ht_init /\ els = []) \/ inv h els.

  Lemma caps : forall b, 1 <= b ->
    max_of b <= maxd_of b /\ maxd_of b < 2 ^ b /\ max_of b + 1 <= max_of (b + 1).
  Proof.
    intros b Hb. unfold max_of, maxd_of. rewrite !N.shiftl_mul_pow2.
    rewrite (N.add_1_r b), N.pow_succ_r'.
    assert (P : 2 <= 2 ^ b).
    { change 2 with (2 ^ 1) at 1. apply N.pow_le_mono_r; lia. }
    revert P. generalize (2 ^ b). intros x P. repeat split.
    - apply N.div_le_lower_bound; [lia|].
      pose proof (N.mul_div_le (3 * x) 4 ltac:(lia)). lia.
    - apply N.div_lt_upper_bound; lia.
    - apply N.div_le_lower_bound; [lia|].
      pose proof (N.mul_div_le (3 * x) 4 ltac:(lia)). lia.
  Qed.
  Lemma elems_vd : forall h els, core h els -> N.of_nat (length els) = vd (h_table h).
  Proof.
    intros h els C. unfold vd. rewrite (Permutation_length (co_els _ _ _ _ C)), map_length. reflexivity.
  Qed.

  Lemma double_ok : forall ok h els, state_ok h els -> h_max h < h_elems h + 1 ->
    (h_bits h = 30 /\ 805306368 <= h_elems h /\ double_table rehash ok h = HtErr HtBig) \/
    (ok = false /\ double_table rehash ok h = HtOk (h, false)) \/
    exists h', double_table rehash ok h = HtOk (h', true) /\ inv h' els /\ h_elems h' + 1 <= h_max h'.
  Proof.
    intros ok h els Hst Hm. unfold double_table.
    destruct (N.leb_spec 31 (h_bits h + 1)) as [L|L].
    { left. destruct Hst as [[-> _]|I]; [cbn in L; lia|].
      pose proof (in_bits _ _ I). assert (E : h_bits h = 30) by lia.
      split; [exact E|]. split; [|reflexivity].
      pose proof (in_max _ _ I) as M. rewrite E in M.
      change (max_of 30) with 805306368 in M. lia. }
    right. destruct ok; [|left; auto]. right. cbn [negb].
    set (pb := if _ && _ then _ else _).
    destruct Hst as [[-> ->]|I].
    - eexists. cbn [h_inline ht_init ht_bind h_bits h_elems]. split; [reflexivity|].
      cbn [h_table h_bits h_elems h_deleted h_max h_maxd h_cmask h_cbits h_pbit h_inline].
      split; [|cbn; discriminate].
      constructor; cbn [h_table h_bits h_elems h_deleted h_max h_maxd h_cmask h_cbits h_pbit h_inline];
        try (cbn; discriminate); try reflexivity.
      + apply fresh_core; [|reflexivity]. subst pb. cbn. reflexivity.
      + right. auto.
      + cbn. split; discriminate.
    - destruct I as [C Iv Ib Im Imd Ie Il In_ Ic]. rewrite (co_inline _ _ _ _ C).
      assert (Sp : sub_of pb (h_cmask h)).
      { subst pb. destruct (_ && _); [apply lowest_sub|exact (co_sub_p _ _ _ _ C)]. }
      set (h1 := mk_ht _ _ _ _ _ _ _ _ _ _).
      destruct (caps (h_bits h) ltac:(lia)) as (K1 & K2 & K3).
      destruct (caps (h_bits h + 1) ltac:(lia)) as (K4 & K5 & _).
      assert (C1 : core h1 []) by (apply fresh_core; [exact Sp|exact (co_sub_c _ _ _ _ C)]).
      assert (Z1 : nz (h_table h1) = 0)
        by (unfold nz; cbn [h_table h1]; rewrite filter_repeat by reflexivity; reflexivity).
      pose proof (elems_vd h els C) as Ev.
      destruct (readd_ok (h_table h) h1 [] C1) as (T & E2 & C2 & N2).
      { intros e He V. change (raw h1 e) with (raw h e).
        assert (Hin : In (raw h e) els).
        { apply (Permutation_in _ (Permutation_sym (co_els _ _ _ _ C))), in_map, filter_In. auto. }
        split.
        - pose proof (co_top _ _ _ _ C) as Ft. rewrite Forall_forall in Ft. auto.
        - destruct Iv as [Iv|[-> _]]; [exact Iv|destruct Hin]. }
      { rewrite Z1. unfold size. cbn [h_bits h1]. lia. }
      rewrite E2. cbn [ht_bind]. eexists. split; [reflexivity|].
      cbn [h_table h_bits h_elems h_deleted h_max h_maxd h_cmask h_cbits h_pbit h_inline set_table h1].
      split; [|lia].
      constructor; cbn [h_table h_bits h_elems h_deleted h_max h_maxd h_cmask h_cbits h_pbit h_inline];
        auto; try lia.
      + rewrite app_nil_r in C2. change (raw h1) with (raw h) in C2.
        eapply core_perm; [|eapply core_ext; [exact C2|reflexivity..]].
        rewrite <- Permutation_rev. symmetry. exact (co_els _ _ _ _ C).
  Qed.

  (** ** Changing the common bits *)
  Lemma top_bit_ok : forall p, top_is t p -> t <= 63 -> top_bit 63 p = t.
  Proof.
    intros p Hp Ht63.
    assert (G : forall n, t <= N.of_nat n -> top_bit n p = t).
    { induction n as [|n IH]; intro Hn; [lia|]. cbn [top_bit].
      destruct (N.testbit p (N.of_nat (S n))) eqn:E.
      - destruct (N.eq_dec (N.of_nat (S n)) t) as [D|D]; [exact D|]. exfalso.
        assert (Hlt : p < 2 ^ N.of_nat (S n)).
        { destruct Hp as [_ Hp]. eapply N.lt_le_trans; [exact Hp|]. apply N.pow_le_mono_r; lia. }
        rewrite N.testbit_true in E. rewrite N.div_small in E by exact Hlt. discriminate E.
      - apply IH. destruct (N.eq_dec t (N.of_nat (S n))) as [D|D]; [|lia].
        rewrite <- D in E. rewrite (top_bit_set t Ht p Hp) in E. discriminate E. }
    apply G. lia.
  Qed.

  Lemma update_ok : forall h els p, inv h els -> top_is t p -> t <= 63 ->
    exists h', (if N.land p (h_cmask h) =? h_cbits h then HtOk h else update_common h p) = HtOk h' /\
      inv h' els /\ hid h' /\ N.land p (h_cmask h') = h_cbits h' /\
      h_elems h' = h_elems h /\ h_deleted h' = h_deleted h /\ h_max h' = h_max h /\ h_maxd h' = h_maxd h.
  Proof.
    intros h els p I Hp Ht63. destruct (N.eqb_spec (N.land p (h_cmask h)) (h_cbits h)) as [E|E].
    - exists h. split; [reflexivity|]. split; [exact I|]. split; [|auto 10].
      destruct (in_vis _ _ I) as [V|(_ & V1 & V2)]; [exact V|]. exfalso.
      rewrite V1, V2 in E. assert (B := f_equal (fun x => N.testbit x t) E). cbn beta in B.
      rewrite N.land_spec, N.bits_0, (top_bit_set t Ht p Hp) in B. cbn [andb] in B.
      change ones64 with (N.ones 64) in B. rewrite N.ones_spec_low in B by lia. discriminate B.
    - unfold update_common. destruct I as [C Iv Ib Im Imd Ie Il In_ Ic].
      destruct (N.eqb_spec (h_elems h) 0) as [E0|E0].
      + assert (els = []) by (destruct els; [reflexivity|cbn in Ie; lia]). subst els.
        eexists. split; [reflexivity|].
        cbn [h_table h_bits h_elems h_deleted h_max h_maxd h_cmask h_cbits h_pbit h_inline].
        rewrite (top_bit_ok p Hp Ht63).
        assert (Hd : N.testbit (N.ldiff ones64 (2 ^ t)) t = false).
        { rewrite N.ldiff_spec, N.pow2_bits_true. apply andb_false_r. }
        split; [|repeat split; auto].
        assert (NV : forall i, i < size h -> valid (get (h_table h) i) = true -> False).
        { intros i Hi V. destruct (get_els t rehash h [] i C Hi V). }
        constructor; cbn [h_table h_bits h_elems h_deleted h_max h_maxd h_cmask h_cbits h_pbit h_inline];
          auto; try (left; exact Hd).
        destruct C as [C1 C2 C3 C4 C5 C6 C7 C8].
        constructor; cbn [h_table h_bits h_elems h_deleted h_max h_maxd h_cmask h_cbits h_pbit h_inline]; auto.
        * apply sub_bit. intros n. destruct n as [|n]; [|destruct n; discriminate].
          intros _. rewrite N.ldiff_spec. rewrite N.pow2_bits_false by lia. reflexivity.
        * apply sub_bit. intros n. rewrite N.land_spec. intro B. apply andb_prop in B. tauto.
        * apply Permutation_nil in C6. apply map_eq_nil in C6. rewrite C6. constructor.
        * intros i Hi V. exfalso. eapply NV; eauto.
        * intros i Hi V. exfalso. eapply NV; eauto.
      + rewrite (co_inline _ _ _ _ C).
        assert (Hh : hid h).
        { destruct Iv as [V|(-> & _)]; [exact V|]. cbn in Ie. lia. }
        set (md := N.lxor (h_cbits h) (N.land p (h_cmask h))).
        set (bd := N.land (h_cbits h) md).
        set (f := fun e => if valid e then N.lor (N.ldiff e md) bd else e).
        eexists. split; [reflexivity|].
        set (h1 := mk_ht _ _ _ _ _ _ _ _ _ _).
        destruct C as [C1 C2 C3 C4 C5 C6 C7 C8].
        assert (Smd : sub_of md (h_cmask h)).
        { apply sub_bit. intros n. subst md. rewrite N.lxor_spec, N.land_spec.
          pose proof (sub_b _ _ C4 n) as Hn.
          destruct (N.testbit (h_cbits h) n); [auto|].
          destruct (N.testbit (h_cmask h) n); [auto|]. rewrite andb_false_r. discriminate. }
        assert (Hmt : N.testbit md t = false).
        { destruct (N.testbit md t) eqn:Em; [|reflexivity].
          pose proof (sub_b _ _ Smd t Em) as B. unfold Htable_Proofs.hid in Hh. congruence. }
        assert (Fraw : forall e, valid e = true -> raw h1 (f e) = raw h e).
        { intros e V. subst f. cbn beta. rewrite V. unfold raw, h1. cbn [h_cmask h_cbits]. subst bd.
          bits. pose proof (sub_b _ _ C4 n) as Hn. pose proof (sub_b _ _ Smd n) as Hm.
          destruct (N.testbit md n), (N.testbit (h_cmask h) n), (N.testbit (h_cbits h) n), (N.testbit e n);
            auto; try discriminate (Hn eq_refl); try discriminate (Hm eq_refl). }
        assert (Fval : forall i, i < size h -> valid (f (get (h_table h) i)) = valid (get (h_table h) i)).
        { intros i Hi. subst f. cbn beta. destruct (valid (get (h_table h) i)) eqn:V; [|exact V].
          apply (bit_valid t Ht). rewrite N.lor_spec, N.ldiff_spec, Hmt.
          assert (Hin : In (raw h (get (h_table h) i)) els).
          { apply (get_els t rehash h els i); [constructor; assumption|exact Hi|exact V]. }
          rewrite Forall_forall in C5. pose proof (top_bit_set t Ht _ (C5 _ Hin)) as B.
          unfold raw in B. rewrite N.lor_spec, N.ldiff_spec in B.
          unfold Htable_Proofs.hid in Hh. rewrite Hh in B. cbn [negb andb] in *.
          pose proof (sub_b _ _ C4 t) as Hct. rewrite Hh in Hct.
          destruct (N.testbit (h_cbits h) t); [discriminate (Hct eq_refl)|].
          rewrite orb_false_r in B. now rewrite B. }
        assert (Fget : forall i, i < size h -> get (map f (h_table h)) i = f (get (h_table h) i)).
        { intros i Hi. unfold get. rewrite (nth_indep _ 0 (f 0)).
          - apply map_nth.
          - rewrite map_length. unfold len in C2. lia. }
        assert (Fnz : forall e, f e = 0 -> valid e = true -> False \/ e = 0 \/ valid (f e) = false).
        { intros e E1 _. right. right. now rewrite E1. }
        assert (Fz : forall i, i < size h -> f (get (h_table h) i) = 0 -> get (h_table h) i = 0).
        { intros i Hi E1. specialize (Fval i Hi). rewrite E1 in Fval.
          subst f. cbn beta in E1. rewrite <- Fval in E1. exact E1. }
        assert (Fhb : forall x, hash_bits h1 x = N.land (hash_bits h x) (h_cmask h1)).
        { intro x. unfold hash_bits, h1. cbn [h_bits h_cmask h_pbit]. bits.
          pose proof (sub_b _ _ Smd n) as Hm.
          destruct (N.testbit md n), (N.testbit (h_cmask h) n), (N.testbit (h_pbit h) n),
            (N.testbit x n), (N.testbit (N.shiftr x (h_bits h)) n); auto;
            discriminate (Hm eq_refl). }
        assert (Fvd : forall l, (forall e, In e l -> valid (f e) = valid e) ->
                  map (raw h1) (filter valid (map f l)) = map (raw h) (filter valid l)).
        { induction l as [|e l IH]; intro Hl; [reflexivity|].
          cbn [map filter]. rewrite (Hl e (or_introl eq_refl)).
          assert (IH' := IH (fun x Hx => Hl x (or_intror Hx))).
          destruct (valid e) eqn:V; [|exact IH']. cbn [map]. now rewrite (Fraw e V), IH'. }
        assert (Fall : forall e, In e (h_table h) -> valid (f e) = valid e).
        { intros e He. destruct (in_get _ _ He) as (i & Hi & <-). apply Fval. now rewrite <- C2. }
        split; [|].
        * constructor; cbn [h_table h_bits h_elems h_deleted h_max h_maxd h_cmask h_cbits h_pbit h_inline h1];
            auto.
          -- constructor; cbn [h_table h_bits h_elems h_deleted h_max h_maxd h_cmask h_cbits h_pbit h_inline h1];
               auto.
             ++ unfold len in *. rewrite map_length. exact C2.
             ++ apply sub_bit. intros n. rewrite !N.ldiff_spec. pose proof (sub_b _ _ C3 n) as Hn.
                destruct (N.testbit (h_pbit h) n); [rewrite Hn by reflexivity; auto|discriminate].
             ++ apply sub_bit. intros n. rewrite !N.ldiff_spec. pose proof (sub_b _ _ C4 n) as Hn.
                destruct (N.testbit (h_cbits h) n); [rewrite Hn by reflexivity; auto|discriminate].
             ++ rewrite (Fvd _ Fall). exact C6.
             ++ intros i Hi V. change (size h1) with (size h) in Hi.
                rewrite Fget in V |- * by exact Hi. rewrite Fval in V by exact Hi.
                rewrite (Fraw _ V). change (bucket h1) with (bucket h). rewrite Fhb.
                specialize (C7 i Hi V).
                assert (X : extra h1 (f (get (h_table h) i)) = N.land (extra h (get (h_table h) i)) (h_cmask h1)).
                { subst f. cbn beta. rewrite V. unfold extra, h1. cbn [h_cmask]. subst bd. bits.
                  destruct (N.testbit md n), (N.testbit (h_cmask h) n), (N.testbit (h_cbits h) n),
                    (N.testbit (get (h_table h) i) n); auto. }
                rewrite X, C7. unfold h1. cbn [h_cmask h_pbit].
                bits. pose proof (sub_b _ _ C3 n) as Hn.
                destruct (i =? bucket h (rhp (raw h (get (h_table h) i)))).
                ** rewrite N.ldiff_spec. destruct (N.testbit (h_pbit h) n).
                   --- rewrite Hn by reflexivity. destruct (N.testbit md n); auto.
                       now rewrite !andb_false_r. now rewrite !orb_true_r.
                   --- cbn [andb]. now rewrite !orb_false_r.
                ** rewrite N.bits_0. now rewrite !orb_false_r.
             ++ intros i Hi V. change (size h1) with (size h) in *.
                rewrite Fget in V |- * by exact Hi. rewrite Fval in V by exact Hi.
                rewrite (Fraw _ V). change (bucket h1) with (bucket h).
                destruct (C8 i Hi V) as (k & K1 & K2 & K3). exists k. split; [exact K1|].
                split; [exact K2|]. intros j Hj.
                pose proof (size_pos h) as Hs.
                rewrite Fget by (apply N.mod_lt; lia). intro E1. apply (K3 j Hj).
                apply Fz; [apply N.mod_lt; lia|exact E1].
          -- left. unfold Htable_Proofs.hid, h1. cbn [h_cmask]. rewrite N.ldiff_spec.
             unfold Htable_Proofs.hid in Hh. now rewrite Hh.
          -- assert (Z : nz (map f (h_table h)) = nz (h_table h)); [|lia].
             unfold nz. f_equal.
             assert (Gz : forall l, (forall e, In e l -> valid (f e) = valid e) ->
               length (filter nonz (map f l)) = length (filter nonz l)).
             { induction l as [|e l IH]; intro Hl; [reflexivity|]. cbn [map filter].
               assert (Ez : nonz (f e) = nonz e).
               { specialize (Hl e (or_introl eq_refl)). destruct (valid e) eqn:V.
                 - now rewrite (valid_nonz e V), (valid_nonz (f e) Hl).
                 - subst f. cbn beta. now rewrite V. }
               rewrite Ez. destruct (nonz e); cbn [length]; rewrite IH; auto;
                 intros; apply Hl; now right. }
             apply Gz, Fall.
        * split; [|split].
          -- unfold Htable_Proofs.hid, h1. cbn [h_cmask]. rewrite N.ldiff_spec.
             unfold Htable_Proofs.hid in Hh. now rewrite Hh.
          -- unfold h1. cbn [h_cmask h_cbits]. bits.
             assert (M : N.testbit md n = xorb (N.testbit (h_cbits h) n) (N.testbit p n && N.testbit (h_cmask h) n))
               by (subst md; now rewrite N.lxor_spec, N.land_spec).
             rewrite M. pose proof (sub_b _ _ C4 n) as Hn.
             destruct (N.testbit (h_cbits h) n), (N.testbit p n), (N.testbit (h_cmask h) n); auto;
               discriminate (Hn eq_refl).
          -- repeat split.
  Qed.
End TOP.
