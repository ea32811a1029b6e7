(** Proofs about htm/erat.c and htm/pwc.c. *)
Require Import NArith ZArith List Bool Lia.
Require Import ZifyBool ZifyN ZifyNat.
Require Import Verif.Word Verif.Codec_Types Verif.Pwc_Model Verif.Pwc_Spec.
Import ListNotations.
Local Open Scope N_scope.

(** ** Maps *)
Section MAP.
  Context {K V : Type} (eqb : K -> K -> bool).
  Hypothesis eqb_ok : forall a b, eqb a b = true <-> a = b.

  Lemma eqb_refl' : forall a, eqb a a = true.
  Proof. intros. now apply eqb_ok. Qed.
  Lemma find_cons : forall m k v k', find_key eqb ((k, v) :: m) k' =
    if eqb k k' then Some v else find_key (V := V) eqb m k'.
  Proof. reflexivity. Qed.
  Lemma find_update : forall m k (f : V -> V) k', find_key eqb (update_key eqb m k f) k' =
    if eqb k k' then option_map f (find_key eqb m k) else find_key eqb m k'.
  Proof.
    induction m as [|[k0 v] m IH]; intros k f k'.
    - cbn. now destruct (eqb k k').
    - cbn [update_key find_key]. destruct (eqb k0 k) eqn:E.
      + apply eqb_ok in E. subst k0. cbn [find_key]. now destruct (eqb k k').
      + cbn [find_key]. rewrite IH. destruct (eqb k0 k') eqn:E2; [|reflexivity].
        destruct (eqb k k') eqn:E3; [|reflexivity].
        apply eqb_ok in E2. apply eqb_ok in E3. subst.
        rewrite eqb_refl' in E. discriminate.
  Qed.
End MAP.

Lemma eara_cmp_ok : forall a b, eara_cmp a b = true <-> a = b.
Proof.
  intros [a1 a2 a3] [b1 b2 b3]. unfold eara_cmp. cbn. split; intros H.
  - f_equal; lia.
  - injection H as -> -> ->. lia.
Qed.
Lemma pkey_cmp_ok : forall a b, pkey_cmp a b = true <-> a = b.
Proof.
  intros [a1 [a2 a3 a4 a5]] [b1 [b2 b3 b4 b5]]. unfold pkey_cmp. cbn. split; intros H.
  - f_equal; [lia|]. f_equal; lia.
  - injection H as -> -> -> -> ->. lia.
Qed.

(** ** Masks *)
Lemma page_mask_eq : forall s, s <= 64 -> shift_ok s ->
  page_mask s = N.shiftl (N.ones (64 - s)) s.
Proof. intros s _ [->|[->|[->| ->]]]; vm_compute; reflexivity. Qed.
Lemma aligned : forall s a, shift_ok s -> a < 2 ^ 64 ->
  N.land a (page_mask s) = a / 2 ^ s * 2 ^ s.
Proof.
  intros s a Hs Ha. assert (Hle : s <= 64) by (destruct Hs as [->|[->|[->| ->]]]; lia).
  rewrite page_mask_eq by assumption. rewrite land_field.
  rewrite N.mod_small; [reflexivity|].
  apply N.div_lt_upper_bound; [apply N.pow_nonzero; lia|].
  rewrite <- N.pow_add_r. replace (s + (64 - s)) with 64 by lia. exact Ha.
Qed.
Lemma mul_eqb : forall a b p, p <> 0 -> (a * p =? b * p) = (a =? b).
Proof.
  intros a b p Hp. destruct (a =? b) eqn:E.
  - apply N.eqb_eq in E. subst. apply N.eqb_refl.
  - apply N.eqb_neq in E. apply N.eqb_neq. intro H. apply E.
    now apply N.mul_cancel_r in H.
Qed.

Lemma erat_align_ok : forall s a r, shift_ok s -> a < 2 ^ 64 -> r < 2 ^ 64 ->
  erat_align s a r = Some (a / 2 ^ s * 2 ^ s, r / 2 ^ s * 2 ^ s).
Proof.
  intros s a r Hs Ha Hr. rewrite <- !aligned by assumption.
  destruct Hs as [->|[->|[->| ->]]]; reflexivity.
Qed.

(** ** ERAT *)
Lemma e_matches_app : forall h o s a r,
  e_matches (h ++ [o]) s a r = e_matches h s a r ++ e_matches [o] s a r.
Proof.
  induction h as [|x h IH]; intros o s a r; [reflexivity|].
  destruct x; cbn [app e_matches]; rewrite IH.
  - destruct (_ && _); [reflexivity|reflexivity].
  - reflexivity.
Qed.

Lemma last_snoc : forall A (l : list A) x d, last (l ++ [x]) d = x.
Proof. intros. apply last_last. Qed.

Definition e_inv (h : list eop) (e : erat) : Prop :=
  forall s a r, shift_ok s -> a < 2 ^ 64 -> r < 2 ^ 64 ->
    find_key eara_cmp e (mk_ek s (a / 2 ^ s * 2 ^ s) (r / 2 ^ s * 2 ^ s)) = e_answer h s a r.

Lemma e_step : forall h e host a r rec guest, e_inv h e ->
  eop_ok (EIns host a r rec guest) ->
  exists e', erat_insert e host a r rec guest = Some e' /\
             e_inv (h ++ [EIns host a r rec guest]) e'.
Proof.
  intros h e host a r rec guest Hi (Hs & Ha & Hr). unfold erat_insert.
  replace (if host <? guest then host else guest) with (N.min host guest)
    by (destruct (host <? guest) eqn:E; lia).
  set (s0 := N.min host guest) in *. rewrite erat_align_ok by assumption.
  set (k0 := mk_ek s0 _ _).
  assert (Hk : forall s x y, shift_ok s -> x < 2 ^ 64 -> y < 2 ^ 64 ->
    eara_cmp k0 (mk_ek s (x / 2 ^ s * 2 ^ s) (y / 2 ^ s * 2 ^ s)) =
    (s0 =? s) && (a / 2 ^ s =? x / 2 ^ s) && (r / 2 ^ s =? y / 2 ^ s)).
  { intros s x y Hs' Hx Hy. unfold eara_cmp, k0. cbn [ek_address ek_real ek_shift].
    destruct (s0 =? s) eqn:E; [|rewrite !andb_false_r; reflexivity].
    apply N.eqb_eq in E. rewrite E. rewrite !mul_eqb by (apply N.pow_nonzero; lia).
    now rewrite andb_true_r. }
  assert (Hold := Hi s0 a r Hs Ha Hr). fold k0 in Hold. unfold e_answer in Hold.
  assert (Hsame : forall s x y, (s0 =? s) && (a / 2 ^ s =? x / 2 ^ s) && (r / 2 ^ s =? y / 2 ^ s) = true ->
     e_matches h s0 a r = e_matches h s x y).
  { intros s x y E. apply andb_true_iff in E as [E E3]. apply andb_true_iff in E as [E1 E2].
    apply N.eqb_eq in E1, E2, E3. subst s. clear - E2 E3.
    induction h as [|o h IH]; [reflexivity|]. cbn [e_matches]. rewrite IH, E2, E3. reflexivity. }
  destruct (find_key eara_cmp e k0) as [v|] eqn:Ev.
  - eexists. split; [reflexivity|]. intros s x y Hs' Hx Hy.
    rewrite (find_update _ eara_cmp_ok), Hk by assumption. rewrite Ev. cbn [option_map].
    unfold e_answer. rewrite e_matches_app. cbn [e_matches]. fold s0.
    destruct (_ && _) eqn:E.
    + rewrite <- (Hsame s x y E). destruct (e_matches h s0 a r) as [|[[rec0 host0] guest0] l] eqn:El; [discriminate|].
      destruct (last l (rec0, host0, guest0)) as [[? ?] ?]. injection Hold as ->. cbn [app ev_host].
      now rewrite last_snoc.
    + rewrite app_nil_r. rewrite Hi by assumption. reflexivity.
  - eexists. split; [reflexivity|]. intros s x y Hs' Hx Hy.
    rewrite find_cons, Hk by assumption.
    unfold e_answer. rewrite e_matches_app. cbn [e_matches]. fold s0.
    destruct (_ && _) eqn:E.
    + rewrite <- (Hsame s x y E). destruct (e_matches h s0 a r) as [|[[rec0 host0] guest0] l] eqn:El.
      * reflexivity.
      * destruct (last l (rec0, host0, guest0)) as [[? ?] ?]. discriminate.
    + rewrite app_nil_r. rewrite Hi by assumption. reflexivity.
Qed.

Lemma e_run_inv : forall h pre e, e_inv pre e -> Forall eop_ok h ->
  exists e', e_run e h = Some (e', e_answers pre h).
Proof.
  induction h as [|o h IH]; intros pre e Hi Hok; [now exists e|].
  apply Forall_cons_iff in Hok as [Ho Hok]. destruct o as [host a r rec guest|s a r].
  - cbn [e_run e_answers]. destruct (e_step pre e host a r rec guest Hi Ho) as (e' & -> & Hi').
    now apply IH.
  - cbn [e_run e_answers]. destruct Ho as (Hs & Ha & Hr).
    unfold erat_get. rewrite erat_align_ok by assumption. rewrite Hi by assumption.
    destruct (IH (pre ++ [EGet s a r]) e) as (e' & ->).
    + intros s' a' r' H1 H2 H3. rewrite Hi by assumption. unfold e_answer.
      rewrite e_matches_app. cbn [e_matches]. now rewrite app_nil_r.
    + exact Hok.
    + now exists e'.
Qed.

Lemma erat_faithful : forall h, Forall eop_ok h ->
  exists e, e_run erat_init h = Some (e, e_answers [] h).
Proof. intros h Hok. apply (e_run_inv h [] erat_init); [|exact Hok]. intros s a r _ _ _. reflexivity. Qed.

Lemma erat_bad_shift : forall e s a r, ~ shift_ok s -> erat_get e s a r = None.
Proof.
  intros e s a r H. unfold erat_get, erat_align, shift_ok in *.
  destruct (s =? 12) eqn:E1; [lia|]. destruct (s =? 16) eqn:E2; [lia|].
  destruct (s =? 21) eqn:E3; [lia|]. destruct (s =? 30) eqn:E4; [lia|]. reflexivity.
Qed.
Lemma erat_bad_insert : forall e host a r rec guest, ~ shift_ok (N.min host guest) ->
  erat_insert e host a r rec guest = None.
Proof.
  intros e host a r rec guest H. unfold erat_insert.
  replace (if host <? guest then host else guest) with (N.min host guest)
    by (destruct (host <? guest) eqn:E; lia).
  set (s := N.min host guest) in *. unfold erat_align, shift_ok in *.
  destruct (s =? 12) eqn:E1; [lia|]. destruct (s =? 16) eqn:E2; [lia|].
  destruct (s =? 21) eqn:E3; [lia|]. destruct (s =? 30) eqn:E4; [lia|]. reflexivity.
Qed.

(** ** Page numbers *)
Lemma mod_div : forall a m s, s <= m -> (a mod 2 ^ m) / 2 ^ s = (a / 2 ^ s) mod 2 ^ (m - s).
Proof.
  intros a m s H. rewrite <- !N.land_ones, <- !N.shiftr_div_pow2, N.shiftr_land.
  f_equal. apply N.bits_inj. intro i. rewrite N.shiftr_spec by lia.
  rewrite !N.ones_spec_iff || idtac.
  destruct (N.lt_ge_cases i (m - s)) as [Hi|Hi].
  - rewrite !N.ones_spec_low by lia. reflexivity.
  - rewrite !N.ones_spec_high by lia. reflexivity.
Qed.

Lemma rpn_of_ok : forall l a, shift_ok l -> rpn_of l a = Some (a mod 2 ^ 52 / 2 ^ l * 2 ^ l).
Proof.
  intros l a Hl.
  assert (E : rpn_of l a = Some (N.land a (page_ra_mask l))).
  { destruct Hl as [->|[->|[->| ->]]]; reflexivity. }
  rewrite E. f_equal.
  assert (E2 : page_ra_mask l = N.shiftl (N.ones (52 - l)) l).
  { destruct Hl as [->|[->|[->| ->]]]; vm_compute; reflexivity. }
  rewrite E2, land_field, mod_div; [reflexivity|].
  destruct Hl as [->|[->|[->| ->]]]; lia.
Qed.
Lemma off_of_ok : forall l a, shift_ok l -> off_of l a = Some (a mod 2 ^ l).
Proof.
  intros l a Hl.
  assert (E : off_of l a = Some (N.land a (N.ones l))).
  { destruct Hl as [->|[->|[->| ->]]]; reflexivity. }
  now rewrite E, N.land_ones.
Qed.

Lemma dir_of_ok : forall l a, level_ok l -> exists p, p <> 0 /\
  dir_of l a = Some (dir l a * p, entry l a * 8) /\
  forall b, exists q, dir_of l b = Some (q, entry l b * 8) /\ q = dir l b * p.
Proof.
  intros l a Hl.
  assert (HI : forall x s b, s + b <= 52 -> b <= 13 -> index_mask b = N.ones b ->
                index x s b = x / 2 ^ s mod 2 ^ b * 8).
  { intros x s b H Hb Em. unfold index. rewrite Em, N.land_ones, N.shiftr_div_pow2, N.shiftl_mul_pow2.
    change (2 ^ 3) with 8. apply N.mod_small.
    assert (H2 : x / 2 ^ s mod 2 ^ b < 2 ^ b) by (apply N.mod_lt, N.pow_nonzero; lia).
    assert (H3 : 2 ^ b <= 2 ^ 13) by (apply N.pow_le_mono_r; lia).
    change (2 ^ 13) with 8192 in H3. unfold w64. lia. }
  assert (HD : forall x s, s <= 52 -> page_ra_mask s = N.shiftl (N.ones (52 - s)) s ->
                N.land x (page_ra_mask s) = x mod 2 ^ 52 / 2 ^ s * 2 ^ s).
  { intros x s H E. rewrite E, land_field, mod_div; [reflexivity|lia]. }
  assert (H0 : forall x, x mod 2 ^ 52 / 2 ^ 52 = 0).
  { intro x. apply N.div_small, N.mod_lt. discriminate. }
  destruct Hl as [->|[->|[->|[->| ->]]]].
  - exists 1. split; [discriminate|].
    assert (A : forall x, dir_of XLATE_PGD x = Some (dir XLATE_PGD x * 1, entry XLATE_PGD x * 8)).
    { intro x. unfold dir_of. cbn [N.eqb XLATE_PGD]. unfold dir, entry, covers, width.
      cbn [N.eqb XLATE_PGD]. change (39 + 13) with 52. rewrite H0. unfold pgd_index, pgd_address.
      change PGD_SHIFT with 39. rewrite HI; [reflexivity|lia|lia|reflexivity]. }
    split; [apply A|]. intro b. rewrite A. eexists. split; reflexivity.
  - exists (2 ^ 39). split; [discriminate|].
    assert (A : forall x, dir_of XLATE_PUD x = Some (dir XLATE_PUD x * 2 ^ 39, entry XLATE_PUD x * 8)).
    { intro x. change (dir_of XLATE_PUD x) with (Some (N.land x (page_ra_mask 39), index x 30 9)).
      rewrite HI, HD by (reflexivity || lia). reflexivity. }
    split; [apply A|]. intro b. rewrite A. eexists. split; reflexivity.
  - exists (2 ^ 30). split; [discriminate|].
    assert (A : forall x, dir_of XLATE_PMD x = Some (dir XLATE_PMD x * 2 ^ 30, entry XLATE_PMD x * 8)).
    { intro x. change (dir_of XLATE_PMD x) with (Some (N.land x (page_ra_mask 30), index x 21 9)).
      rewrite HI, HD by (reflexivity || lia). reflexivity. }
    split; [apply A|]. intro b. rewrite A. eexists. split; reflexivity.
  - exists (2 ^ 21). split; [discriminate|].
    assert (A : forall x, dir_of XLATE_4K_PTE x = Some (dir XLATE_4K_PTE x * 2 ^ 21, entry XLATE_4K_PTE x * 8)).
    { intro x. change (dir_of XLATE_4K_PTE x) with (Some (N.land x (page_ra_mask 21), index x 12 9)).
      rewrite HI, HD by (reflexivity || lia). reflexivity. }
    split; [apply A|]. intro b. rewrite A. eexists. split; reflexivity.
  - exists (2 ^ 21). split; [discriminate|].
    assert (A : forall x, dir_of XLATE_64K_PTE x = Some (dir XLATE_64K_PTE x * 2 ^ 21, entry XLATE_64K_PTE x * 8)).
    { intro x. change (dir_of XLATE_64K_PTE x) with (Some (N.land x (page_ra_mask 21), index x 16 5)).
      rewrite HI, HD by (reflexivity || lia). reflexivity. }
    split; [apply A|]. intro b. rewrite A. eexists. split; reflexivity.
Qed.

Lemma dir_of_all : forall l, level_ok l -> exists p, p <> 0 /\
  forall b, dir_of l b = Some (dir l b * p, entry l b * 8).
Proof.
  intros l Hl. destruct (dir_of_ok l 0 Hl) as (p & Hp & _ & H). exists p. split; [exact Hp|].
  intro b. destruct (H b) as (q & E & ->). exact E.
Qed.

Lemma key_same : forall l a p l' a' p', pkey_cmp (key_of l a p) (key_of l' a' p') =
  (l =? l') && same_ids a a' && (p =? p').
Proof.
  intros. unfold pkey_cmp, key_of, same_ids. cbn.
  destruct (p =? p'), (l =? l'), (xa_lpid a =? xa_lpid a'), (xa_pid a =? xa_pid a'),
    (Z.eqb (xa_msr a) (xa_msr a')); reflexivity.
Qed.

(** Lookup after insertion. *)
Lemma dir_same : forall l a l' a', level_ok l -> level_ok l' ->
  exists p p' e e', dir_of l (xa_address a) = Some (p, e) /\
    dir_of l' (xa_address a') = Some (p', e') /\
    e = entry l (xa_address a) * 8 /\ e' = entry l' (xa_address a') * 8 /\
    pkey_cmp (key_of l a p) (key_of l' a' p') = same_dir l a l' a'.
Proof.
  intros l a l' a' Hl Hl'.
  destruct (dir_of_all l Hl) as (p & Hp & D). destruct (dir_of_all l' Hl') as (p' & Hp' & D').
  destruct (N.eq_dec l l') as [<-|Hn].
  - exists (dir l (xa_address a) * p), (dir l (xa_address a') * p).
    eexists _, _. split; [apply D|]. split; [apply D|]. split; [reflexivity|]. split; [reflexivity|].
    rewrite key_same. unfold same_dir. now rewrite mul_eqb.
  - eexists _, _, _, _. split; [apply D|]. split; [apply D'|]. split; [reflexivity|].
    split; [reflexivity|]. rewrite key_same. unfold same_dir.
    apply N.eqb_neq in Hn. now rewrite Hn.
Qed.

Lemma offset_arith : forall r e e', r < 2 ^ 64 -> e < 2 ^ 60 -> e' < 2 ^ 60 ->
  add64 (sub64 r (e * 8)) (e' * 8)
  = Z.to_N ((Z.of_N r + 8 * (Z.of_N e' - Z.of_N e)) mod 2 ^ 64).
Proof.
  intros r e e' Hr He He'. unfold add64, sub64, w64.
  rewrite (N.mod_small (e * 8)) by lia.
  apply N2Z.inj. rewrite Z2N.id by (apply Z.mod_pos_bound; reflexivity).
  rewrite !N2Z.inj_mod, N2Z.inj_add, N2Z.inj_mod, N2Z.inj_sub, N2Z.inj_add by lia.
  change (Z.of_N 18446744073709551616) with (2 ^ 64)%Z.
  rewrite Zplus_mod_idemp_l, !N2Z.inj_mul. change (Z.of_N 8) with 8%Z.
  rewrite <- (Z_mod_plus_full (Z.of_N r + 8 * (Z.of_N e' - Z.of_N e)) 1). f_equal. lia.
Qed.

Lemma entry_small : forall l a, level_ok l -> entry l a < 2 ^ 60.
Proof.
  intros l a Hl. unfold entry.
  assert (H : a / 2 ^ covers l mod 2 ^ width l < 2 ^ width l) by (apply N.mod_lt, N.pow_nonzero; lia).
  assert (H2 : 2 ^ width l <= 2 ^ 60).
  { apply N.pow_le_mono_r; [lia|]. unfold width. destruct (l =? XLATE_PGD); [lia|].
    destruct (l =? XLATE_64K_PTE); lia. }
  lia.
Qed.

Lemma dir_get_insert : forall c l a r leaf, level_ok l -> r < 2 ^ 64 ->
  exists c', dir_insert c l a r leaf = Some c' /\ forall l' a', level_ok l' ->
  exists old, dir_get c l' a' = Some old /\
  dir_get c' l' a' = Some (
    if same_dir l a l' a'
    then Some (Z.to_N ((Z.of_N r + 8 * (Z.of_N (entry l' (xa_address a'))
                                        - Z.of_N (entry l (xa_address a)))) mod 2 ^ 64),
               if same_entry l a l' a' then (if leaf then 1 else 2)
               else match old with Some (_, f) => f | None => 0 end)
    else old).
Proof.
  intros c l a r leaf Hl Hr.
  assert (exists c', dir_insert c l a r leaf = Some c') as [c' Ec].
  { unfold dir_insert. destruct (dir_of_all l Hl) as (p & Hp & D). rewrite D.
    destruct (find_key _ _ _); eauto. }
  exists c'. split; [exact Ec|]. intros l' a' Hl'. unfold dir_insert in Ec. unfold dir_get.
  destruct (dir_same l a l' a' Hl Hl') as (p & p' & e & e' & D & D' & -> & -> & Hk).
  rewrite D in Ec. rewrite D'. set (k := key_of l a p) in *. set (k' := key_of l' a' p') in *.
  assert (HO : forall e1, find_key N.eqb ((entry l (xa_address a) * 8, leaf) :: e1)
            (entry l' (xa_address a') * 8) =
          if entry l (xa_address a) =? entry l' (xa_address a') then Some leaf
          else find_key N.eqb e1 (entry l' (xa_address a') * 8)).
  { intro e1. cbn [find_key]. now rewrite mul_eqb by discriminate. }
  assert (HE : same_dir l a l' a' = true -> same_entry l a l' a' =
               (entry l (xa_address a) =? entry l' (xa_address a'))).
  { intro H. unfold same_entry. rewrite H. unfold same_dir in H.
    assert (l = l') by lia. now subst l'. }
  assert (exists old, match find_key pkey_cmp c k' with
    | Some v => Some (Some (add64 (pv_real v) (entry l' (xa_address a') * 8),
            match find_key N.eqb (pv_leaf v) (entry l' (xa_address a') * 8) with
            | Some true => PWC_LEAF | Some false => PWC_NOT_LEAF | None => 0 end))
    | None => Some None end = Some old) as [old Eo] by (destruct (find_key pkey_cmp c k'); eauto).
  exists old. split; [exact Eo|].
  destruct (find_key pkey_cmp c k) as [v|] eqn:Ev.
  - injection Ec as <-. rewrite (find_update _ pkey_cmp_ok), Hk, Ev. cbn [option_map].
    destruct (same_dir l a l' a') eqn:Es; [|exact Eo].
    assert (Hkk : k = k') by (apply pkey_cmp_ok; exact Hk).
    rewrite <- Hkk, Ev in Eo. injection Eo as <-. cbn [pv_real pv_leaf].
    rewrite offset_arith by (try exact Hr; now apply entry_small).
    do 3 f_equal. rewrite HE by reflexivity.
    destruct (find_key N.eqb (pv_leaf v) (entry l (xa_address a) * 8)) as [b|] eqn:Eb.
    + rewrite (find_update _ N.eqb_eq), Eb, mul_eqb by discriminate. cbn [option_map].
      destruct (entry l (xa_address a) =? entry l' (xa_address a')); [now destruct leaf|reflexivity].
    + rewrite HO.
      destruct (entry l (xa_address a) =? entry l' (xa_address a')); [now destruct leaf|reflexivity].
  - injection Ec as <-. rewrite find_cons, Hk.
    destruct (same_dir l a l' a') eqn:Es; [|exact Eo].
    assert (Hkk : k = k') by (apply pkey_cmp_ok; exact Hk).
    rewrite <- Hkk, Ev in Eo. injection Eo as <-. cbn [pv_real pv_leaf].
    rewrite offset_arith by (try exact Hr; now apply entry_small).
    do 3 f_equal. rewrite HE by reflexivity. rewrite HO.
    destruct (entry l (xa_address a) =? entry l' (xa_address a')); [now destruct leaf|reflexivity].
Qed.

Lemma rpn_get_insert : forall c l a r, shift_ok l ->
  exists c', rpn_insert c l a r = Some c' /\ forall l' a', shift_ok l' ->
  rpn_get c' l' a' =
    if same_page l a l' a' then Some (Some (r mod 2 ^ 52 / 2 ^ l' * 2 ^ l' + xa_address a' mod 2 ^ l'))
    else rpn_get c l' a'.
Proof.
  intros c l a r Hl. unfold rpn_insert. rewrite !rpn_of_ok by exact Hl.
  set (k := key_of l a _). set (rpn := r mod 2 ^ 52 / 2 ^ l * 2 ^ l).
  assert (HK : forall l' a', pkey_cmp k (key_of l' a' (xa_address a' mod 2 ^ 52 / 2 ^ l' * 2 ^ l'))
                 = same_page l a l' a').
  { intros l' a'. unfold k. rewrite key_same. unfold same_page.
    destruct (l =? l') eqn:E; [|reflexivity]. apply N.eqb_eq in E. subst l'.
    now rewrite mul_eqb by (apply N.pow_nonzero; lia). }
  assert (HA : forall x, add64 rpn (x mod 2 ^ l) = rpn + x mod 2 ^ l).
  { intro x. unfold add64. apply N.mod_small. unfold rpn.
    assert (H1 : 2 ^ l <> 0) by (apply N.pow_nonzero; lia).
    assert (H2 := N.mod_lt x (2 ^ l) H1).
    assert (H3 : r mod 2 ^ 52 < 2 ^ 52) by (apply N.mod_lt; discriminate).
    assert (H4 := N.div_mod (r mod 2 ^ 52) (2 ^ l) H1).
    assert (H5 : 2 ^ l <= 2 ^ 30) by (apply N.pow_le_mono_r; destruct Hl as [->|[->|[->| ->]]]; lia).
    change (2 ^ 30) with 1073741824 in H5. change (2 ^ 52) with 4503599627370496 in *.
    unfold w64. lia. }
  assert (HF : forall c' : pcache, (forall l' a', find_key pkey_cmp c' (key_of l' a' (xa_address a' mod 2 ^ 52 / 2 ^ l' * 2 ^ l'))
        = if same_page l a l' a' then match find_key pkey_cmp c k with
             | Some v => Some (mk_pv rpn (pv_leaf v)) | None => Some (mk_pv rpn []) end
          else find_key pkey_cmp c (key_of l' a' (xa_address a' mod 2 ^ 52 / 2 ^ l' * 2 ^ l'))) ->
     forall l' a', shift_ok l' -> rpn_get c' l' a' =
    if same_page l a l' a' then Some (Some (r mod 2 ^ 52 / 2 ^ l' * 2 ^ l' + xa_address a' mod 2 ^ l'))
    else rpn_get c l' a').
  { intros c' H l' a' Hl'. unfold rpn_get. rewrite rpn_of_ok, off_of_ok by exact Hl'. rewrite H.
    destruct (same_page l a l' a') eqn:E; [|reflexivity].
    assert (l = l') by (unfold same_page in E; lia). subst l'.
    destruct (find_key pkey_cmp c k); cbn [pv_real]; now rewrite HA. }
  destruct (find_key pkey_cmp c k) as [v|] eqn:Ev.
  - eexists. split; [reflexivity|]. apply HF. intros l' a'.
    rewrite (find_update _ pkey_cmp_ok), HK, Ev. reflexivity.
  - eexists. split; [reflexivity|]. apply HF. intros l' a'.
    rewrite find_cons, HK. reflexivity.
Qed.

(** ** Histories *)
Lemma last_dir_snoc : forall h o l a, last_dir (h ++ [o]) l a =
  match o with
  | PIns l' a' r _ => if same_dir l' a' l a then Some (xa_address a', r) else last_dir h l a
  | _ => last_dir h l a
  end.
Proof.
  induction h as [|x h IH]; intros o l a.
  - destruct o; reflexivity.
  - destruct x; cbn [app last_dir]; rewrite IH; destruct o; try reflexivity.
    destruct (same_dir level0 addr0 l a); reflexivity.
Qed.
Lemma last_leaf_snoc : forall h o l a, last_leaf (h ++ [o]) l a =
  match o with
  | PIns l' a' _ leaf => if same_entry l' a' l a then Some leaf else last_leaf h l a
  | _ => last_leaf h l a
  end.
Proof.
  induction h as [|x h IH]; intros o l a.
  - destruct o; reflexivity.
  - destruct x; cbn [app last_leaf]; rewrite IH; destruct o; try reflexivity.
    destruct (same_entry level0 addr0 l a); reflexivity.
Qed.
Lemma last_page_snoc : forall rev h o l a, last_page rev (h ++ [o]) l a =
  match o with
  | TIns l' a' r => if negb rev && same_page l' a' l a then Some (r mod 2 ^ 52 / 2 ^ l)
                    else last_page rev h l a
  | RIns l' a' r => if rev && same_page l' a' l a then Some (r mod 2 ^ 52 / 2 ^ l)
                    else last_page rev h l a
  | _ => last_page rev h l a
  end.
Proof.
  intros rev. induction h as [|x h IH]; intros o l a.
  - destruct o; reflexivity.
  - destruct x; cbn [app last_page]; rewrite IH; destruct o; try reflexivity;
      destruct (_ && same_page level0 addr0 l a); reflexivity.
Qed.

Lemma leaf_dir : forall h l a, last_dir h l a = None -> last_leaf h l a = None.
Proof.
  induction h as [|x h IH]; intros l a H; [reflexivity|].
  destruct x; cbn [last_dir last_leaf] in *; try now apply IH.
  destruct (last_dir h l a) eqn:E; [discriminate|]. rewrite IH by exact E.
  unfold same_entry. destruct (same_dir level addr l a); [discriminate|reflexivity].
Qed.

Definition p_inv (h : list pop) (p : pwc) : Prop :=
  (forall l a, level_ok l -> pwc_get p l a = Some (dir_answer h l a)) /\
  (forall l a, shift_ok l -> pwc_tlb_get p l a = Some (page_answer false h l a)) /\
  (forall l a, shift_ok l -> pwc_reverse_get p l a = Some (page_answer true h l a)).

Lemma p_inv_init : p_inv [] pwc_init.
Proof.
  split; [|split]; intros l a Hl.
  - unfold pwc_get, dir_get. destruct (dir_of_all l Hl) as (p & _ & D). now rewrite D.
  - unfold pwc_tlb_get, rpn_get. now rewrite rpn_of_ok, off_of_ok.
  - unfold pwc_reverse_get, rpn_get. now rewrite rpn_of_ok, off_of_ok.
Qed.

Lemma p_step_inv : forall h p o, p_inv h p -> pop_ok o ->
  exists p', p_step p o = Some (p', p_answer h o) /\ p_inv (h ++ [o]) p'.
Proof.
  intros h p o (I1 & I2 & I3) Hok.
  assert (HG : match o with PGet _ _ | TGet _ _ | RGet _ _ => True | _ => False end ->
               p_inv (h ++ [o]) p).
  { intro Ho. split; [|split]; intros l a Hl.
    - rewrite I1 by exact Hl. unfold dir_answer. rewrite last_dir_snoc, last_leaf_snoc.
      now destruct o.
    - rewrite I2 by exact Hl. unfold page_answer. rewrite last_page_snoc. now destruct o.
    - rewrite I3 by exact Hl. unfold page_answer. rewrite last_page_snoc. now destruct o. }
  destruct o as [l a r leaf|l a|l a r|l a|l a r|l a]; cbn [p_step p_answer pop_ok] in *.
  - destruct Hok as [Hl Hr].
    destruct (dir_get_insert (page_walk_cache p) l a r leaf Hl Hr) as (c' & Ec & G).
    unfold pwc_insert. rewrite Ec. cbn [option_map]. eexists. split; [reflexivity|].
    split; [|split]; intros l' a' Hl'.
    + destruct (G l' a' Hl') as (old & Eo & E). unfold pwc_get. cbn [page_walk_cache].
      rewrite E. f_equal. unfold pwc_get in I1. rewrite I1 in Eo by exact Hl'. injection Eo as <-.
      unfold dir_answer. rewrite last_dir_snoc, last_leaf_snoc.
      destruct (same_dir l a l' a') eqn:Es.
      * assert (l = l') by (unfold same_dir in Es; lia). subst l'.
        destruct (same_entry l a l a'); [now destruct leaf|].
        destruct (last_dir h l a') as [[? ?]|] eqn:El; [reflexivity|].
        now rewrite (leaf_dir h l a' El).
      * assert (E2 : same_entry l a l' a' = false) by (unfold same_entry; now rewrite Es).
        rewrite E2. reflexivity.
    + unfold page_answer. rewrite last_page_snoc. exact (I2 l' a' Hl').
    + unfold page_answer. rewrite last_page_snoc. exact (I3 l' a' Hl').
  - rewrite I1 by exact Hok. eexists. split; [reflexivity|]. now apply HG.
  - destruct (rpn_get_insert (tlb_cache p) l a r Hok) as (c' & Ec & G).
    unfold pwc_tlb_insert. rewrite Ec. cbn [option_map]. eexists. split; [reflexivity|].
    split; [|split]; intros l' a' Hl'.
    + unfold dir_answer. rewrite last_dir_snoc, last_leaf_snoc. exact (I1 l' a' Hl').
    + unfold pwc_tlb_get. cbn [tlb_cache]. rewrite G by exact Hl'.
      unfold page_answer. rewrite last_page_snoc. cbn [negb andb].
      destruct (same_page l a l' a'); [reflexivity|]. exact (I2 l' a' Hl').
    + unfold page_answer. rewrite last_page_snoc. exact (I3 l' a' Hl').
  - rewrite I2 by exact Hok. eexists. split; [reflexivity|]. now apply HG.
  - destruct (rpn_get_insert (reverse_cache p) l a r Hok) as (c' & Ec & G).
    unfold pwc_reverse_insert. rewrite Ec. cbn [option_map]. eexists. split; [reflexivity|].
    split; [|split]; intros l' a' Hl'.
    + unfold dir_answer. rewrite last_dir_snoc, last_leaf_snoc. exact (I1 l' a' Hl').
    + unfold page_answer. rewrite last_page_snoc. exact (I2 l' a' Hl').
    + unfold pwc_reverse_get. cbn [reverse_cache]. rewrite G by exact Hl'.
      unfold page_answer. rewrite last_page_snoc. cbn [negb andb].
      destruct (same_page l a l' a'); [reflexivity|]. exact (I3 l' a' Hl').
  - rewrite I3 by exact Hok. eexists. split; [reflexivity|]. now apply HG.
Qed.

Lemma p_run_inv : forall h pre p, p_inv pre p -> Forall pop_ok h ->
  exists p', p_run p h = Some (p', p_answers pre h) /\ p_inv (pre ++ h) p'.
Proof.
  induction h as [|o h IH]; intros pre p Hi Hok.
  - exists p. rewrite app_nil_r. now split.
  - apply Forall_cons_iff in Hok as [Ho Hok].
    destruct (p_step_inv pre p o Hi Ho) as (p1 & E1 & Hi1). cbn [p_run p_answers]. rewrite E1.
    destruct (IH (pre ++ [o]) p1 Hi1 Hok) as (p2 & E2 & Hi2). rewrite E2.
    exists p2. split; [reflexivity|]. now rewrite <- app_assoc in Hi2.
Qed.

Lemma pwc_faithful : forall h, Forall pop_ok h ->
  exists p, p_run pwc_init h = Some (p, p_answers [] h).
Proof.
  intros h Hok. destruct (p_run_inv h [] pwc_init p_inv_init Hok) as (p & E & _). now exists p.
Qed.

(** Levels and page sizes outside the tables abort. *)
Lemma bad_level : forall l a, ~ level_ok l -> dir_of l a = None.
Proof.
  intros l a H. unfold dir_of, level_ok, XLATE_PGD, XLATE_PUD, XLATE_PMD, XLATE_4K_PTE, XLATE_64K_PTE in *.
  destruct (l =? 0) eqn:E1; [lia|]. destruct (l =? 1) eqn:E2; [lia|].
  destruct (l =? 2) eqn:E3; [lia|]. destruct (l =? 5) eqn:E4; [lia|].
  destruct (l =? 4) eqn:E5; [lia|]. reflexivity.
Qed.
Lemma bad_shift : forall l a, ~ shift_ok l -> rpn_of l a = None.
Proof.
  intros l a H. unfold rpn_of, shift_ok in *.
  destruct (l =? 12) eqn:E1; [lia|]. destruct (l =? 16) eqn:E2; [lia|].
  destruct (l =? 21) eqn:E3; [lia|]. destruct (l =? 30) eqn:E4; [lia|]. reflexivity.
Qed.
Lemma pwc_bad : forall p l a r leaf, (~ level_ok l ->
    p_step p (PIns l a r leaf) = None /\ p_step p (PGet l a) = None) /\
  (~ shift_ok l ->
    p_step p (TIns l a r) = None /\ p_step p (TGet l a) = None /\
    p_step p (RIns l a r) = None /\ p_step p (RGet l a) = None).
Proof.
  intros p l a r leaf. split; intros H.
  - unfold p_step, pwc_insert, pwc_get, dir_insert, dir_get. now rewrite bad_level.
  - unfold p_step, pwc_tlb_insert, pwc_tlb_get, pwc_reverse_insert, pwc_reverse_get,
      rpn_insert, rpn_get. now rewrite bad_shift.
Qed.

Lemma pwc_dirs : forall h, Forall pop_ok h ->
  exists p, p_run pwc_init h = Some (p, p_answers [] h) /\
    forall l a, level_ok l -> pwc_get p l a = Some (dir_answer h l a).
Proof.
  intros h Hok. destruct (p_run_inv h [] pwc_init p_inv_init Hok) as (p & E & I1 & _).
  exists p. now split.
Qed.
Lemma pwc_pages : forall h, Forall pop_ok h ->
  exists p, p_run pwc_init h = Some (p, p_answers [] h) /\
    (forall l a, shift_ok l -> pwc_tlb_get p l a = Some (page_answer false h l a)) /\
    (forall l a, shift_ok l -> pwc_reverse_get p l a = Some (page_answer true h l a)).
Proof.
  intros h Hok. destruct (p_run_inv h [] pwc_init p_inv_init Hok) as (p & E & _ & I2 & I3).
  exists p. now split.
Qed.
Lemma level_independent : forall h o l a,
  match o with
  | PIns l' _ _ _ => l' <> l
  | _ => True
  end -> dir_answer (h ++ [o]) l a = dir_answer h l a.
Proof.
  intros h o l a H. unfold dir_answer. rewrite last_dir_snoc, last_leaf_snoc.
  destruct o; try reflexivity. unfold same_entry, same_dir.
  apply N.eqb_neq in H. now rewrite H.
Qed.
Lemma top_bits : forall h l a hi, level_ok l ->
  dir_answer h l (mk_xaddr (xa_msr a) (xa_lpid a) (xa_pid a) (xa_address a + hi * 2 ^ 52))
  = dir_answer h l a.
Proof.
  intros h l a hi Hl.
  set (a' := mk_xaddr _ _ _ _).
  assert (HD : dir l (xa_address a') = dir l (xa_address a)).
  { unfold dir, a'. cbn [xa_address]. now rewrite N.mod_add by discriminate. }
  assert (HE : entry l (xa_address a') = entry l (xa_address a)).
  { unfold entry, a'. cbn [xa_address].
    assert (Hc : covers l + width l <= 52).
    { unfold level_ok in Hl. destruct Hl as [->|[->|[->|[->| ->]]]]; vm_compute; discriminate. }
    replace (hi * 2 ^ 52) with (hi * 2 ^ (52 - covers l - width l) * 2 ^ width l * 2 ^ covers l).
    2:{ rewrite <- !N.mul_assoc, <- !N.pow_add_r. do 2 f_equal. lia. }
    rewrite N.div_add, N.mod_add by (apply N.pow_nonzero; lia). reflexivity. }
  assert (HS : forall l' x, same_dir l' x l a' = same_dir l' x l a).
  { intros l' x. unfold same_dir. destruct (l' =? l) eqn:E; [|reflexivity].
    apply N.eqb_eq in E. subst l'. rewrite HD. reflexivity. }
  assert (HS2 : forall l' x, same_entry l' x l a' = same_entry l' x l a).
  { intros l' x. unfold same_entry. rewrite HS. unfold same_dir.
    destruct (l' =? l) eqn:E; [|reflexivity]. apply N.eqb_eq in E. subst l'. now rewrite HE. }
  assert (HL : last_dir h l a' = last_dir h l a).
  { induction h as [|o h IH]; [reflexivity|]. destruct o; cbn [last_dir]; rewrite ?IH, ?HS; reflexivity. }
  assert (HL2 : last_leaf h l a' = last_leaf h l a).
  { induction h as [|o h IH]; [reflexivity|]. destruct o; cbn [last_leaf]; rewrite ?HS2; try rewrite IH; try reflexivity.
    - clear IH HL. induction h as [|o h IH]; [reflexivity|]. destruct o; cbn [last_dir]; rewrite ?IH, ?HS; reflexivity.
    - cbn [last_dir] in HL. exact HL.
    - exact HL.
    - exact HL.
    - exact HL.
    - exact HL. }
  unfold dir_answer. now rewrite HL, HL2, HE.
Qed.
