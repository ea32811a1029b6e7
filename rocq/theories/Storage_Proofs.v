Require Import NArith ZArith List Bool Lia String.
Require Import ZifyBool ZifyN ZifyNat.
Require Import Verif.Word Verif.Storage_Model Verif.Storage_Spec.
Import ListNotations.
Local Open Scope N_scope.

Lemma shl1_ones k : N.shiftl 1 k - 1 = N.ones k.
Proof. now rewrite N.sub_1_r. Qed.

Lemma field_bits w f l : PPC_FIELD w f l = bits w f l.
Proof.
  unfold PPC_FIELD, bits. now rewrite shl1_ones, N.land_ones, N.shiftr_div_pow2.
Qed.

Lemma land_small_pow r k : r < 2 ^ k -> N.land r (2 ^ k) = 0.
Proof.
  intro H. apply N.bits_inj; intro i. rewrite N.land_spec, N.bits_0, N.pow2_bits_eqb.
  destruct (k =? i) eqn:E; [|apply andb_false_r].
  apply N.eqb_eq in E; subst i. rewrite andb_true_r.
  destruct (N.eq_dec r 0) as [->|Hr]; [apply N.bits_0|].
  apply N.bits_above_log2. apply N.log2_lt_pow2; lia.
Qed.

Lemma lxor_low r k : r < 2 ^ k -> N.lxor r (2 ^ k) = r + 2 ^ k.
Proof. intro H. rewrite N.add_nocarry_lxor; auto using land_small_pow. Qed.

Lemma lxor_high v k : 2 ^ k <= v -> v < 2 * 2 ^ k -> N.lxor v (2 ^ k) = v - 2 ^ k.
Proof.
  intros H1 H2. assert (Hr : v - 2 ^ k < 2 ^ k) by lia.
  replace v with ((v - 2 ^ k) + 2 ^ k) at 1 by lia.
  rewrite <- (lxor_low _ _ Hr), N.lxor_assoc, N.lxor_nilpotent. apply N.lxor_0_r.
Qed.

Lemma sext_exts v k : v < 2 ^ (k + 1) -> k < 63 ->
  PPC_SEXT v (k + 1) = word64 (exts v (k + 1)).
Proof.
  intros Hv Hk. unfold PPC_SEXT, exts, word64.
  rewrite shl1_ones, N.land_ones, (N.mod_small _ _ Hv).
  replace (k + 1 - 1) with k by lia. rewrite N.shiftl_1_l.
  assert (Hp : 2 ^ (k + 1) = 2 * 2 ^ k) by (rewrite N.add_1_r; apply N.pow_succ_r').
  assert (Hz : (2 ^ Z.of_N (k + 1) = 2 * Z.of_N (2 ^ k))%Z).
  { replace 2%Z with (Z.of_N 2) by reflexivity. rewrite <- N2Z.inj_pow, Hp. lia. }
  assert (Hb : 2 ^ k < 2 ^ 63) by (apply N.pow_lt_mono_r; lia).
  rewrite Hp in Hv.
  set (P := 2 ^ k) in *.
  assert (HP : 0 < P) by (apply N.neq_0_lt_0; unfold P; apply N.pow_nonzero; lia).
  change (2 ^ 63) with 9223372036854775808 in Hb.
  change (2 ^ 64)%Z with 18446744073709551616%Z.
  rewrite Hz.
  unfold sub64, w64. rewrite (N.mod_small P) by lia.
  destruct (v <? P) eqn:E.
  - unfold P. rewrite lxor_low by (fold P; lia). fold P.
    replace (v + P + 18446744073709551616 - P) with (v + 1 * 18446744073709551616) by lia.
    rewrite N.mod_add by lia. rewrite N.mod_small by lia.
    rewrite Z.mod_small by lia. lia.
  - unfold P. rewrite lxor_high by (fold P; lia). fold P.
    rewrite N.mod_small by lia.
    replace (Z.of_N v - 2 * Z.of_N P)%Z
      with (Z.of_N v - 2 * Z.of_N P + 18446744073709551616 + (-1) * 18446744073709551616)%Z by lia.
    rewrite Z.mod_add by lia. rewrite Z.mod_small by lia. lia.
Qed.

Lemma bits_lt w f l : bits w f l < 2 ^ l.
Proof. apply N.mod_lt, N.pow_nonzero; lia. Qed.

Lemma word64_lt z : word64 z < w64.
Proof.
  unfold word64, w64. change (2 ^ 64)%Z with 18446744073709551616%Z.
  pose proof (Z.mod_pos_bound z 18446744073709551616 eq_refl). lia.
Qed.

Lemma word64_of_N n : word64 (Z.of_N n) = n mod w64.
Proof.
  unfold word64, w64. change (2 ^ 64)%Z with (Z.of_N 18446744073709551616).
  rewrite <- N2Z.inj_mod by lia. apply N2Z.id.
Qed.

Lemma word64_Z z : Z.of_N (word64 z) = (z mod 18446744073709551616)%Z.
Proof.
  unfold word64. change (2 ^ 64)%Z with 18446744073709551616%Z.
  pose proof (Z.mod_pos_bound z 18446744073709551616 eq_refl). lia.
Qed.

Lemma add64_word z1 z2 : add64 (word64 z1) (word64 z2) = word64 (z1 + z2).
Proof.
  apply N2Z.inj. unfold add64, w64.
  rewrite N2Z.inj_mod, N2Z.inj_add, !word64_Z by lia.
  change (Z.of_N 18446744073709551616) with 18446744073709551616%Z.
  symmetry; apply Zplus_mod.
Qed.

Lemma shl_word z k : u64 (N.shiftl (word64 z) k) = word64 (2 ^ Z.of_N k * z).
Proof.
  apply N2Z.inj. unfold u64, w64.
  rewrite N2Z.inj_mod, N.shiftl_mul_pow2, N2Z.inj_mul, N2Z.inj_pow, !word64_Z by lia.
  change (Z.of_N 18446744073709551616) with 18446744073709551616%Z.
  rewrite Zmult_mod_idemp_l. f_equal. simpl Z.of_N at 1. ring.
Qed.

Lemma land_mask a k : a < w64 -> k <= 64 ->
  N.land a (N.shiftl (N.ones (64 - k)) k) = a / 2 ^ k * 2 ^ k.
Proof.
  intros Ha Hk. rewrite land_field. f_equal. apply N.mod_small.
  apply N.div_lt_upper_bound; [apply N.pow_nonzero; lia|].
  rewrite <- N.pow_add_r. replace (k + (64 - k)) with 64 by lia. exact Ha.
Qed.

(** The classification made by the switches *)
Definition cls31 (xo : N) : option (form * bytes_of) :=
  match xo with
  | 7 | 135 => Some (FX, Bytes 1)
  | 39 | 167 => Some (FXaligned 2, Bytes 2)
  | 71 | 199 => Some (FXaligned 4, Bytes 4)
  | 103 | 231 | 359 | 487 => Some (FXaligned 16, Bytes 16)
  | 269 | 301 | 397 | 429 => Some (FLength, InRB)
  | 781 | 909 => Some (FX, Bytes 1)
  | 813 | 941 => Some (FX, Bytes 2)
  | 12 | 76 | 140 | 364 | 524 | 652 => Some (FX, Bytes 4)
  | 332 | 588 | 716 => Some (FX, Bytes 8)
  | 268 | 396 | 780 | 908 | 812 | 940 | 844 | 972 | 876 | 1004 => Some (FX, Bytes 16)
  | 52 | 694 | 87 | 119 | 215 | 247 | 853 | 981 => Some (FX, Bytes 1)
  | 116 | 726 | 279 | 311 | 343 | 375 | 407 | 439 | 790 | 918 | 821 | 949 => Some (FX, Bytes 2)
  | 20 | 150 | 23 | 151 | 55 | 341 | 373 | 183 | 534 | 662 | 789 | 917 => Some (FX, Bytes 4)
  | 84 | 214 | 21 | 149 | 53 | 181 | 532 | 660 | 885 | 1013 | 309 => Some (FX, Bytes 8)
  | 276 | 182 => Some (FX, Bytes 16)
  | 535 | 567 | 663 | 695 | 855 | 887 | 983 => Some (FX, Bytes 4)
  | 599 | 631 | 727 | 759 => Some (FX, Bytes 8)
  | 791 | 919 => Some (FX, Bytes 16)
  | 22 | 54 | 86 | 246 | 278 | 982 | 1014 => Some (FXaligned 128, Bytes 128)
  | 533 | 661 | 597 | 725 | 582 | 710 | 614 | 742 => Some (FX, Unsupported)
  | 774 | 902 => Some (FX, Bytes 128)
  | _ => None
  end.
Definition cls (op xo l2 l3 : N) : option (form * bytes_of) :=
  match op with
  | 31 => cls31 xo
  | 57 => match l2 with 0 => Some (FDS, Bytes 16) | 2 => Some (FDS, Bytes 8)
          | 3 => Some (FDS, Bytes 4) | _ => None end
  | 58 => match l2 with 0 | 1 => Some (FDS, Bytes 8) | 2 => Some (FDS, Bytes 4) | _ => None end
  | 61 => match l3 with 0 | 4 => Some (FDS, Bytes 16) | 1 | 5 => Some (FDQ, Bytes 16)
          | 2 | 6 => Some (FDS, Bytes 8) | 3 | 7 => Some (FDS, Bytes 4) | _ => None end
  | 62 => match l2 with 0 | 1 => Some (FDS, Bytes 8) | 2 => Some (FDS, Bytes 16) | _ => None end
  | 32 | 33 | 36 | 37 => Some (FD, Bytes 4)
  | 34 | 35 | 38 | 39 => Some (FD, Bytes 1)
  | 40 | 41 | 42 | 43 | 44 | 45 => Some (FD, Bytes 2)
  | 48 | 49 | 52 | 53 => Some (FD, Bytes 4)
  | 50 | 51 | 54 | 55 => Some (FD, Bytes 8)
  | 56 => Some (FDQ, Bytes 16)
  | 46 | 47 => Some (FD, Multiple)
  | _ => None
  end.
Definition ev (w : N) (g : N -> N) (c : option (form * bytes_of)) : sres :=
  match c with
  | None => SNo
  | Some (f, b) =>
      match bytes_accessed w g b with
      | None => SAbort
      | Some n => SYes (effective_address w g f) n
      end
  end.

Section EA.
  Variables (w : N) (g : N -> N).
  Hypothesis Hg : forall r, g r < w64.

  Lemma base_ra0 : base w g = word64 (ra0 w g).
  Proof.
    unfold base, ra0, PPC_RA. rewrite field_bits.
    destruct (bits w 11 5 =? 0); cbn [negb]; [reflexivity|].
    now rewrite word64_of_N, N.mod_small by apply Hg.
  Qed.
  Lemma g_word r : g r = word64 (Z.of_N (g r)).
  Proof. now rewrite word64_of_N, N.mod_small by apply Hg. Qed.

  Lemma x_sum : add64 (base w g) (g (PPC_RB w)) = effective_address w g FX.
  Proof.
    unfold PPC_RB. rewrite field_bits, base_ra0, (g_word (bits w 16 5)), add64_word.
    reflexivity.
  Qed.
  Lemma x_ok n : handle_xform w g n = SYes (effective_address w g FX) n.
  Proof.
    unfold handle_xform, handle_xform_masked. rewrite x_sum. f_equal.
    change 18446744073709551615 with (N.ones 64). rewrite N.land_ones.
    apply N.mod_small, word64_lt.
  Qed.
  Lemma xm_ok k n m mask : k <= 64 -> mask = N.shiftl (N.ones (64 - k)) k -> m = 2 ^ k ->
    handle_xform_masked w g n mask = SYes (effective_address w g (FXaligned m)) n.
  Proof.
    intros Hk -> ->. unfold handle_xform_masked. rewrite x_sum. f_equal.
    rewrite land_mask; auto. apply word64_lt.
  Qed.
  Lemma d_ok n : handle_dform w g n = SYes (effective_address w g FD) n.
  Proof.
    unfold handle_dform, PPC_D. rewrite field_bits.
    change 16 with (15 + 1) at 3. rewrite sext_exts by (try apply bits_lt; lia).
    change (15 + 1) with 16. now rewrite base_ra0, add64_word.
  Qed.
  Lemma ds_ok n : handle_dsform w g n = SYes (effective_address w g FDS) n.
  Proof.
    unfold handle_dsform, PPC_DS. rewrite field_bits.
    change 14 with (13 + 1) at 2. rewrite sext_exts by (try apply bits_lt; lia).
    change (13 + 1) with 14. now rewrite shl_word, base_ra0, add64_word.
  Qed.
  Lemma dq_ok n : handle_dqform w g n = SYes (effective_address w g FDQ) n.
  Proof.
    unfold handle_dqform, PPC_DQ. rewrite field_bits.
    change 12 with (11 + 1) at 2. rewrite sext_exts by (try apply bits_lt; lia).
    change (11 + 1) with 12. now rewrite shl_word, base_ra0, add64_word.
  Qed.
  Lemma len_ok :
    SYes (base w g) (if 16 <? N.shiftr (g (PPC_RB w)) 56 then 16 else N.shiftr (g (PPC_RB w)) 56)
    = SYes (effective_address w g FLength) (N.min 16 (g (bits w 16 5) / 2 ^ 56)).
  Proof.
    rewrite base_ra0. f_equal. unfold PPC_RB. rewrite field_bits, N.shiftr_div_pow2.
    set (q := _ / _). clearbody q. destruct (16 <? q) eqn:E; lia.
  Qed.

  Lemma ext31_ok : extended_31 w g = ev w g (cls31 (bits w 21 10)).
  Proof.
    unfold extended_31. rewrite field_bits.
    pose proof (xm_ok 1 2 2 18446744073709551614 ltac:(lia) eq_refl eq_refl) as E1.
    pose proof (xm_ok 2 4 4 18446744073709551612 ltac:(lia) eq_refl eq_refl) as E2.
    pose proof (xm_ok 4 16 16 18446744073709551600 ltac:(lia) eq_refl eq_refl) as E4.
    pose proof (xm_ok 7 CACHELINE_SIZE 128 18446744073709551488 ltac:(lia) eq_refl eq_refl) as E7.
    cbv zeta. rewrite E1, E2, E4, E7, !x_ok, len_ok. clear E1 E2 E4 E7.
    generalize (bits w 21 10); intro xo.
    destruct xo as [|p]; [reflexivity|].
    do 10 (destruct p as [p|p|]; try reflexivity).
  Qed.
  Lemma storage_cls :
    is_storage_insn w g = ev w g (cls (bits w 0 6) (bits w 21 10) (bits w 30 2) (bits w 29 3)).
  Proof.
    unfold is_storage_insn, extended_57, extended_58, extended_61, extended_62, PPC_OPC.
    rewrite ext31_ok, !field_bits. rewrite !d_ok, !dq_ok, !ds_ok.
    unfold PPC_RT. rewrite field_bits.
    unfold cls. generalize (cls31 (bits w 21 10)); intro c31.
    generalize (bits w 30 2) (bits w 29 3); intros l2 l3.
    generalize (bits w 0 6); intro op.
    destruct op as [|p]; [reflexivity|].
    do 6 (destruct p as [p|p|]; try reflexivity).
    all: try (destruct l2 as [|q]; [reflexivity|]; do 2 (destruct q as [q|q|]; try reflexivity)).
    all: try (destruct l3 as [|q]; [reflexivity|]; do 3 (destruct q as [q|q|]; try reflexivity)).
  Qed.
End EA.

(** The table against the classification *)
Definition matches4 (op xo l2 l3 : N) (i : isa) : bool :=
  (op =? i_op i) &&
  match i_ext i with
  | NoExt => true
  | Xo10 v => xo =? v
  | Xo2 v => l2 =? v
  | Xo3 v => l3 =? v
  end.
Definition tcls (op xo l2 l3 : N) : option (form * bytes_of) :=
  option_map (fun i => (i_form i, i_bytes i)) (find (matches4 op xo l2 l3) isa_table).

Definition upto (n : nat) : list N := map N.of_nat (seq 0 n).
Lemma in_upto k n : k < N.of_nat n -> In k (upto n).
Proof.
  intro H. unfold upto. rewrite in_map_iff. exists (N.to_nat k).
  rewrite N2Nat.id. split; [reflexivity|]. apply in_seq. lia.
Qed.

Definition form_eqb (a b : form) : bool :=
  match a, b with
  | FX, FX | FD, FD | FDS, FDS | FDQ, FDQ | FLength, FLength => true
  | FXaligned n, FXaligned m => n =? m
  | _, _ => false
  end.
Definition bytes_eqb (a b : bytes_of) : bool :=
  match a, b with
  | Multiple, Multiple | InRB, InRB | Unsupported, Unsupported => true
  | Bytes n, Bytes m => n =? m
  | _, _ => false
  end.
Definition res_eqb (a b : option (form * bytes_of)) : bool :=
  match a, b with
  | None, None => true
  | Some (f, n), Some (f', n') => form_eqb f f' && bytes_eqb n n'
  | _, _ => false
  end.
Lemma res_eqb_eq a b : res_eqb a b = true -> a = b.
Proof.
  destruct a as [[f n]|], b as [[f' n']|]; cbn; try discriminate; auto.
  rewrite andb_true_iff; intros [H1 H2].
  assert (f = f') by (destruct f, f'; cbn in H1; try discriminate; auto;
    apply N.eqb_eq in H1; congruence).
  assert (n = n') by (destruct n, n'; cbn in H2; try discriminate; auto;
    apply N.eqb_eq in H2; congruence).
  congruence.
Qed.

Lemma check31 : forallb (fun xo => res_eqb (cls31 xo) (tcls 31 xo 0 0)) (upto 1024) = true.
Proof. vm_compute. reflexivity. Qed.
Lemma check_rest : forallb (fun op => (op =? 31) || forallb (fun l3 =>
    res_eqb (cls op 0 (l3 mod 4) l3) (tcls op 0 (l3 mod 4) l3)) (upto 8)) (upto 64) = true.
Proof. vm_compute. reflexivity. Qed.

Definition ext_is31 (i : isa) : bool :=
  match i_ext i with
  | Xo10 _ => i_op i =? 31
  | _ => negb (i_op i =? 31)
  end.
Lemma table31 : forallb ext_is31 isa_table = true.
Proof. vm_compute. reflexivity. Qed.

Lemma find_31 xo l2 l3 t : forallb ext_is31 t = true ->
  find (matches4 31 xo l2 l3) t = find (matches4 31 xo 0 0) t.
Proof.
  induction t as [|i t IH]; [reflexivity|].
  cbn [forallb find]. rewrite andb_true_iff; intros [Hi Ht]. rewrite (IH Ht).
  unfold matches4, ext_is31 in Hi |- *. destruct (i_ext i); cbv beta iota.
  - replace (31 =? i_op i) with false by lia. reflexivity.
  - reflexivity.
  - replace (31 =? i_op i) with false by lia. reflexivity.
  - replace (31 =? i_op i) with false by lia. reflexivity.
Qed.
Lemma tcls_31 xo l2 l3 : tcls 31 xo l2 l3 = tcls 31 xo 0 0.
Proof. unfold tcls. now rewrite (find_31 xo l2 l3 _ table31). Qed.
Lemma find_rest op xo l2 l3 t : op <> 31 -> forallb ext_is31 t = true ->
  find (matches4 op xo l2 l3) t = find (matches4 op 0 l2 l3) t.
Proof.
  intro Hop. induction t as [|i t IH]; [reflexivity|].
  cbn [forallb find]. rewrite andb_true_iff; intros [Hi Ht]. rewrite (IH Ht).
  unfold matches4, ext_is31 in Hi |- *. destruct (i_ext i); cbv beta iota; try reflexivity.
  replace (op =? i_op i) with false by lia. reflexivity.
Qed.
Lemma tcls_rest op xo l2 l3 : op <> 31 -> tcls op xo l2 l3 = tcls op 0 l2 l3.
Proof. intro Hop. unfold tcls. now rewrite (find_rest op xo l2 l3 _ Hop table31). Qed.

Lemma cls_tcls op xo l3 : op < 64 -> xo < 1024 -> l3 < 8 ->
  cls op xo (l3 mod 4) l3 = tcls op xo (l3 mod 4) l3.
Proof.
  intros Ho Hx Hl. destruct (N.eq_dec op 31) as [->|Hop].
  - rewrite tcls_31. pose proof check31 as H. rewrite forallb_forall in H.
    apply res_eqb_eq, (H xo), in_upto. exact Hx.
  - rewrite (tcls_rest _ xo) by assumption.
    transitivity (cls op 0 (l3 mod 4) l3).
    + unfold cls. destruct op as [|p]; [reflexivity|].
      repeat (destruct p as [p|p|]; try reflexivity). now elim Hop.
    + pose proof check_rest as H. rewrite forallb_forall in H.
      specialize (H op (in_upto op 64 Ho)). apply orb_true_iff in H.
      destruct H as [H|H]; [apply N.eqb_eq in H; contradiction|].
      rewrite forallb_forall in H. apply res_eqb_eq, (H l3), in_upto, Hl.
Qed.

Lemma bits_low w : bits w 30 2 = bits w 29 3 mod 4.
Proof.
  unfold bits. change (32 - 30 - 2) with 0. change (32 - 29 - 3) with 0.
  change (2 ^ 0) with 1. rewrite !N.div_1_r. change (2 ^ 2) with 4. change (2 ^ 3) with 8. lia.
Qed.

Lemma storage_isa w g : (forall r, g r < 2 ^ 64) -> is_storage_insn w g = isa_answer w g.
Proof.
  intro Hg. rewrite storage_cls by exact Hg.
  rewrite bits_low, cls_tcls by apply bits_lt. rewrite <- bits_low.
  unfold isa_answer, decode, tcls, matches, matches4, ev.
  destruct (find _ isa_table) as [i|]; reflexivity.
Qed.

(** No word is two instructions. *)
Definition ext_overlap (a b : ext) : bool :=
  match a, b with
  | NoExt, _ | _, NoExt => true
  | Xo10 x, Xo10 y => x =? y
  | Xo2 x, Xo2 y => x =? y
  | Xo3 x, Xo3 y => x =? y
  | Xo2 x, Xo3 y | Xo3 y, Xo2 x => y mod 4 =? x
  | _, _ => true
  end.
Fixpoint pairwise (l : list isa) : bool :=
  match l with
  | [] => true
  | i :: l => forallb (fun j => negb ((i_op i =? i_op j) && ext_overlap (i_ext i) (i_ext j))) l && pairwise l
  end.
Lemma table_pairwise : pairwise isa_table = true.
Proof. vm_compute. reflexivity. Qed.

Lemma matches_overlap w i j : matches w i = true -> matches w j = true ->
  (i_op i =? i_op j) && ext_overlap (i_ext i) (i_ext j) = true.
Proof.
  unfold matches. rewrite bits_low, !andb_true_iff. intros [H1 H2] [H3 H4].
  split; [lia|]. destruct (i_ext i), (i_ext j); cbn; try reflexivity; lia.
Qed.

Lemma pairwise_unique w l i j : pairwise l = true -> In i l -> In j l ->
  matches w i = true -> matches w j = true -> i = j.
Proof.
  intros Hp Hi Hj Mi Mj. induction l as [|k l IH]; [contradiction|].
  cbn [pairwise] in Hp. apply andb_true_iff in Hp. destruct Hp as [Hk Hp].
  rewrite forallb_forall in Hk.
  destruct Hi as [->|Hi], Hj as [->|Hj]; auto.
  - specialize (Hk _ Hj). now rewrite (matches_overlap w) in Hk.
  - specialize (Hk _ Hi). now rewrite (matches_overlap w) in Hk.
Qed.

Lemma decode_unique w i : decode w = Some i <-> In i isa_table /\ matches w i = true.
Proof.
  split.
  - intro H. apply find_some in H. exact H.
  - intros [Hi Mi]. unfold decode. destruct (find (matches w) isa_table) as [j|] eqn:E.
    + apply find_some in E. destruct E as [Hj Mj]. f_equal.
      exact (pairwise_unique w _ _ _ table_pairwise Hj Hi Mj Mi).
    + pose proof (find_none _ _ E _ Hi) as X. congruence.
Qed.

Definition same_kind (a b : sres) : Prop :=
  match a, b with
  | SNo, SNo | SAbort, SAbort | SYes _ _, SYes _ _ => True
  | _, _ => False
  end.
Lemma kind_word w g g' : (forall r, g r < 2 ^ 64) -> (forall r, g' r < 2 ^ 64) ->
  same_kind (is_storage_insn w g) (is_storage_insn w g').
Proof.
  intros Hg Hg'. rewrite !storage_isa by assumption. unfold isa_answer.
  destruct (decode w) as [i|]; [|exact I]. now destruct (i_bytes i).
Qed.

Lemma v31_no w g : bits w 0 6 = 1 \/ bits w 0 6 = 6 -> is_storage_insn w g = SNo.
Proof.
  intro H. unfold is_storage_insn, PPC_OPC. rewrite field_bits. destruct H as [-> | ->]; reflexivity.
Qed.
