(** Proofs about qtlib/bb.c: logging. *)
Require Import NArith ZArith List Bool Permutation Lia Arith.
Require Import ZifyBool ZifyN ZifyNat.
Require Import Verif.Word Verif.Bb_Model Verif.Bb_Spec.
Import ListNotations.
Local Open Scope N_scope.

Lemma filter_app' : forall A (f : A -> bool) a b, filter f (a ++ b) = filter f a ++ filter f b.
Proof. intros. induction a; cbn; [reflexivity|]. destruct (f a); cbn; now rewrite IHa. Qed.

Lemma filter_none : forall A (f : A -> bool) l, (forall x, In x l -> f x = true) -> filter f l = l.
Proof.
  induction l; intros H; [reflexivity|]. cbn. rewrite H by (now left). f_equal.
  apply IHl. intros; apply H; now right.
Qed.

Lemma firsts_in : forall log a, In a (firsts log) <-> In a log.
Proof.
  induction log as [|b log IH]; intros a; [reflexivity|]. cbn. rewrite filter_In, IH.
  destruct (N.eq_dec a b) as [->|Hn]; [tauto|].
  assert (negb (a =? b) = true) by lia. intuition (subst; tauto).
Qed.

Lemma firsts_nodup : forall log, NoDup (firsts log).
Proof.
  induction log as [|b log IH]; cbn; constructor.
  - rewrite filter_In. intros [_ H]. lia.
  - now apply NoDup_filter.
Qed.

Lemma firsts_snoc : forall log a, firsts (log ++ [a]) =
  if in_dec N.eq_dec a log then firsts log else firsts log ++ [a].
Proof.
  induction log as [|b log IH]; intros a; [reflexivity|].
  cbn [app firsts]. rewrite IH.
  destruct (in_dec N.eq_dec a log) as [H|H];
    destruct (in_dec N.eq_dec a (b :: log)) as [H'|H'].
  - reflexivity.
  - exfalso. apply H'. now right.
  - destruct H' as [->|H']; [|tauto]. rewrite filter_app'. cbn.
    rewrite N.eqb_refl. cbn. now rewrite app_nil_r.
  - rewrite filter_app'. cbn. assert (a <> b) by (intro; subst; apply H'; now left).
    replace (negb (a =? b)) with true by lia. reflexivity.
Qed.

Lemma occ_snoc : forall log a b, occ a (log ++ [b]) = occ a log + (if a =? b then 1 else 0).
Proof.
  intros log a b. unfold occ. rewrite count_occ_app. cbn.
  destruct (N.eq_dec b a) as [->|H]; [rewrite N.eqb_refl|replace (a =? b) with false by lia]; lia.
Qed.

(** Position of the first match. *)
Fixpoint pos (a : N) (l : list N) : option nat :=
  match l with
  | [] => None
  | b :: l' => if b =? a then Some O else option_map S (pos a l')
  end.
Lemma pos_in : forall a l, In a l -> exists i, pos a l = Some i /\ nth_error l i = Some a.
Proof.
  induction l as [|b l IH]; intros H; [destruct H|]. cbn.
  destruct (b =? a) eqn:E.
  - exists O. split; [reflexivity|]. cbn. f_equal. lia.
  - destruct H as [->|H]; [lia|]. destruct (IH H) as (i & -> & E2). exists (S i). now split.
Qed.
Lemma pos_none : forall a l, ~ In a l -> pos a l = None.
Proof.
  induction l as [|b l IH]; intros H; [reflexivity|]. cbn.
  replace (b =? a) with false. 2:{ symmetry. apply N.eqb_neq. intros ->. apply H. now left. }
  rewrite IH; [reflexivity|]. intro. apply H. now right.
Qed.
Lemma pos_app : forall a l x, pos a (l ++ [x]) =
  match pos a l with Some i => Some i | None => if x =? a then Some (length l) else None end.
Proof.
  induction l as [|b l IH]; intros x; cbn.
  - now destruct (x =? a).
  - destruct (b =? a); [reflexivity|]. rewrite IH. destruct (pos a l); [reflexivity|].
    now destruct (x =? a).
Qed.

(** ** The invariant *)
Definition inv (log : list N) (s : bbs) : Prop :=
  (exists k, bb_arr s = Some (profile log ++ repeat zero_bbe k)) /\
  bb_next s = N.of_nat (length (firsts log)) /\
  bb_num s = N.of_nat (length log) mod 2 ^ 64 /\
  (forall a, ht_get (bb_ht s) a = option_map N.of_nat (pos a (firsts log))) /\
  exists j, bb_size s = 2 ^ j /\ j <= 30.

Lemma profile_length : forall log, length (profile log) = length (firsts log).
Proof. intros. apply map_length. Qed.

Lemma ht_get_cons : forall h a i b,
  ht_get ((a, i) :: h) b = if a =? b then Some i else ht_get h b.
Proof. intros. unfold ht_get. cbn. now destruct (a =? b). Qed.

Lemma update_mid : forall pre t post f,
  bb_update (pre ++ t :: post) (N.of_nat (length pre)) f = BOk (pre ++ f t :: post).
Proof.
  intros. unfold bb_update. rewrite Nat2N.id.
  rewrite nth_error_app2, Nat.sub_diag by lia. cbn [nth_error].
  f_equal. rewrite firstn_app, Nat.sub_diag, firstn_all. cbn [firstn].
  rewrite app_nil_r. f_equal. f_equal.
  change (S (length pre)) with (1 + length pre)%nat.
  rewrite skipn_app. rewrite skipn_all2 by lia.
  replace (1 + length pre - length pre)%nat with 1%nat by lia. reflexivity.
Qed.

Lemma profile_update : forall log a i, nth_error (firsts log) i = Some a -> In a log ->
  exists pre t post, profile log = pre ++ t :: post /\ length pre = i /\
    profile (log ++ [a]) = pre ++ mk_bbe (b_ea t) (b_size t) (add64 (b_hit t) 1) (b_valid t) :: post.
Proof.
  intros log a i E Hin.
  destruct (nth_error_split _ _ E) as (l1 & l2 & El & Hl).
  assert (Hnd := firsts_nodup log). rewrite El in Hnd.
  apply NoDup_remove_2 in Hnd. rewrite in_app_iff in Hnd.
  set (f := fun a0 => mk_bbe a0 1 (occ a0 log mod 2 ^ 64) true).
  exists (map f l1), (f a), (map f l2).
  split; [unfold profile; rewrite El, map_app; reflexivity|].
  split; [now rewrite map_length|].
  unfold profile. rewrite firsts_snoc.
  destruct (in_dec N.eq_dec a log); [|tauto].
  rewrite El, map_app. cbn [map]. f_equal; [|f_equal].
  - apply map_ext_in. intros b Hb. unfold f. rewrite occ_snoc.
    replace (b =? a) with false. { now rewrite N.add_0_r. }
    symmetry. apply N.eqb_neq. intros ->. tauto.
  - unfold f. cbn. rewrite occ_snoc, N.eqb_refl. f_equal. unfold add64.
    change w64 with (2 ^ 64). rewrite N.add_mod_idemp_l by lia. reflexivity.
  - apply map_ext_in. intros b Hb. unfold f. rewrite occ_snoc.
    replace (b =? a) with false. { now rewrite N.add_0_r. }
    symmetry. apply N.eqb_neq. intros ->. tauto.
Qed.

Lemma profile_new : forall log a, ~ In a log ->
  profile (log ++ [a]) = profile log ++ [mk_bbe a 1 1 true].
Proof.
  intros log a H. unfold profile. rewrite firsts_snoc.
  destruct (in_dec N.eq_dec a log); [tauto|]. rewrite map_app. f_equal.
  - apply map_ext_in. intros b Hb. rewrite occ_snoc.
    replace (b =? a) with false. { now rewrite N.add_0_r. }
    symmetry. apply N.eqb_neq. intros ->. rewrite firsts_in in Hb. tauto.
  - cbn. rewrite occ_snoc, N.eqb_refl. unfold occ.
    rewrite (proj1 (count_occ_not_In N.eq_dec log a) H). reflexivity.
Qed.

Lemma num_step : forall (log : list N) a n, n = N.of_nat (length log) mod 2 ^ 64 ->
  add64 n 1 = N.of_nat (length (log ++ [a])) mod 2 ^ 64.
Proof.
  intros. subst. unfold add64. change w64 with (2 ^ 64).
  rewrite N.add_mod_idemp_l by lia. rewrite app_length. cbn [length]. f_equal. lia.
Qed.

(** The number of distinct addresses the table can hold before bb.size
    overflows. *)
Lemma log_step : forall log s a, inv log s ->
  (N.of_nat (length (firsts (log ++ [a]))) <= 2 ^ 30 ->
     exists s', bb_ea_log s a = BOk s' /\ inv (log ++ [a]) s') /\
  (2 ^ 30 < N.of_nat (length (firsts (log ++ [a]))) -> bb_ea_log s a = BErr BOverflow \/
     exists s', bb_ea_log s a = BOk s' /\ inv (log ++ [a]) s').
Proof.
  intros log s a ((k & Ha) & Hn & Hc & Hh & j & Hs & Hb).
  assert (Hpos : 0 < 2 ^ j) by (apply N.neq_0_lt_0, N.pow_nonzero; lia).
  assert (Hle : 2 ^ j <= 2 ^ 30) by (apply N.pow_le_mono_r; lia).
  destruct (in_dec N.eq_dec a log) as [Hin|Hin].
  - assert (G : exists s', bb_ea_log s a = BOk s' /\ inv (log ++ [a]) s').
    { destruct (pos_in a (firsts log)) as (i & Ep & Ei); [now apply firsts_in|].
      destruct (profile_update log a i Ei Hin) as (pre & t & post & E1 & E2 & E3).
      unfold bb_ea_log. rewrite Hh, Ep. cbn [option_map].
      unfold arr. rewrite Ha, E1, <- app_assoc. cbn [app]. rewrite <- E2, update_mid.
      eexists. split; [reflexivity|]. unfold inv. cbn [bb_arr bb_next bb_num bb_ht].
      rewrite firsts_snoc. destruct (in_dec N.eq_dec a log); [|tauto].
      split; [exists k; rewrite E3, <- app_assoc; reflexivity|].
      split; [exact Hn|]. split; [apply num_step; exact Hc|]. split; [exact Hh|].
      exists j. split; [|exact Hb]. rewrite <- Hs.
      unfold bb_size, arr in *. cbn [bb_arr]. rewrite Ha, E1.
      rewrite !app_length. cbn [length]. rewrite !app_length. lia. }
    split; intros; [exact G|right; exact G].
  - (* new address *)
    assert (Hnone : pos a (firsts log) = None) by (apply pos_none; rewrite firsts_in; exact Hin).
    assert (Hlen : length (firsts (log ++ [a])) = S (length (firsts log))).
    { rewrite firsts_snoc. destruct (in_dec N.eq_dec a log); [tauto|].
      rewrite app_length. cbn. lia. }
    rewrite Hlen.
    assert (Hput : forall s1 k1, bb_arr s1 = Some (profile log ++ repeat zero_bbe (S k1)) ->
       bb_next s1 = bb_next s -> bb_ht s1 = bb_ht s -> (exists j1, bb_size s1 = 2 ^ j1 /\ j1 <= 30) ->
       exists l, bb_update (arr s1) (bb_next s1) (fun _ => mk_bbe a 1 1 true) = BOk l /\
         inv (log ++ [a]) (mk_bbs (Some l) (bb_next s1 + 1) (add64 (bb_num s) 1)
                                  ((a, bb_next s1) :: bb_ht s1))).
    { intros s1 k1 E1 E2 E3 E4. unfold arr. rewrite E1, E2, E3, Hn, <- profile_length.
      cbn [repeat]. rewrite update_mid. eexists. split; [reflexivity|].
      unfold inv. cbn [bb_arr bb_next bb_num bb_ht].
      split; [exists k1; rewrite profile_new by exact Hin; now rewrite <- app_assoc|].
      split; [rewrite profile_length, Hlen; lia|]. split; [apply num_step; exact Hc|].
      split.
      - intros b. rewrite ht_get_cons, firsts_snoc.
        destruct (in_dec N.eq_dec a log); [tauto|]. rewrite pos_app.
        destruct (a =? b) eqn:E.
        + apply N.eqb_eq in E. subst b. rewrite Hnone, profile_length. reflexivity.
        + rewrite Hh. now destruct (pos b (firsts log)).
      - destruct E4 as (j1 & E4 & E5). exists j1. split; [|exact E5]. rewrite <- E4.
        unfold bb_size, arr in *. cbn [bb_arr]. rewrite E1.
        rewrite !app_length. cbn [repeat length]. lia. }
    unfold bb_ea_log. rewrite Hh, Hnone. cbn [option_map].
    destruct (bb_size s =? bb_next s) eqn:Efull.
    + (* reallocate *)
      unfold bb_allocate. rewrite Ha.
      assert (k = O) as ->.
      { unfold bb_size, arr in Efull. rewrite Ha, app_length, repeat_length, profile_length in Efull.
        lia. }
      cbn [repeat] in *. rewrite app_nil_r in *.
      assert (Hsz : bb_size s = N.of_nat (length (firsts log))) by lia.
      destruct (bb_size s * 2 <? 2147483648) eqn:Eo.
      * set (s1 := mk_bbs _ _ _ _).
        assert (exists k1, length (profile log) = S k1) as [k1 Ek].
        { rewrite profile_length. exists (pred (length (firsts log))). lia. }
        destruct (Hput s1 k1) as (l & El & Hi).
        { subst s1. cbn [bb_arr]. now rewrite Ek. }
        { reflexivity. } { reflexivity. }
        { exists (j + 1). subst s1. unfold bb_size, arr. cbn [bb_arr].
          rewrite app_length, repeat_length, profile_length.
          rewrite N.add_1_r, N.pow_succ_r' in *. split; [lia|].
          apply N.lt_succ_r. apply (N.pow_lt_mono_r_iff 2); [lia|].
          rewrite N.pow_succ_r'. change (2 ^ N.succ 30) with 2147483648. lia. }
        rewrite El. split; intros; [|right]; eexists; (split; [reflexivity|exact Hi]).
      * split; intros; [lia|left; reflexivity].
    + (* room *)
      destruct k as [|k].
      { exfalso. unfold bb_size, arr in Efull. rewrite Ha, app_length, profile_length in Efull.
        cbn in Efull. lia. }
      destruct (Hput s k) as (l & El & Hi); [exact Ha|reflexivity|reflexivity|exists j; now split|].
      rewrite El. split; intros; [|right]; eexists; (split; [reflexivity|exact Hi]).
Qed.

Lemma firsts_prefix_le : forall l log, (length (firsts log) <= length (firsts (log ++ l)))%nat.
Proof.
  induction l as [|a l IH]; intros log; [rewrite app_nil_r; lia|].
  change (a :: l) with ([a] ++ l). rewrite app_assoc.
  specialize (IH (log ++ [a])). rewrite firsts_snoc in IH at 1.
  destruct (in_dec N.eq_dec a log); [exact IH|]. rewrite app_length in IH. cbn in IH. lia.
Qed.

Lemma log_all : forall l log s, inv log s ->
  N.of_nat (length (firsts (log ++ l))) <= 2 ^ 30 ->
  exists s', bb_log_all s l = BOk s' /\ inv (log ++ l) s'.
Proof.
  induction l as [|a l IH]; intros log s Hi Hl.
  - exists s. rewrite app_nil_r. now split.
  - cbn [bb_log_all].
    change (a :: l) with ([a] ++ l) in *. rewrite app_assoc in *.
    assert (Hp := firsts_prefix_le l (log ++ [a])).
    destruct (proj1 (log_step log s a Hi)) as (s' & E & Hi'); [lia|].
    cbn [app] in *. rewrite E. apply IH; assumption.
Qed.

Lemma init_inv : exists s, bb_init = BOk s /\ inv [] s.
Proof.
  eexists. split; [reflexivity|]. unfold inv. cbn.
  split; [exists 1%nat; reflexivity|]. repeat split; try reflexivity; try lia.
  exists 0. split; [reflexivity|lia].
Qed.

(** Sums *)
Lemma sum_occ : forall log,
  sumN (map (fun a => occ a log) (firsts log)) = N.of_nat (length log).
Proof.
  intros log. induction log as [|a log IH] using rev_ind; [reflexivity|].
  rewrite firsts_snoc, app_length. cbn [length].
  assert (G : forall l, NoDup l -> sumN (map (fun b => occ b (log ++ [a])) l)
     = sumN (map (fun b => occ b log) l) + (if in_dec N.eq_dec a l then 1 else 0)).
  { induction l as [|b l IHl]; intros Hnd; [reflexivity|].
    inversion Hnd; subst. cbn [map sumN fold_right]. fold (sumN (map (fun b0 => occ b0 (log ++ [a])) l)).
    fold (sumN (map (fun b0 => occ b0 log) l)). rewrite IHl by assumption. rewrite occ_snoc.
    destruct (b =? a) eqn:E.
    - apply N.eqb_eq in E. subst b.
      destruct (in_dec N.eq_dec a l); [tauto|].
      destruct (in_dec N.eq_dec a (a :: l)) as [|Hx]; [lia|exfalso; apply Hx; now left].
    - destruct (in_dec N.eq_dec a l); destruct (in_dec N.eq_dec a (b :: l)) as [Hy|Hy]; try lia.
      + exfalso. apply Hy. now right.
      + destruct Hy; [lia|tauto]. }
  assert (Hnd := firsts_nodup log).
  destruct (in_dec N.eq_dec a log) as [Hin|Hin].
  - rewrite G by exact Hnd. rewrite IH.
    destruct (in_dec N.eq_dec a (firsts log)) as [|Hx]; [lia|].
    exfalso. apply Hx. now apply firsts_in.
  - rewrite map_app. unfold sumN. rewrite fold_right_app. cbn [map fold_right].
    assert (occ a (log ++ [a]) = 1) as ->.
    { rewrite occ_snoc, N.eqb_refl. unfold occ.
      rewrite (proj1 (count_occ_not_In N.eq_dec log a) Hin). reflexivity. }
    assert (H0 : forall l c, fold_right N.add c l = sumN l + c).
    { intros l c. induction l as [|x l IHl]; [reflexivity|]. cbn. rewrite IHl. unfold sumN. lia. }
    rewrite H0, G by exact Hnd. rewrite IH.
    destruct (in_dec N.eq_dec a (firsts log)) as [Hx|]; [rewrite firsts_in in Hx; tauto|]. lia.
Qed.

Lemma sum_mod : forall l, sumN (map (fun x => x mod 2 ^ 64) l) mod 2 ^ 64 = sumN l mod 2 ^ 64.
Proof.
  induction l as [|a l IH]; [reflexivity|]. cbn [map sumN fold_right].
  fold (sumN (map (fun x => x mod 2 ^ 64) l)). fold (sumN l).
  rewrite N.add_mod, IH, N.mod_mod, <- N.add_mod by lia. reflexivity.
Qed.

Theorem counts : forall log, N.of_nat (length (firsts log)) <= 2 ^ 30 ->
  exists s, bb_run log = BOk s /\
    firstn (N.to_nat (bb_next s)) (arr s) = profile log /\
    bb_next s <= bb_size s /\
    bb_num s = N.of_nat (length log) mod 2 ^ 64 /\
    sumN (map b_hit (profile log)) mod 2 ^ 64 = bb_num s.
Proof.
  intros log H. destruct init_inv as (s0 & E0 & H0).
  destruct (log_all log [] s0 H0 H) as (s & E & (k & Ha) & Hn & Hc & _ & _).
  cbn [app] in *. exists s. unfold bb_run. rewrite E0. split; [exact E|].
  split; [|split; [|split; [exact Hc|]]].
  - rewrite Hn, Nat2N.id. unfold arr. rewrite Ha, <- profile_length.
    rewrite firstn_app, Nat.sub_diag, firstn_all. cbn [firstn]. apply app_nil_r.
  - unfold bb_size, arr. rewrite Ha, Hn, app_length, profile_length. lia.
  - rewrite Hc, <- (sum_occ log), <- (sum_mod (map (fun a => occ a log) (firsts log))).
    unfold profile. rewrite !map_map. reflexivity.
Qed.

(** The only way to fail is the int overflow of the table size. *)
Lemma log_all_err : forall l log s e, inv log s -> bb_log_all s l = BErr e ->
  e = BOverflow /\ 2 ^ 30 < N.of_nat (length (firsts (log ++ l))).
Proof.
  induction l as [|a l IH]; intros log s e Hi E; [discriminate|].
  cbn [bb_log_all] in E. change (a :: l) with ([a] ++ l) in *. rewrite app_assoc in *.
  assert (Hp := firsts_prefix_le l (log ++ [a])).
  destruct (N.le_gt_cases (N.of_nat (length (firsts (log ++ [a])))) (2 ^ 30)) as [Hl|Hl].
  - destruct (proj1 (log_step log s a Hi) Hl) as (s' & E' & Hi').
    rewrite E' in E. eapply IH; eassumption.
  - destruct (proj2 (log_step log s a Hi) Hl) as [E'|(s' & E' & Hi')]; rewrite E' in E.
    + split; [congruence|lia].
    + eapply IH; eassumption.
Qed.

Lemma inv_bound : forall log s, inv log s -> N.of_nat (length (firsts log)) <= 2 ^ 30.
Proof.
  intros log s ((k & Ha) & Hn & _ & _ & j & Hs & Hb).
  assert (Hle : 2 ^ j <= 2 ^ 30) by (apply N.pow_le_mono_r; lia).
  unfold bb_size, arr in Hs. rewrite Ha, app_length, profile_length in Hs. lia.
Qed.

Lemma log_all_inv : forall l log s s', inv log s -> bb_log_all s l = BOk s' -> inv (log ++ l) s'.
Proof.
  induction l as [|a l IH]; intros log s s' Hi E.
  - injection E as <-. now rewrite app_nil_r.
  - cbn [bb_log_all] in E. change (a :: l) with ([a] ++ l). rewrite app_assoc.
    destruct (N.le_gt_cases (N.of_nat (length (firsts (log ++ [a])))) (2 ^ 30)) as [Hl|Hl].
    + destruct (proj1 (log_step log s a Hi) Hl) as (s1 & E' & Hi').
      rewrite E' in E. eapply IH; eassumption.
    + destruct (proj2 (log_step log s a Hi) Hl) as [E'|(s1 & E' & Hi')]; rewrite E' in E;
        [discriminate|]. eapply IH; eassumption.
Qed.

Theorem fails_iff : forall log e,
  bb_run log = BErr e <-> e = BOverflow /\ 2 ^ 30 < N.of_nat (length (firsts log)).
Proof.
  intros log e. destruct init_inv as (s0 & E0 & H0). unfold bb_run. rewrite E0. split.
  - intros E. exact (log_all_err log [] s0 e H0 E).
  - intros [-> Hl]. destruct (bb_log_all s0 log) as [s|e] eqn:E.
    + apply (log_all_inv log [] s0 s H0) in E. apply inv_bound in E. cbn [app] in E. lia.
    + now destruct (log_all_err log [] s0 e H0 E) as [-> _].
Qed.
