Require Import ZArith List Bool Lia Arith.
Require Import Verif.Pids_Model Verif.Pids_Spec.
Import ListNotations.

Lemma set_nth_len l i v : i < length l -> length (set_nth l i v) = length l.
Proof.
  intro H. unfold set_nth. rewrite app_length. cbn [length].
  rewrite firstn_length, skipn_length. lia.
Qed.

Lemma split_slots (l : list pid) i p : nth_error l i = Some p ->
  l = firstn i l ++ p :: skipn (S i) l.
Proof.
  revert i. induction l as [|a l IH]; intros [|i] H; cbn in *; try discriminate.
  - now injection H as ->.
  - f_equal. now apply IH.
Qed.
Lemma nth_error_lt {A} (l : list A) i : i < length l -> exists x, nth_error l i = Some x.
Proof.
  intro H. destruct (nth_error l i) eqn:E; [eauto|]. apply nth_error_None in E. lia.
Qed.

Lemma firstn_set l n v : n < length l -> firstn (S n) (set_nth l n v) = firstn n l ++ [v].
Proof.
  intro H. unfold set_nth. rewrite firstn_app.
  rewrite firstn_length, Nat.min_l by lia.
  rewrite (firstn_all2 (n := S n)) by (rewrite firstn_length; lia).
  replace (S n - n) with 1 by lia. reflexivity.
Qed.

Lemma some_inj {A} (x y : A) : Some x = Some y -> x = y.
Proof. congruence. Qed.
(** Searching *)
Lemma search_ok l v : forall n i, i + n <= length l ->
  search l n i v = Some (match index_of v (map p_pid (firstn n (skipn i l))) with
                         | Some k => i + k | None => i + n end).
Proof.
  induction n as [|n IH]; intros i H; cbn [search].
  - cbn. now rewrite Nat.add_0_r.
  - destruct (nth_error_lt l i) as [p E]; [lia|]. rewrite E.
    assert (Es : skipn i l = p :: skipn (S i) l).
    { rewrite (split_slots l i p E) at 1. rewrite skipn_app.
      rewrite firstn_length, Nat.min_l by lia. rewrite Nat.sub_diag.
      rewrite skipn_all2 by (rewrite firstn_length; lia). reflexivity. }
    rewrite Es. cbn [firstn map index_of]. destruct (p_pid p =? v)%Z.
    + f_equal. lia.
    + rewrite IH by lia.
      destruct (index_of v (map p_pid (firstn n (skipn (S i) l)))); cbn [option_map]; f_equal; lia.
Qed.

Lemma index_lt v l k : index_of v l = Some k -> k < length l.
Proof.
  revert k. induction l as [|x l IH]; intros k H; cbn in *; [discriminate|].
  destruct (x =? v)%Z; [injection H as <-; lia|].
  destruct (index_of v l) as [j|]; [|discriminate]. injection H as <-. specialize (IH j eq_refl). lia.
Qed.

(** Shifting down *)
Lemma shift_ok : forall n l i, i + n < length l ->
  shift l n i = Some (firstn i l ++ firstn n (skipn (S i) l) ++ skipn (i + n) l).
Proof.
  induction n as [|n IH]; intros l i H; cbn [shift].
  - cbn [firstn app]. rewrite Nat.add_0_r. f_equal. symmetry. apply firstn_skipn.
  - destruct (nth_error_lt l (S i)) as [p E]; [lia|]. rewrite E.
    rewrite IH by (rewrite set_nth_len; lia). f_equal.
    assert (Es : skipn (S i) l = p :: skipn (S (S i)) l).
    { rewrite (split_slots l (S i) p E) at 1. rewrite skipn_app.
      rewrite firstn_length, Nat.min_l by lia. rewrite Nat.sub_diag.
      rewrite skipn_all2 by (rewrite firstn_length; lia). reflexivity. }
    rewrite firstn_set by lia.
    assert (Hsk : forall k, S i <= k -> skipn k (set_nth l i p) = skipn k l).
    { intros k Hk. unfold set_nth. rewrite skipn_app, firstn_length, Nat.min_l by lia.
      rewrite skipn_all2 by (rewrite firstn_length; lia). cbn [app].
      replace (k - i) with (S (k - S i)) by lia. cbn [skipn].
      clear - Hk H. revert i k Hk H. induction l as [|x l IHl]; intros i k Hk H; [now rewrite !skipn_nil|].
      destruct k as [|k]; [lia|]. cbn [skipn]. destruct i as [|i].
      - rewrite Nat.sub_succ, Nat.sub_0_r. reflexivity.
      - rewrite <- (IHl i k); [|lia|cbn in H; lia]. reflexivity. }
    rewrite (Hsk (S (S i))) by lia. rewrite (Hsk (S i + n)) by lia.
    rewrite Es. cbn [firstn]. rewrite <- app_assoc. cbn [app].
    replace (i + S n) with (S i + n) by lia. reflexivity.
Qed.

Lemma remove_index v l : remove_first v l =
  match index_of v l with Some k => firstn k l ++ skipn (S k) l | None => l end.
Proof.
  induction l as [|x l IH]; cbn [remove_first index_of]; [reflexivity|].
  destruct (x =? v)%Z; [reflexivity|]. rewrite IH.
  destruct (index_of v l); reflexivity.
Qed.

Lemma map_firstn {A B} (f : A -> B) n l : map f (firstn n l) = firstn n (map f l).
Proof. symmetry. apply firstn_map. Qed.
Lemma map_skipn {A B} (f : A -> B) n l : map f (skipn n l) = skipn n (map f l).
Proof. symmetry. apply skipn_map. Qed.

(** The live part after removal at [i]: the counters move with the threads. *)
Lemma remove_live t v t' max l : holds max t l -> length l <= max -> remove_pid t v = Some t' ->
  live t' = match index_of v l with
            | Some k => firstn k (live t) ++ skipn (S k) (live t)
            | None => live t end.
Proof.
  intros (Hlen & Hnr & Hl) Hmax. unfold remove_pid.
  rewrite search_ok by lia. change (skipn 0 (slots t)) with (slots t).
  change (firstn (nr_pids t) (slots t)) with (live t). rewrite Hl.
  destruct (index_of v l) as [k|] eqn:E; cbn [Nat.add].
  - assert (Hk := index_lt _ _ _ E).
    replace (Nat.eqb k (nr_pids t)) with false by (symmetry; apply Nat.eqb_neq; lia).
    rewrite shift_ok by lia. intro H. injection H as <-.
    unfold live. cbn [slots nr_pids].
    rewrite firstn_app, firstn_length, Nat.min_l by lia.
    rewrite (firstn_all2 (n := nr_pids t - 1)) by (rewrite firstn_length; lia).
    rewrite firstn_firstn, Nat.min_l by lia. f_equal.
    change (match slots t with [] => [] | _ :: l0 => skipn k l0 end) with (skipn (S k) (slots t)).
    rewrite skipn_firstn_comm, firstn_app, firstn_firstn, firstn_length, skipn_length.
    replace (nr_pids t - 1 - k - Nat.min (nr_pids t - 1 - k) (length (slots t) - S k)) with 0 by lia.
    rewrite firstn_O, app_nil_r, Nat.min_id. f_equal. lia.
  - rewrite Nat.eqb_refl. intro H. now injection H as <-.
Qed.

Lemma do_op_ok max t l o : holds max t l -> length l <= max ->
  exists t', do_op max t o = Some (t', snd (spec_op max l o)) /\
    holds max t' (fst (spec_op max l o)) /\ length (fst (spec_op max l o)) <= max.
Proof.
  intros Hh Hmax. assert (Hh' := Hh). destruct Hh' as (Hlen & Hnr & Hl). destruct o as [v|v|v]; cbn [do_op spec_op].
  - unfold add_pid. rewrite Hnr. destruct (Nat.eqb (length l) max) eqn:E.
    + exists t. cbn. auto.
    + apply Nat.eqb_neq in E. destruct (nth_error_lt (slots t) (length l)) as [old Eo]; [lia|].
      rewrite Eo. eexists. split; [reflexivity|]. cbn [fst].
      rewrite app_length. cbn [length]. split; [|lia].
      split; [cbn [slots]; rewrite set_nth_len; lia|].
      split; [cbn [nr_pids]; rewrite app_length; cbn; lia|].
      unfold live. cbn [slots nr_pids]. rewrite firstn_set by lia. rewrite map_app. cbn [map p_pid].
      unfold live in Hl. rewrite Hnr in Hl. now rewrite Hl.
  - unfold find_pid. rewrite search_ok by lia. change (skipn 0 (slots t)) with (slots t).
    change (firstn (nr_pids t) (slots t)) with (live t). rewrite Hl.
    destruct (index_of v l) as [k|] eqn:E; cbn [Nat.add option_map fst snd].
    + assert (Hk := index_lt _ _ _ E).
      replace (Nat.eqb k (nr_pids t)) with false by (symmetry; apply Nat.eqb_neq; lia). eauto.
    + rewrite Nat.eqb_refl. eauto.
  - destruct (remove_pid t v) as [t'|] eqn:Er.
    + exists t'. split; [reflexivity|]. cbn [fst].
      assert (Hlive := remove_live t v t' max l Hh Hmax Er).
      assert (Hs : length (slots t') = max /\ nr_pids t' = length (remove_first v l)).
      { revert Er. unfold remove_pid. rewrite search_ok by lia. change (skipn 0 (slots t)) with (slots t).
        change (firstn (nr_pids t) (slots t)) with (live t). rewrite Hl, remove_index.
        destruct (index_of v l) as [k|] eqn:E; cbn [Nat.add].
        - assert (Hk := index_lt _ _ _ E).
          replace (Nat.eqb k (nr_pids t)) with false by (symmetry; apply Nat.eqb_neq; lia).
          rewrite shift_ok by lia. intro H. apply some_inj in H. subst t'. cbn [slots nr_pids].
          rewrite !app_length, !firstn_length, !skipn_length. lia.
        - rewrite Nat.eqb_refl. intro H. now injection H as <-. }
      destruct Hs as [Hs1 Hs2]. split; [|rewrite remove_index; destruct (index_of v l);
        [rewrite app_length, firstn_length, skipn_length; lia|lia]].
      split; [exact Hs1|]. split; [exact Hs2|]. rewrite Hlive, remove_index.
      destruct (index_of v l); [|exact Hl].
      rewrite map_app, map_firstn, map_skipn, Hl. reflexivity.
    + exfalso. revert Er. unfold remove_pid. rewrite search_ok by lia. change (skipn 0 (slots t)) with (slots t).
      change (firstn (nr_pids t) (slots t)) with (live t). rewrite Hl.
      destruct (index_of v l) as [k|] eqn:E; cbn [Nat.add].
      * assert (Hk := index_lt _ _ _ E).
        replace (Nat.eqb k (nr_pids t)) with false by (symmetry; apply Nat.eqb_neq; lia).
        rewrite shift_ok by lia. discriminate.
      * rewrite Nat.eqb_refl. discriminate.
Qed.

Lemma do_run_ok max os : forall t l, holds max t l -> length l <= max ->
  exists t', do_run max t os = Some (t', snd (spec_run max l os)) /\
    holds max t' (fst (spec_run max l os)).
Proof.
  induction os as [|o os IH]; intros t l Hh Hmax; cbn [do_run spec_run].
  - exists t. auto.
  - destruct (do_op_ok max t l o Hh Hmax) as (t1 & E1 & Hh1 & Hm1). rewrite E1.
    destruct (spec_op max l o) as [l1 r]. cbn [fst snd] in *.
    destruct (IH t1 l1 Hh1 Hm1) as (t2 & E2 & Hh2). rewrite E2.
    destruct (spec_run max l1 os) as [l2 rs]. cbn [fst snd] in *. eauto.
Qed.

Lemma zero_holds max : holds max (zero_table max) [].
Proof. split; [apply repeat_length|]. split; reflexivity. Qed.

Lemma find_app_none {A} (f : A -> bool) l1 l2 : find f l1 = None -> find f (l1 ++ l2) = find f l2.
Proof. induction l1 as [|a l1 IH]; cbn; [auto|]. destruct (f a); [discriminate|auto]. Qed.

(** Removing a thread leaves the counters of the others. *)
Lemma remove_keeps_fd max t l v t' u : holds max t l -> length l <= max ->
  remove_pid t v = Some t' -> u <> v -> fd_of t' u = fd_of t u.
Proof.
  intros Hh Hmax Er Hu. unfold fd_of. rewrite (remove_live t v t' max l Hh Hmax Er).
  destruct Hh as (_ & _ & Hl). rewrite <- Hl. clear - Hu. f_equal.
  induction (live t) as [|p r IH]; [reflexivity|]. cbn [map index_of find].
  destruct (p_pid p =? v)%Z eqn:E.
  - cbn [firstn skipn app]. apply Z.eqb_eq in E.
    replace (p_pid p =? u)%Z with false; [reflexivity|]. symmetry. apply Z.eqb_neq. congruence.
  - destruct (index_of v (map p_pid r)) as [k|]; cbn [option_map firstn skipn app find].
    + destruct (p_pid p =? u)%Z; [reflexivity|exact IH].
    + reflexivity.
Qed.

Lemma history_ok max os :
  exists t, do_run max (zero_table max) os = Some (t, snd (spec_run max [] os)) /\
    holds max t (fst (spec_run max [] os)).
Proof. apply do_run_ok; [apply zero_holds|cbn; lia]. Qed.

Lemma capture_ok max t l v : holds max t l -> length l < max ->
  exists t', capture_pid max t v = Some (t', negb (S (length l) =? max)%nat) /\ holds max t' (l ++ [v]).
Proof.
  intros Hh Hm. destruct (do_op_ok max t l (Add v) Hh ltac:(lia)) as (t1 & E1 & Hh1 & _).
  cbn [do_op spec_op] in E1, Hh1. unfold add_pid in E1.
  destruct Hh as (Hlen & Hnr & Hl). rewrite Hnr in E1.
  replace (Nat.eqb (length l) max) with false in * by (symmetry; apply Nat.eqb_neq; lia).
  unfold capture_pid. rewrite Hnr.
  destruct (nth_error (slots t) (length l)) as [old|] eqn:Eo; [|discriminate].
  cbn [snd] in E1. apply some_inj in E1. apply (f_equal fst) in E1. cbn [fst] in E1. subst t1.
  eexists. split; [|exact Hh1]. cbn [nr_pids]. f_equal. f_equal.
  destruct (S (length l) =? max) eqn:E; [apply Nat.eqb_eq in E; apply Nat.ltb_ge; lia|].
  apply Nat.eqb_neq in E. apply Nat.ltb_lt. lia.
Qed.

Lemma capacity_refuted : ~ (forall max t l v, holds max t l -> length l < max ->
  forall t' ok, capture_pid max t v = Some (t', ok) -> ok = true).
Proof.
  intro H. specialize (H 1 (zero_table 1) [] 5%Z (zero_holds 1) ltac:(cbn; lia) _ _ eq_refl). discriminate.
Qed.
Lemma fresh_refuted : ~ (forall max t l v t' i, holds max t l -> ~ In v l ->
  add_pid max t v = Some (t', Some i) -> fd_of t' v = Some 0%Z).
Proof.
  intro H. specialize (H 1 (mk_table [mk_pid 5 3] 0) [] 7%Z).
  assert (Hh : holds 1 (mk_table [mk_pid 5 3] 0) []) by (repeat split).
  specialize (H _ _ Hh ltac:(cbn; tauto) eq_refl). discriminate.
Qed.
