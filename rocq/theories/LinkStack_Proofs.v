Require Import NArith Arith List Bool Lia.
Require Import ZifyBool ZifyN ZifyNat.
Require Import Verif.Word Verif.LinkStack_Model Verif.LinkStack_Spec.
Import ListNotations.
Local Open Scope N_scope.

(** The ring seen from the current offset. *)
Definition ring_of (off : nat) (E : list N) : list N :=
  rev (firstn (S off) E) ++ rev (skipn (S off) E).

Definition wf (p : link_stack) : Prop :=
  0 < ls_depth p < w64 /\ N.of_nat (length (ls_entries p)) = ls_depth p /\
  ls_offset p < ls_depth p.

Definition view (p : link_stack) : list N := ring_of (N.to_nat (ls_offset p)) (ls_entries p).

Lemma ring_length : forall o E, length (ring_of o E) = length E.
Proof.
  intros. unfold ring_of. rewrite app_length, !rev_length, <- app_length.
  now rewrite firstn_skipn.
Qed.

Lemma sub64_1 : forall d, 0 < d < w64 -> sub64 d 1 = d - 1.
Proof.
  intros. unfold sub64, w64 in *.
  rewrite (N.mod_small 1) by lia.
  replace (d + 18446744073709551616 - 1) with (d - 1 + 1 * 18446744073709551616) by lia.
  rewrite N.mod_add by lia. apply N.mod_small. lia.
Qed.
Lemma add64_1 : forall d, d + 1 < w64 -> add64 d 1 = d + 1.
Proof. intros. unfold add64. apply N.mod_small. auto. Qed.

Lemma split_at : forall (E : list N) o, (o < length E)%nat ->
  exists A x B, E = A ++ x :: B /\ length A = o.
Proof.
  intros E o H.
  destruct (nth_error E o) as [x|] eqn:Hx.
  - apply nth_error_split in Hx. destruct Hx as (A & B & -> & HA). eauto.
  - apply nth_error_None in Hx. lia.
Qed.

Lemma ring_of_split : forall A x B,
  ring_of (length A) (A ++ x :: B) = x :: rev A ++ rev B.
Proof.
  intros. unfold ring_of.
  replace (A ++ x :: B) with ((A ++ [x]) ++ B) by (now rewrite <- app_assoc).
  replace (S (length A)) with (length (A ++ [x]) + 0)%nat
    by (rewrite app_length; cbn; lia).
  rewrite firstn_app_2, skipn_app.
  rewrite skipn_all2 by lia.
  replace (length (A ++ [x]) + 0 - length (A ++ [x]))%nat with 0%nat by lia.
  cbn [firstn skipn app]. rewrite app_nil_r, rev_app_distr. reflexivity.
Qed.

Lemma push_sim : forall p a, wf p ->
  exists p', link_stack_push p a = Some p' /\ wf p' /\ ls_depth p' = ls_depth p /\
    ls_predictions p' = ls_predictions p /\ ls_mispredictions p' = ls_mispredictions p /\
    view p' = ret_addr a :: removelast (view p).
Proof.
  intros [d o pr mp E] a (Hd & Hl & Ho). cbn [ls_depth ls_offset ls_entries] in *.
  unfold link_stack_push. cbn [ls_depth ls_offset ls_entries ls_predictions ls_mispredictions].
  rewrite sub64_1 by auto.
  destruct (split_at E (N.to_nat o)) as (A & x & B & -> & HA); [lia|].
  rewrite app_length in Hl. cbn [length] in Hl.
  destruct (N.eqb_spec o (d - 1)) as [Eo|Eo].
  - assert (B = []) as -> by (destruct B; cbn in *; auto; lia).
    unfold ls_set. rewrite app_length. cbn [length].
    destruct (N.ltb_spec 0 (N.of_nat (length A + 1))); [|lia].
    eexists. split; [reflexivity|].
    unfold wf, view. cbn [ls_depth ls_offset ls_entries ls_predictions ls_mispredictions].
    rewrite <- HA, ring_of_split. cbn [rev]. rewrite app_nil_r.
    change (N.to_nat 0) with 0%nat. cbn [firstn app].
    pose proof (ring_of_split [] (add64 a 4) (skipn 1 (A ++ [x]))) as R.
    cbn [app length rev] in R. rewrite R. clear R.
    repeat split; auto; try lia.
    + cbn [length]. rewrite skipn_length, app_length. cbn [length]. lia.
    + unfold add64, ret_addr. rewrite w64_pow. f_equal.
      destruct A as [|y A]; [reflexivity|]. cbn [app skipn rev].
      rewrite rev_app_distr. cbn [rev app].
      change (x :: rev A ++ [y]) with ((x :: rev A) ++ [y]).
      rewrite removelast_last. reflexivity.
  - destruct B as [|b B]; [cbn in *; lia|].
    rewrite add64_1 by lia. unfold ls_set.
    rewrite app_length. cbn [length] in *.
    destruct (N.ltb_spec (o + 1) (N.of_nat (length A + S (S (length B))))); [|lia].
    eexists. split; [reflexivity|].
    unfold wf, view. cbn [ls_depth ls_offset ls_entries ls_predictions ls_mispredictions].
    replace (N.to_nat (o + 1)) with (length (A ++ [x]) + 0)%nat
      by (rewrite app_length; cbn; lia).
    replace (A ++ x :: b :: B) with ((A ++ [x]) ++ b :: B) by (now rewrite <- app_assoc).
    rewrite firstn_app_2. cbn [firstn]. rewrite app_nil_r.
    replace (S (length (A ++ [x]) + 0)) with (length (A ++ [x]) + 1)%nat by lia.
    rewrite skipn_app, skipn_all2 by lia.
    replace (length (A ++ [x]) + 1 - length (A ++ [x]))%nat with 1%nat by lia.
    cbn [skipn app]. rewrite Nat.add_0_r, ring_of_split.
    repeat split; auto; try lia.
    + rewrite !app_length. cbn [length]. lia.
    + rewrite <- HA, <- app_assoc. cbn [app]. rewrite ring_of_split. cbn [rev].
      unfold add64, ret_addr. rewrite w64_pow. f_equal.
      rewrite rev_app_distr. cbn [rev app].
      change (x :: rev A ++ rev B ++ [b]) with ((x :: rev A) ++ rev B ++ [b]).
      rewrite app_assoc, removelast_last. reflexivity.
Qed.

Lemma pop_sim : forall p t, wf p ->
  exists p', link_stack_pop p t = Some (p', hd 0 (view p) =? t) /\ wf p' /\
    ls_depth p' = ls_depth p /\
    ls_predictions p' = add64 (ls_predictions p) 1 /\
    ls_mispredictions p' = (if hd 0 (view p) =? t then ls_mispredictions p
                            else add64 (ls_mispredictions p) 1) /\
    view p' = tl (view p) ++ [hd 0 (view p)].
Proof.
  intros [d o pr mp E] t (Hd & Hl & Ho). cbn [ls_depth ls_offset ls_entries] in *.
  unfold link_stack_pop, view. cbn [ls_depth ls_offset ls_entries ls_predictions ls_mispredictions].
  rewrite sub64_1 by auto.
  destruct (split_at E (N.to_nat o)) as (A & x & B & -> & HA); [lia|].
  rewrite app_length in Hl. cbn [length] in Hl.
  unfold ls_get. rewrite <- HA, nth_error_app2, Nat.sub_diag by lia. cbn [nth_error].
  rewrite ring_of_split. cbn [hd tl].
  eexists. split; [reflexivity|].
  unfold wf. cbn [ls_depth ls_offset ls_entries ls_predictions ls_mispredictions].
  repeat split; auto; try lia.
  - rewrite app_length. cbn [length]. lia.
  - destruct (N.eqb_spec o 0); lia.
  - destruct (N.eqb_spec o 0) as [Z|Z].
    + assert (A = []) as -> by (destruct A; auto; cbn in HA; lia). cbn [app rev].
      unfold ring_of. rewrite firstn_all2, skipn_all2 by (cbn in *; lia).
      cbn [rev]. rewrite app_nil_r. reflexivity.
    + destruct A as [|y A _] using rev_ind; [cbn in HA; lia|].
      rewrite app_length in HA. cbn [length] in HA.
      replace (N.to_nat (o - 1)) with (length A) by lia.
      rewrite <- app_assoc. cbn [app]. rewrite ring_of_split.
      rewrite rev_app_distr. cbn [rev app]. now rewrite app_assoc.
Qed.

Lemma init_wf : forall d, 0 < d < w64 ->
  wf (link_stack_init d) /\ view (link_stack_init d) = repeat 0 (N.to_nat d).
Proof.
  intros d Hd. unfold wf, view, link_stack_init.
  cbn [ls_depth ls_offset ls_entries ls_predictions ls_mispredictions].
  rewrite sub64_1 by auto. split.
  - rewrite repeat_length. lia.
  - unfold ring_of.
    rewrite firstn_all2, skipn_all2 by (rewrite repeat_length; lia).
    cbn [rev]. rewrite app_nil_r.
    assert (forall n, rev (repeat 0 n) = repeat 0 n) as R.
    { induction n; auto. cbn [repeat rev]. rewrite IHn.
      clear. induction n; cbn; auto. now rewrite IHn. }
    apply R.
Qed.

(** Bookkeeping relation between a run and its outcome list. *)
Definition counts (p0 p : link_stack) (out : list bool) : Prop :=
  ls_predictions p = (ls_predictions p0 + N.of_nat (length out)) mod w64 /\
  ls_mispredictions p = (ls_mispredictions p0 + count_false out) mod w64.

Lemma mod_add1 : forall a b, ((a + b) mod w64 + 1) mod w64 = (a + (b + 1)) mod w64.
Proof.
  intros. rewrite N.add_mod_idemp_l by (unfold w64; lia). f_equal. lia.
Qed.

Lemma run_sim : forall rs p out ring,
  wf p -> view p = ring ->
  forall p0, counts p0 p out ->
  exists p' out', fold_left ls_step rs (Some (p, out)) = Some (p', out') /\
    wf p' /\ ls_depth p' = ls_depth p /\
    fold_left ring_step (events rs) (ring, out) = (view p', out') /\
    counts p0 p' out'.
Proof.
  induction rs as [|r rs IH]; intros p out ring Hwf Hv p0 Hc.
  - exists p, out. cbn. subst ring. auto.
  - subst ring. cbn [fold_left events flat_map]. unfold event_of.
    cbn [ls_step].
    destruct (lr_taken r); [|apply IH; auto].
    destruct (lr_kind r); cbn [app]; [| |apply IH; auto].
    + destruct (push_sim p (lr_addr r) Hwf) as (p' & -> & Hwf' & Hd & Hp & Hm & Hv').
      destruct (IH p' out _ Hwf' Hv' p0) as (p2 & o2 & A1 & A2 & A3 & A4 & A5).
      { unfold counts in *. rewrite Hp, Hm. auto. }
      exists p2, o2. split; [exact A1|]. split; [exact A2|].
      split; [congruence|]. split; [exact A4|exact A5].
    + destruct (pop_sim p (lr_next r) Hwf) as (p' & -> & Hwf' & Hd & Hp & Hm & Hv').
      destruct (IH p' ((hd 0 (view p) =? lr_next r) :: out) _ Hwf' Hv' p0)
        as (p2 & o2 & A1 & A2 & A3 & A4 & A5).
      { unfold counts in *. destruct Hc as [C1 C2]. rewrite Hp, Hm, C1, C2.
        unfold count_false. cbn [length filter].
        unfold add64. rewrite !mod_add1.
        split; [f_equal; lia|].
        destruct (hd 0 (view p) =? lr_next r); cbn [negb length]; f_equal; try lia. }
      exists p2, o2. split; [exact A1|]. split; [exact A2|].
      split; [congruence|]. split; [exact A4|exact A5].
Qed.

Lemma removelast_firstn_len : forall (l : list N), removelast l = firstn (length l - 1) l.
Proof.
  intros. rewrite removelast_firstn_len. f_equal. lia.
Qed.

Lemma ring_step_length : forall ring out e, ring <> [] ->
  length (fst (ring_step (ring, out) e)) = length ring.
Proof.
  intros ring out e H. destruct e; cbn [ring_step fst length].
  - rewrite removelast_firstn_len, firstn_length. destruct ring; [congruence|]. cbn [length]. lia.
  - rewrite app_length. destruct ring; [congruence|]. cbn [length tl]. lia.
Qed.

(** A matched history of nesting at most [d] keeps the [n - d] newest entries
    and predicts every return. *)
Lemma matched_ring : forall d es, matched d es ->
  forall ring out, (d <= length ring)%nat ->
  exists ring' out', fold_left ring_step es (ring, out) = (ring', out' ++ out) /\
    length ring' = length ring /\
    firstn (length ring - d) ring' = firstn (length ring - d) ring /\
    Forall (fun b => b = true) out'.
Proof.
  induction 1 as [d|d a body rest Hb IHb Hr IHr]; intros ring out Hd.
  - exists ring, []. auto.
  - cbn [fold_left]. rewrite fold_left_app. cbn [ring_step].
    destruct ring as [|x ring]; [cbn in Hd; lia|].
    set (r1 := ret_addr a :: removelast (x :: ring)).
    assert (length r1 = length (x :: ring)) as L1.
    { unfold r1. cbn [length]. rewrite removelast_firstn_len, firstn_length. cbn [length]. lia. }
    destruct (IHb r1 out) as (r2 & o2 & E2 & L2 & F2 & T2); [lia|].
    rewrite E2. cbn [fold_left ring_step].
    rewrite L1 in *.
    assert (exists k, (length (x :: ring) - d = S k)%nat) as [k Hk].
    { exists (length (x :: ring) - d - 1)%nat. lia. }
    rewrite Hk in F2.
    destruct r2 as [|y r2]; [cbn in L2; discriminate|].
    unfold r1 in F2. cbn [firstn] in F2. injection F2 as Fy F2. subst y.
    cbn [hd tl].
    destruct (IHr (r2 ++ [ret_addr a]) ((ret_addr a =? ret_addr a) :: o2 ++ out))
      as (r3 & o3 & E3 & L3 & F3 & T3).
    { rewrite app_length. cbn [length] in *. lia. }
    rewrite E3. exists r3, (o3 ++ (ret_addr a =? ret_addr a) :: o2).
    rewrite <- app_assoc. cbn [app].
    assert (length (r2 ++ [ret_addr a]) = length (x :: ring)) as L4.
    { rewrite app_length. cbn [length] in *. lia. }
    rewrite L4 in *.
    repeat split; auto.
    + rewrite F3. replace (length (x :: ring) - S d)%nat with k by lia.
      rewrite firstn_app. replace (k - length r2)%nat with 0%nat by (cbn [length] in *; lia).
      cbn [firstn]. rewrite app_nil_r, F2.
      change (firstn k (removelast (x :: ring)) = firstn k (x :: ring)).
      rewrite removelast_firstn_len, firstn_firstn.
      f_equal. cbn [length] in *. lia.
    + rewrite N.eqb_refl. apply Forall_app. split; auto.
Qed.

Lemma firstn_prefix : forall (A : Type) (l : list A) st n,
  st = firstn n l -> forall m, (m <= n)%nat -> firstn m st = firstn m l.
Proof. intros. subst. rewrite firstn_firstn. f_equal. lia. Qed.

(** The ring agrees with the lossy stack. *)
Lemma lossy_sim : forall es d ring out st oo,
  length ring = d -> (0 < d)%nat -> (length st <= d)%nat ->
  st = firstn (length st) ring -> Forall2 agrees oo out ->
  let (ring', out') := fold_left ring_step es (ring, out) in
  let (st', oo') := fold_left (lossy_step d) es (st, oo) in
  length ring' = d /\ st' = firstn (length st') ring' /\ Forall2 agrees oo' out'.
Proof.
  induction es as [|e es IH]; intros d ring out st oo Hl Hd Hs Hp Ha.
  - cbn. auto.
  - cbn [fold_left].
    assert (ring <> []) as Hne by (destruct ring; [cbn in Hl; lia|congruence]).
    pose proof (ring_step_length ring out e Hne) as L.
    destruct e as [a|t]; cbn [ring_step lossy_step fst] in *.
    + apply IH; auto; try lia.
      * rewrite firstn_length. lia.
      * rewrite firstn_length. cbn [length].
        destruct d as [|d]; [lia|]. cbn [firstn].
        replace (Nat.min (S d) (S (length st))) with (S (Nat.min d (length st))) by lia.
        cbn [firstn]. f_equal.
        rewrite removelast_firstn_len, firstn_firstn, Hl.
        replace (Nat.min (Nat.min d (length st)) (S d - 1)) with (Nat.min d (length st)) by lia.
        rewrite Hp at 1. rewrite firstn_firstn. f_equal.
    + destruct ring as [|x ring]; [congruence|]. cbn [hd tl] in *.
      destruct st as [|y st].
      * apply IH; auto; try lia. constructor; auto. exact I.
      * cbn [length firstn] in Hp, Hs. injection Hp as Hy Hp. subst y.
        apply IH; auto; try lia.
        -- rewrite firstn_app. cbn [length] in Hl.
           replace (length st - length ring)%nat with 0%nat by lia.
           cbn [firstn]. rewrite app_nil_r. auto.
        -- constructor; auto. reflexivity.
Qed.

Lemma all_true_count : forall l, Forall (fun b : bool => b = true) l -> count_false l = 0.
Proof.
  induction 1; auto. subst. unfold count_false in *. cbn [filter negb]. auto.
Qed.

Lemma count_false_le : forall l, count_false l <= N.of_nat (length l).
Proof.
  induction l as [|b l]; [cbn; lia|]. unfold count_false in *. cbn [filter length].
  destruct b; cbn [negb length]; lia.
Qed.

Lemma pop_count : forall es d ring out, length ring = d -> (0 < d)%nat ->
  length (snd (fold_left ring_step es (ring, out))) =
  (length out + length (filter is_ret es))%nat.
Proof.
  induction es as [|e es IH]; intros; [cbn; lia|].
  assert (ring <> []) as Hne by (destruct ring; [cbn in *; lia|congruence]).
  pose proof (ring_step_length ring out e Hne) as L.
  cbn [fold_left filter]. destruct e; cbn [ring_step fst is_ret] in *.
  - rewrite (IH d); auto; lia.
  - rewrite (IH d); auto; [|lia]. cbn [length]. lia.
Qed.

Lemma main_exact : forall depth rs, 0 < depth < w64 ->
  exists p out, ls_main depth rs = Some (p, out) /\
    ls_depth p = depth /\ ls_offset p < depth /\
    snd (ring_run (repeat 0 (N.to_nat depth)) (events rs)) = out /\
    ls_predictions p = N.of_nat (length out) mod w64 /\
    ls_mispredictions p = count_false out mod w64.
Proof.
  intros depth rs Hd. destruct (init_wf depth Hd) as [W V].
  destruct (run_sim rs (link_stack_init depth) [] _ W V (link_stack_init depth))
    as (p & out & A1 & A2 & A3 & A4 & A5 & A6).
  { split; cbn; reflexivity. }
  exists p, out. unfold ls_main, ring_run. rewrite A4. cbn [snd].
  destruct A2 as (B1 & B2 & B3). rewrite A3 in *. cbn [link_stack_init ls_depth] in *.
  repeat split; auto.
Qed.

Lemma main_lossy : forall depth rs, 0 < depth < w64 ->
  exists p out, ls_main depth rs = Some (p, out) /\
    Forall2 agrees (snd (lossy_run (N.to_nat depth) (events rs))) out.
Proof.
  intros depth rs Hd. destruct (main_exact depth rs Hd) as (p & out & A1 & _ & _ & A2 & _).
  exists p, out. split; auto. subst out. unfold ring_run, lossy_run.
  pose proof (lossy_sim (events rs) (N.to_nat depth) (repeat 0 (N.to_nat depth)) [] [] []) as L.
  destruct (fold_left ring_step _ _), (fold_left (lossy_step _) _ _). cbn [snd].
  apply L; auto. apply repeat_length. lia. cbn; lia.
Qed.

Lemma main_matched : forall depth pre rs, 0 < depth < w64 ->
  matched (N.to_nat depth) (events rs) ->
  exists p0 out0 p out, ls_main depth pre = Some (p0, out0) /\
    ls_main depth (pre ++ rs) = Some (p, out ++ out0) /\
    Forall (fun b => b = true) out /\
    length out = length (filter is_ret (events rs)) /\
    ls_mispredictions p = ls_mispredictions p0.
Proof.
  intros depth pre rs Hd M. destruct (init_wf depth Hd) as [W V].
  destruct (run_sim pre (link_stack_init depth) [] _ W V (link_stack_init depth))
    as (p0 & out0 & A1 & A2 & A3 & A4 & A5).
  { split; cbn; reflexivity. }
  destruct (run_sim rs p0 out0 _ A2 eq_refl (link_stack_init depth) A5)
    as (p & out & B1 & B2 & B3 & B4 & B5).
  exists p0, out0, p.
  assert (length (view p0) = N.to_nat depth) as L.
  { unfold view. rewrite ring_length. destruct A2 as (_ & C & _).
    cbn in A3. lia. }
  destruct (matched_ring _ _ M (view p0) out0) as (r & o & E & _ & _ & T); [lia|].
  rewrite E in B4. injection B4 as -> <-. exists o.
  unfold ls_main. rewrite fold_left_app, A1. repeat split; auto.
  - pose proof (pop_count (events rs) (N.to_nat depth) (view p0) out0) as P.
    rewrite E in P. cbn [snd] in P. rewrite app_length in P. lia.
  - destruct A5 as [_ A5], B5 as [_ B5]. rewrite A5, B5. f_equal. f_equal.
    unfold count_false. rewrite filter_app, app_length.
    pose proof (all_true_count o T) as Z. unfold count_false in Z. lia.
Qed.
