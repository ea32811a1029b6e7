(** Proofs about htm/xlate.c and the partial walk list. *)
Require Import NArith ZArith List Bool Lia.
Require Import ZifyBool ZifyN ZifyNat.
Require Import Verif.Word Verif.Codec_Types Verif.Pwc_Model Verif.Pwc_Spec Verif.Pwc_Proofs.
Require Import Verif.Xlate_Model Verif.Xlate_Spec.
Import ListNotations.
Local Open Scope N_scope.

(** ** No cache function aborts, no record is read twice *)
Section SAFE.
  Variable x : xlate.
  Hypothesis Hx : xlate_wf x.

  Definition safe {A} (m : X A) (P : A -> Prop) : Prop :=
    forall s, (ps_i s <= x_nwalks x)%nat ->
    exists s' r, m s = XOk (s', r) /\ (ps_i s <= ps_i s' <= x_nwalks x)%nat
                 /\ forall a, r = Some a -> P a.

  Lemma safe_ret : forall A (a : A) (P : A -> Prop), P a -> safe (ret a) P.
  Proof. intros A a P H s Hs. exists s, (Some a). repeat split; [lia|lia|]. now intros b [= <-]. Qed.
  Lemma safe_fail : forall A (P : A -> Prop), safe fail P.
  Proof. intros A P s Hs. exists s, None. repeat split; [lia|lia|]. discriminate. Qed.
  Lemma safe_bind : forall A B (m : X A) (k : A -> X B) P Q,
    safe m P -> (forall a, P a -> safe (k a) Q) -> safe (bind m k) Q.
  Proof.
    intros A B m k P Q Hm Hk s Hs. destruct (Hm s Hs) as (s1 & r & E & H1 & HP).
    unfold bind. rewrite E. destruct r as [a|].
    - destruct (Hk a (HP a eq_refl) s1 ltac:(lia)) as (s2 & r2 & E2 & H2 & HQ).
      exists s2, r2. split; [exact E2|]. split; [lia|exact HQ].
    - exists s1, None. split; [reflexivity|]. split; [lia|discriminate].
  Qed.
  Lemma safe_ignore : forall A (m : X A) P, safe m P -> safe (ignore m) (fun _ => True).
  Proof.
    intros A m P Hm s Hs. destruct (Hm s Hs) as (s1 & r & E & H1 & _).
    unfold ignore. rewrite E. exists s1, (Some tt). now repeat split.
  Qed.
  Lemma safe_weaken : forall A (m : X A) (P Q : A -> Prop),
    safe m P -> (forall a, P a -> Q a) -> safe m Q.
  Proof.
    intros A m P Q Hm HPQ s Hs. destruct (Hm s Hs) as (s1 & r & E & H1 & HP).
    exists s1, r. split; [exact E|]. split; [exact H1|]. intros a Ha. apply HPQ, HP, Ha.
  Qed.

  Lemma safe_insert : forall l a r leaf, level_ok l -> safe (c_insert l a r leaf) (fun _ => True).
  Proof.
    intros l a r leaf Hl s Hs. unfold c_insert, pwc_insert, dir_insert.
    destruct (dir_of_all l Hl) as (p & _ & D). rewrite D.
    destruct (find_key _ _ _); cbn [option_map]; eexists _, _; (split; [reflexivity|]); cbn; now repeat split.
  Qed.
  Lemma safe_get : forall l a, level_ok l -> safe (c_get l a) (fun _ => True).
  Proof.
    intros l a Hl s Hs. unfold c_get, pwc_get, dir_get.
    destruct (dir_of_all l Hl) as (p & _ & D). rewrite D.
    destruct (find_key _ _ _); eexists _, _; (split; [reflexivity|]); cbn; now repeat split.
  Qed.
  Lemma safe_tlb_insert : forall l a r, shift_ok l -> safe (c_tlb_insert l a r) (fun _ => True).
  Proof.
    intros l a r Hl s Hs. unfold c_tlb_insert, pwc_tlb_insert, rpn_insert.
    rewrite !rpn_of_ok by exact Hl.
    destruct (find_key _ _ _); cbn [option_map]; eexists _, _; (split; [reflexivity|]); cbn; now repeat split.
  Qed.
  Lemma safe_rev_insert : forall l a r, shift_ok l -> safe (c_rev_insert l a r) (fun _ => True).
  Proof.
    intros l a r Hl s Hs. unfold c_rev_insert, pwc_reverse_insert, rpn_insert.
    rewrite !rpn_of_ok by exact Hl.
    destruct (find_key _ _ _); cbn [option_map]; eexists _, _; (split; [reflexivity|]); cbn; now repeat split.
  Qed.
  Lemma safe_tlb_get : forall l a, shift_ok l -> safe (c_tlb_get l a) (fun _ => True).
  Proof.
    intros l a Hl s Hs. unfold c_tlb_get, pwc_tlb_get, rpn_get.
    rewrite !rpn_of_ok, off_of_ok by exact Hl.
    destruct (find_key _ _ _); eexists _, _; (split; [reflexivity|]); cbn; now repeat split.
  Qed.
  Lemma safe_rev_get : forall l a, shift_ok l -> safe (c_rev_get l a) (fun _ => True).
  Proof.
    intros l a Hl s Hs. unfold c_rev_get, pwc_reverse_get, rpn_get.
    rewrite !rpn_of_ok, off_of_ok by exact Hl.
    destruct (find_key _ _ _); eexists _, _; (split; [reflexivity|]); cbn; now repeat split.
  Qed.
  Lemma safe_peek : forall f, safe (peek x f) (fun _ => True).
  Proof.
    intros f s Hs. unfold peek. destruct (x_nwalks x <=? ps_i s)%nat eqn:E.
    - exists s, (Some None). now repeat split.
    - destruct (nth_error (x_walks x) (ps_i s)) as [w|] eqn:En.
      + eexists s, _. now repeat split.
      + apply nth_error_None in En. destruct Hx. lia.
  Qed.
  Lemma safe_take : forall f, safe (take x f) (fun _ => True).
  Proof.
    intros f s Hs. unfold take. destruct (safe_peek f s Hs) as (s' & r & E & H & _). rewrite E.
    unfold peek in E. destruct (x_nwalks x <=? ps_i s)%nat eqn:El.
    - injection E as <- <-. exists s, (Some None). now repeat split.
    - destruct (nth_error _ _) as [w|]; [|discriminate]. injection E as <- <-.
      destruct (check_walk w f).
      + eexists _, _. split; [reflexivity|]. cbn. repeat split; lia.
      + exists s, (Some None). now repeat split.
  Qed.
  Lemma scan_from_ok : forall n i f, (i + n <= length (x_walks x))%nat ->
    scan_from x n i f = XOk (existsb (fun w => check_walk w f) (firstn n (skipn i (x_walks x)))).
  Proof.
    induction n as [|n IH]; intros i f H; [reflexivity|]. cbn [scan_from].
    destruct (nth_error (x_walks x) i) as [w|] eqn:E.
    2: { apply nth_error_None in E. lia. }
    rewrite IH by lia.
    assert (Es : skipn i (x_walks x) = w :: skipn (S i) (x_walks x)).
    { clear -E. revert i E. induction (x_walks x) as [|v l IH]; intros [|i] E; cbn in *; try discriminate.
      - now injection E as ->.
      - now apply IH. }
    rewrite Es. cbn [firstn existsb]. now destruct (check_walk w f).
  Qed.
  Lemma safe_scan : forall f, safe (scan x f) (fun _ => True).
  Proof.
    intros f s Hs. unfold scan. destruct Hx as [Hl Hn]. rewrite scan_from_ok by lia.
    eexists _, _. now repeat split.
  Qed.

  Lemma safe_partition_is_leaf : forall l, safe (partition_is_leaf x l) (fun _ => True).
  Proof.
    intros l. unfold partition_is_leaf. eapply safe_bind; [apply safe_peek|]. intros [w|] _.
    - destruct (l <? PTE_LEVEL_1); [now apply safe_ret|apply safe_fail].
    - eapply safe_bind; [apply safe_peek|]. intros [w|] _; [|now apply safe_ret].
      destruct (l <? PTE_LEVEL_1); [now apply safe_ret|apply safe_fail].
  Qed.
  Lemma safe_process_is_leaf : forall l, safe (process_is_leaf x l) (fun _ => True).
  Proof.
    intros l. unfold process_is_leaf. induction levels as [|v ls IH]; cbn [process_is_leaf_from].
    - destruct (l <? PTE_LEVEL_2); [now apply safe_ret|apply safe_fail].
    - destruct (v =? l).
      + destruct (l <? PTE_LEVEL_2); [now apply safe_ret|apply safe_fail].
      + eapply safe_bind; [apply safe_scan|]. intros b _. destruct b; [now apply safe_ret|exact IH].
  Qed.
  (** Subtypes a lookup of a type may end in. *)
  Definition sub_ok (type st : N) : Prop :=
    if type =? XLATE_PTE then st = XLATE_4K_PTE \/ st = XLATE_64K_PTE else st = type.
  Definition type_ok (type : N) : Prop :=
    type = XLATE_PGD \/ type = XLATE_PUD \/ type = XLATE_PMD \/ type = XLATE_PTE.
  Lemma sub_level : forall t st, type_ok t -> sub_ok t st -> level_ok st.
  Proof.
    unfold type_ok, sub_ok, level_ok. intros t st Ht Hs.
    destruct (t =? XLATE_PTE) eqn:E.
    - destruct Hs as [-> | ->]; tauto.
    - subst st. apply N.eqb_neq in E. tauto.
  Qed.
  Lemma subtypes_ok : forall t, Forall (sub_ok t) (subtypes t).
  Proof.
    intros t. unfold subtypes, sub_ok. destruct (t =? XLATE_PTE).
    - repeat constructor; tauto.
    - repeat constructor.
  Qed.
  Lemma safe_pte_subtype : forall f, safe (pte_subtype x f)
    (fun st => st = XLATE_4K_PTE \/ st = XLATE_64K_PTE).
  Proof.
    intros f. unfold pte_subtype. eapply safe_bind; [apply safe_scan|]. intros b _.
    destruct b; [apply safe_ret; tauto|]. eapply safe_bind; [apply safe_scan|]. intros b _.
    destruct b; [apply safe_ret; tauto|apply safe_fail].
  Qed.
  Lemma safe_partition_subtype : forall t, safe (partition_subtype x t) (sub_ok t).
  Proof.
    intros t. unfold partition_subtype, sub_ok. destruct (t =? XLATE_PTE).
    - apply safe_pte_subtype.
    - now apply safe_ret.
  Qed.
  Lemma safe_process_subtype : forall t, safe (process_subtype x t) (sub_ok t).
  Proof.
    intros t. unfold process_subtype, sub_ok. destruct (t =? XLATE_PTE).
    - apply safe_pte_subtype.
    - now apply safe_ret.
  Qed.
  Definition size_ok (t : N) (p : pte) : Prop := exists st, sub_ok t st /\ pte_size p = pagesize_of st.
  Lemma safe_pte_out : forall t st a, type_ok t -> sub_ok t st -> safe (pte_out st a) (size_ok t).
  Proof.
    intros t st a Ht Hs. unfold pte_out. eapply safe_bind.
    - apply safe_get. eapply sub_level; eassumption.
    - intros [[ra fl]|] _; [|apply safe_fail]. apply safe_ret. now exists st.
  Qed.
  Lemma safe_process_cached : forall t l a ts, type_ok t -> Forall (sub_ok t) ts ->
    safe (process_cached x ts l a) (fun o => forall st, o = Some st -> sub_ok t st).
  Proof.
    intros t l a ts Ht. induction ts as [|u ts IH]; intros Hts; cbn [process_cached].
    - apply safe_ret. discriminate.
    - apply Forall_cons_iff in Hts as [Hu Hts]. specialize (IH Hts).
      eapply safe_bind; [apply safe_get; eapply sub_level; eassumption|].
      intros [[ra fl]|] _; [|exact IH]. destruct (has fl _).
      + apply safe_ret. now intros st [= <-].
      + eapply safe_bind; [apply safe_peek|]. intros [w|] _; [|exact IH].
        eapply safe_bind; [apply safe_process_is_leaf|]. intros leaf _.
        eapply safe_bind; [apply safe_insert; eapply sub_level; eassumption|]. intros _ _.
        apply safe_ret. now intros st [= <-].
  Qed.
  Lemma safe_process_reverse : forall t l a w szs st, type_ok t -> sub_ok t st -> Forall shift_ok szs ->
    safe (process_reverse x szs t l a w st) (sub_ok t).
  Proof.
    intros t l a w szs st Ht Hst. induction szs as [|z szs IH]; intros Hz; cbn [process_reverse].
    - now apply safe_ret.
    - apply Forall_cons_iff in Hz as [H1 H2]. specialize (IH H2).
      eapply safe_bind; [now apply safe_rev_get|]. intros [pra|] _; [|exact IH].
      eapply safe_bind; [apply safe_process_is_leaf|]. intros leaf _.
      eapply safe_bind; [apply safe_process_subtype|]. intros st' Hst'.
      eapply safe_bind; [apply safe_insert; eapply sub_level; eassumption|]. intros _ _.
      now apply safe_ret.
  Qed.
  Lemma host_sizes_ok : Forall shift_ok host_page_sizes.
  Proof. unfold host_page_sizes, shift_ok. repeat constructor; tauto. Qed.
  Lemma last_sub : forall t, sub_ok t (last (subtypes t) t).
  Proof.
    intros t. unfold subtypes, sub_ok. destruct (t =? XLATE_PTE); cbn; [tauto|reflexivity].
  Qed.
  Lemma safe_process_pte : forall t a, type_ok t -> safe (decode_process_pte x t a) (size_ok t).
  Proof.
    intros t a Ht. unfold decode_process_pte. eapply safe_bind; [apply safe_take|]. intros [w|] _.
    - eapply safe_bind; [apply safe_process_is_leaf|]. intros leaf _.
      eapply safe_bind; [apply safe_process_subtype|]. intros st Hst.
      eapply safe_bind; [apply safe_insert; eapply sub_level; eassumption|]. intros _ _.
      now apply safe_pte_out.
    - eapply safe_bind; [apply (safe_process_cached t); [exact Ht|apply subtypes_ok]|].
      intros [st|] Hst.
      + apply safe_pte_out; auto.
      + eapply safe_bind; [apply safe_peek|]. intros [w|] _.
        * eapply safe_bind; [apply safe_process_reverse; [exact Ht|apply last_sub|apply host_sizes_ok]|].
          intros st' Hst'. now apply safe_pte_out.
        * apply safe_pte_out; [exact Ht|apply last_sub].
  Qed.
  Lemma safe_partition_cached : forall t l a ts, type_ok t -> Forall (sub_ok t) ts ->
    safe (partition_cached x ts l a) (sub_ok t).
  Proof.
    intros t l a ts Ht. induction ts as [|u ts IH]; intros Hts; cbn [partition_cached].
    - apply safe_fail.
    - apply Forall_cons_iff in Hts as [Hu Hts]. specialize (IH Hts).
      eapply safe_bind; [apply safe_get; eapply sub_level; eassumption|].
      intros [[ra fl]|] _; [|exact IH]. destruct (has fl _).
      + now apply safe_ret.
      + eapply safe_bind; [apply safe_partition_is_leaf|]. intros leaf _.
        eapply safe_bind; [apply safe_insert; eapply sub_level; eassumption|]. intros _ _.
        now apply safe_ret.
  Qed.
  Lemma safe_partition_pte : forall t a, type_ok t -> safe (decode_partition_pte x t a) (size_ok t).
  Proof.
    intros t a Ht. unfold decode_partition_pte. eapply safe_bind; [apply safe_take|]. intros [w|] _.
    - eapply safe_bind; [apply safe_partition_is_leaf|]. intros leaf _.
      eapply safe_bind; [apply safe_partition_subtype|]. intros st Hst.
      eapply safe_bind; [apply safe_insert; eapply sub_level; eassumption|]. intros _ _.
      now apply safe_pte_out.
    - eapply safe_bind; [apply (safe_partition_cached t); [exact Ht|apply subtypes_ok]|].
      intros st Hst. now apply safe_pte_out.
  Qed.
  Lemma size_shift : forall t p, t = XLATE_PUD \/ t = XLATE_PMD \/ t = XLATE_PTE ->
    size_ok t p -> shift_ok (pte_size p).
  Proof.
    intros t p Ht (st & Hs & ->). unfold sub_ok, shift_ok in *.
    destruct Ht as [->|[->| ->]]; cbn in Hs; [subst..|destruct Hs; subst]; cbn; tauto.
  Qed.
  Lemma safe_real_addr : forall f a sz, shift_ok sz ->
    safe (partition_real_addr x f a sz) (fun _ => True).
  Proof.
    intros f a sz Hz. unfold partition_real_addr. eapply safe_bind; [apply safe_take|]. intros [w|] _.
    - eapply safe_bind; [now apply safe_tlb_insert|]. intros _ _. now apply safe_ret.
    - eapply safe_bind; [now apply safe_tlb_get|]. intros [ra|] _; [now apply safe_ret|apply safe_fail].
  Qed.
  Definition host_post (h : N * list N * N) : Prop :=
    let '(_, l, sz) := h in (2 <= length l <= 4)%nat /\ shift_ok sz.
  Lemma safe_translate : forall f a, safe (partition_translate x f a) host_post.
  Proof.
    intros f a. unfold partition_translate.
    assert (HF : forall l sz, shift_ok sz -> (2 <= length l <= 4)%nat ->
      safe (ra <- partition_real_addr x f a sz ;;
            _ <- c_rev_insert sz (mk_xaddr 0 (xa_lpid a) 0 ra) (xa_address a) ;;
            ret (ra, l, sz)) host_post).
    { intros l sz Hz Hl. eapply safe_bind; [now apply safe_real_addr|]. intros ra _.
      eapply safe_bind; [now apply safe_rev_insert|]. intros _ _. apply safe_ret. now split. }
    eapply safe_bind; [apply safe_partition_pte; unfold type_ok; tauto|]. intros p1 _.
    eapply safe_bind; [apply (safe_partition_pte XLATE_PUD); unfold type_ok; tauto|]. intros p2 H2.
    destruct (pte_leaf p2). { apply HF; [eapply size_shift; [|exact H2]; tauto|cbn; lia]. }
    eapply safe_bind; [apply (safe_partition_pte XLATE_PMD); unfold type_ok; tauto|]. intros p3 H3.
    destruct (pte_leaf p3). { apply HF; [eapply size_shift; [|exact H3]; tauto|cbn; lia]. }
    eapply safe_bind; [apply (safe_partition_pte XLATE_PTE); unfold type_ok; tauto|]. intros p4 H4.
    apply HF; [eapply size_shift; [|exact H4]; tauto|cbn; lia].
  Qed.
  Lemma safe_process_real : forall a sz, shift_ok sz -> safe (process_real_addr x a sz) (fun _ => True).
  Proof.
    intros a sz Hz. unfold process_real_addr. eapply safe_bind; [apply safe_take|]. intros [w|] _.
    - eapply safe_bind; [now apply safe_tlb_insert|]. intros _ _. now apply safe_ret.
    - apply safe_fail.
  Qed.

  Lemma pad_length : forall n l, (length l <= n)%nat -> length (pad n l) = n.
  Proof. intros n l H. unfold pad. rewrite app_length, repeat_length. lia. Qed.
  Lemma pad_rows_shape : forall rows, (length rows <= 5)%nat -> Forall (fun r => (length r <= 4)%nat) rows ->
    length (pad_rows rows) = 5%nat /\ Forall (fun r => length r = 4%nat) (pad_rows rows).
  Proof.
    intros rows Hl Hr. unfold pad_rows. split.
    - rewrite app_length, map_length, repeat_length. unfold MAX_RADIX_WALKS. lia.
    - apply Forall_app. split.
      + rewrite Forall_map. eapply Forall_impl; [|exact Hr]. cbn. intros r H. now apply pad_length.
      + apply Forall_forall. intros r H. apply repeat_spec in H. now subst.
  Qed.
  Lemma max_len_bound : forall rows m, 2 <= m <= 4 ->
    Forall (fun r : list N => (2 <= length r <= 4)%nat) rows ->
    2 <= fold_left (fun m r => N.max m (N.of_nat (length r))) rows m <= 4.
  Proof.
    induction rows as [|r rows IH]; intros m Hm Hr; [exact Hm|].
    apply Forall_cons_iff in Hr as [H1 H2]. cbn [fold_left]. apply IH; [lia|exact H2].
  Qed.

  Definition nested_post (v : radix * N * N * N) : Prop :=
    let '(rec, _, h, g) := v in nested_shape rec h g.
  Lemma safe_nested_radix : forall a, safe (decode_nested_radix x a) nested_post.
  Proof.
    intros a. unfold decode_nested_radix, nested.
    eapply safe_bind; [apply safe_take|]. intros _ _.
    eapply safe_bind; [apply safe_take|]. intros w _.
    eapply safe_bind with (P := fun _ => True).
    { destruct w as [w|]; [|now apply safe_ret]. eapply safe_ignore, safe_translate. }
    intros _ _.
    eapply safe_bind; [apply safe_process_pte; unfold type_ok; tauto|]. intros g0 _.
    eapply safe_bind; [apply safe_translate|]. intros [[r0 l0] z0] H0.
    eapply safe_bind; [apply safe_process_pte; unfold type_ok; tauto|]. intros g1 _.
    eapply safe_bind; [apply safe_translate|]. intros [[r1 l1] z1] H1.
    eapply safe_bind; [apply (safe_process_pte XLATE_PMD); unfold type_ok; tauto|]. intros g2 G2.
    eapply safe_bind; [apply safe_translate|]. intros [[r2 l2] z2] H2.
    cbn in H0, H1, H2. destruct (pte_leaf g2).
    - eapply safe_bind; [apply safe_process_real; eapply size_shift; [|exact G2]; tauto|]. intros a3 _.
      eapply safe_bind; [apply safe_translate|]. intros [[ra l3] hz] H3. cbn in H3.
      apply safe_ret. cbn beta iota delta [nested_post nested_shape rx_type rx_nr_ptes rx_walks rx_host_ptes rx_host_real rx_guest_real].
      destruct G2 as (st & Hst & ->). cbn in Hst. subst st.
      split; [reflexivity|]. split.
      { cbn [rx_nr_ptes]. unfold max_len. cbn [fold_left]. lia. }
      split; [left; split; reflexivity|]. split; [apply H3|].
      destruct (pad_rows_shape [l0; l1; l2; l3]) as [P1 P2]; [cbn; lia| |].
      { repeat (apply Forall_cons; [lia|]). constructor. }
      repeat split; assumption.
    - eapply safe_bind; [apply (safe_process_pte XLATE_PTE); unfold type_ok; tauto|]. intros g3 G3.
      eapply safe_bind; [apply safe_translate|]. intros [[r3 l3] z3] H3.
      eapply safe_bind; [apply safe_process_real; eapply size_shift; [|exact G3]; tauto|]. intros a4 _.
      eapply safe_bind; [apply safe_translate|]. intros [[ra l4] hz] H4. cbn in H3, H4.
      apply safe_ret. cbn beta iota delta [nested_post nested_shape rx_type rx_nr_ptes rx_walks rx_host_ptes rx_host_real rx_guest_real].
      destruct G3 as (st & Hst & ->).
      split; [reflexivity|]. split.
      { cbn [rx_nr_ptes]. unfold max_len. cbn [fold_left]. lia. }
      split; [right; split; [reflexivity|]; destruct Hst as [-> | ->]; cbn; tauto|].
      split; [apply H4|].
      destruct (pad_rows_shape [l0; l1; l2; l3; l4]) as [P1 P2]; [cbn; lia| |].
      { repeat (apply Forall_cons; [lia|]). constructor. }
      repeat split; assumption.
  Qed.
  Lemma safe_guest_real : forall a, safe (decode_guest_real x a)
    (fun v => real_shape (fst v) (snd v)).
  Proof.
    intros a. unfold decode_guest_real. eapply safe_bind; [apply safe_translate|].
    intros [[ra l] z] H. cbn in H. apply safe_ret.
    destruct (pad_rows_shape [l]) as [P1 P2]; [cbn; lia|repeat (apply Forall_cons; [lia|]); constructor|].
    cbn beta iota delta [fst snd real_shape rx_type rx_nr_ptes rx_walks rx_host_ptes rx_host_real rx_guest_real].
    split; [reflexivity|]. split; [cbn [rx_nr_ptes]; lia|]. split; [reflexivity|]. split; [apply H|].
    repeat split; assumption.
  Qed.
End SAFE.

(** ** Merging *)
Lemma walks_hd : forall x, xlate_wf x -> exists l, x_walks x = hd zero_walk (x_walks x) :: l.
Proof.
  intros x [H _]. destruct (x_walks x) as [|w l]; [discriminate|]. now exists l.
Qed.
Lemma records_length : forall x, xlate_wf x -> length (records_of x) = x_nwalks x.
Proof. intros x [H1 H2]. unfold records_of. rewrite firstn_length. lia. Qed.

Lemma match_iff : forall a b, xlate_wf b -> (xlate_match a b = true <-> overlap a b).
Proof.
  intros a b Hb. unfold xlate_match, overlap. destruct (walks_hd b Hb) as (l & E).
  rewrite E. cbn [hd]. rewrite !andb_true_iff, existsb_exists.
  fold (records_of a). split.
  - intros [[H1 H2] (w & Hw & Ew)]. split; [lia|]. split; [lia|]. exists w. split; [exact Hw|lia].
  - intros (H1 & H2 & w & Hw & Ew). split; [split; lia|]. exists w. split; [exact Hw|lia].
Qed.

Lemma kept_prefix_of : forall needle ws, (exists w, In w ws /\ wk_ra w = needle) ->
  exists w post, ws = firstn (kept needle ws) ws ++ w :: post
    /\ Forall (fun v => ~ (wk_ra v = needle \/ wk_exception v = true)) (firstn (kept needle ws) ws)
    /\ (wk_ra w = needle \/ wk_exception w = true)
    /\ (kept needle ws < length ws)%nat.
Proof.
  intros needle ws. induction ws as [|v ws IH]; intros (w & Hw & Ew); [destruct Hw|].
  cbn [kept]. destruct ((wk_ra v =? needle) || wk_exception v) eqn:E.
  - exists v, ws. cbn. repeat split; [constructor|lia|lia].
  - destruct Hw as [-> | Hw]; [lia|].
    destruct IH as (u & post & E1 & F & Hu & Hl); [now exists w|].
    exists u, post. cbn [firstn app]. split; [now rewrite <- E1|]. split.
    + constructor; [lia|exact F].
    + split; [exact Hu|cbn [length]; lia].
Qed.

Lemma merge_spec : forall old new, xlate_wf old -> xlate_wf new -> overlap old new ->
  exists pre, kept_prefix old new pre /\
  if (38 <? length pre + x_nwalks new)%nat then xlate_merge old new = XErr XOob
  else exists y, xlate_merge old new = XOk y /\ xlate_wf y
         /\ records_of y = pre ++ records_of new
         /\ x_lpid y = x_lpid old /\ x_pid y = x_pid old /\ x_dside y = x_dside old.
Proof.
  intros old new Ho Hn (E1 & E2 & Hw).
  pose (ndl := wk_ra (hd zero_walk (x_walks new))).
  destruct (kept_prefix_of ndl (records_of old) Hw) as (w & post & Er & Hf & Hs & Hlt).
  set (i := kept ndl (records_of old)) in *.
  exists (firstn i (records_of old)). split. { exists w, post. repeat split; assumption. }
  assert (Hi : length (firstn i (records_of old)) = i).
  { rewrite firstn_length. lia. }
  rewrite Hi. unfold xlate_merge. rewrite E1, E2, !N.eqb_refl. cbn [andb negb].
  fold ndl. fold (records_of old). fold i. fold (records_of new).
  rewrite records_length in Hlt by exact Ho.
  destruct (i =? x_nwalks old)%nat eqn:Ei; [lia|].
  unfold NWALKS. destruct (38 <? i + x_nwalks new)%nat eqn:Ev; [reflexivity|].
  eexists. split; [reflexivity|].
  assert (Hl : length (firstn i (records_of old) ++ records_of new) = (i + x_nwalks new)%nat).
  { rewrite app_length, Hi, records_length by exact Hn. reflexivity. }
  split.
  { split; cbn [x_walks x_nwalks]; [|lia]. rewrite app_assoc, app_length, Hl, repeat_length. lia. }
  split; [|now repeat split].
  unfold records_of at 1. cbn [x_nwalks x_walks]. rewrite app_assoc.
  rewrite <- Hl at 1. rewrite firstn_app, firstn_all, Nat.sub_diag. cbn. now rewrite app_nil_r.
Qed.

Lemma lookup_spec : forall l x, Forall xlate_wf l -> xlate_wf x ->
  (partial_lookup l x = XOk (None, l) /\ Forall (fun n => ~ overlap n x) l)
  \/ exists l1 n l2 pre, l = l1 ++ n :: l2 /\ Forall (fun n => ~ overlap n x) l1 /\ overlap n x
     /\ kept_prefix n x pre /\
     if (38 <? length pre + x_nwalks x)%nat then partial_lookup l x = XErr XOob
     else exists y, partial_lookup l x = XOk (Some y, l1 ++ l2) /\ xlate_wf y
          /\ records_of y = pre ++ records_of x /\ x_lpid y = x_lpid x /\ x_pid y = x_pid x
          /\ x_dside y = x_dside n.
Proof.
  intros l x Hl Hx. induction l as [|n l IH]; [left; now repeat constructor|].
  apply Forall_cons_iff in Hl as [Hn Hl]. cbn [partial_lookup].
  destruct (xlate_match n x) eqn:E.
  - right. apply (match_iff n x Hx) in E. destruct (merge_spec n x Hn Hx E) as (pre & Hp & H).
    exists [], n, l, pre. split; [reflexivity|]. split; [constructor|]. split; [exact E|].
    split; [exact Hp|]. destruct (38 <? _)%nat; [now rewrite H|].
    destruct H as (y & -> & H1 & H2 & H3 & H4 & H5). exists y. destruct E as (E1 & E2 & _).
    repeat split; try assumption; try (now apply H1); congruence.
  - assert (En : ~ overlap n x). { intro O. apply (match_iff n x Hx) in O. congruence. }
    specialize (IH Hl). destruct IH as [[-> F]|(l1 & n' & l2 & pre & -> & F & O & Hp & H)].
    + left. split; [reflexivity|now constructor].
    + right. exists (n :: l1), n', l2, pre. split; [reflexivity|]. split; [now constructor|].
      split; [exact O|]. split; [exact Hp|]. destruct (38 <? _)%nat; [now rewrite H|].
      destruct H as (y & -> & H). now exists y.
Qed.
Lemma insert_spec : forall l x, Forall xlate_wf l -> xlate_wf x ->
  (partial_insert l x = XOk (l ++ [x]) /\ Forall (fun n => ~ overlap n x) l)
  \/ exists l1 n l2 pre, l = l1 ++ n :: l2 /\ Forall (fun n => ~ overlap n x) l1 /\ overlap n x
     /\ kept_prefix n x pre /\
     if (38 <? length pre + x_nwalks x)%nat then partial_insert l x = XErr XOob
     else exists y, partial_insert l x = XOk (l1 ++ y :: l2) /\ xlate_wf y
          /\ records_of y = pre ++ records_of x /\ x_lpid y = x_lpid x /\ x_pid y = x_pid x
          /\ x_dside y = x_dside n.
Proof.
  intros l x Hl Hx. induction l as [|n l IH]; [left; now repeat constructor|].
  apply Forall_cons_iff in Hl as [Hn Hl]. cbn [partial_insert].
  destruct (xlate_match n x) eqn:E.
  - right. apply (match_iff n x Hx) in E. destruct (merge_spec n x Hn Hx E) as (pre & Hp & H).
    exists [], n, l, pre. split; [reflexivity|]. split; [constructor|]. split; [exact E|].
    split; [exact Hp|]. destruct (38 <? _)%nat; [now rewrite H|].
    destruct H as (y & -> & H1 & H2 & H3 & H4 & H5). exists y. destruct E as (E1 & E2 & _).
    repeat split; try assumption; try (now apply H1); congruence.
  - assert (En : ~ overlap n x). { intro O. apply (match_iff n x Hx) in O. congruence. }
    specialize (IH Hl). destruct IH as [[-> F]|(l1 & n' & l2 & pre & -> & F & O & Hp & H)].
    + left. split; [reflexivity|now constructor].
    + right. exists (n :: l1), n', l2, pre. split; [reflexivity|]. split; [now constructor|].
      split; [exact O|]. split; [exact Hp|]. destruct (38 <? _)%nat; [now rewrite H|].
      destruct H as (y & -> & H). now exists y.
Qed.

Lemma address_low : forall a, N.land a 0x3ffffffffffffff0 = a mod 2 ^ 62 / 16 * 16.
Proof.
  intros a. change 0x3ffffffffffffff0 with (N.shiftl (N.ones 58) 4).
  rewrite land_field. change 16 with (2 ^ 4). now rewrite (mod_div a 62 4) by lia.
Qed.
(** A fragment is for an access if one of its final records has the real address
    of the access, or is a guest record with its effective address (without
    the top 2 and low 4 bits). *)
Definition is_for (x : xlate) (a r : N) : Prop :=
  exists w, In w (records_of x) /\ wk_final w = true /\
    (wk_ra w = r \/ wk_host w = false /\ wk_ra w = a mod 2 ^ 62 / 16 * 16).
Lemma match_address_iff : forall x a r, match_address x a r = true <-> is_for x a r.
Proof.
  intros x a r. unfold match_address, is_for. fold (records_of x). rewrite existsb_exists.
  rewrite address_low. set (a' := a mod 2 ^ 62 / 16 * 16). clearbody a'.
  split; intros (w & Hw & H); exists w; (split; [exact Hw|]).
  - apply andb_true_iff in H as [H1 H2]. split; [exact H1|]. lia.
  - destruct H as [-> H2]. lia.
Qed.
Lemma address_lookup_spec : forall l a r,
  (address_lookup l a r = (None, l) /\ Forall (fun n => ~ is_for n a r) l)
  \/ exists l1 n l2, l = l1 ++ n :: l2 /\ Forall (fun n => ~ is_for n a r) l1 /\ is_for n a r
     /\ address_lookup l a r = (Some n, l1 ++ l2).
Proof.
  intros l a r. induction l as [|n l IH]; [left; now repeat constructor|].
  cbn [address_lookup]. destruct (match_address n a r) eqn:E.
  - right. apply match_address_iff in E. exists [], n, l. now repeat constructor.
  - assert (En : ~ is_for n a r). { intro O. apply match_address_iff in O. congruence. }
    destruct IH as [[-> F]|(l1 & n' & l2 & -> & F & O & ->)].
    + left. split; [reflexivity|now constructor].
    + right. exists (n :: l1), n', l2. split; [reflexivity|]. split; [now constructor|]. now split.
Qed.

(** ** Decoding *)
Lemma fixup_spec : forall x m reloc real, xlate_wf x ->
  match xlate_fixup x m reloc real with
  | XErr XOob => m_hv m = false /\ reloc = true /\ x_nwalks x = 38%nat
  | XErr _ => False
  | XOk y => xlate_wf y /\ x_lpid y = x_lpid x /\ x_pid y = x_pid x
  end.
Proof.
  intros x m reloc real [H1 H2]. unfold xlate_fixup. destruct (negb (m_hv m) && reloc) eqn:E.
  2: { repeat split; assumption. }
  destruct (nth_error (x_walks x) (x_nwalks x)) as [w|] eqn:En.
  - assert (Hl : (x_nwalks x < 38)%nat).
    { rewrite <- H1. apply nth_error_Some. congruence. }
    split; [|now split]. split; cbn [x_walks x_nwalks]; [|lia].
    rewrite app_length. cbn [length]. rewrite firstn_length, skipn_length. lia.
  - apply nth_error_None in En. repeat split; lia.
Qed.

(** The walk that is decoded: the argument, or its merge with a kept fragment. *)
Definition decoded (st : xst) (x y : xlate) : Prop :=
  x_lpid y = x_lpid x /\ x_pid y = x_pid x /\ xlate_wf y /\
  (y = x /\ Forall (fun n => ~ overlap n x) (xs_partial st)
   \/ exists n pre, In n (xs_partial st) /\ overlap n x /\ kept_prefix n x pre
                    /\ records_of y = pre ++ records_of x).

Definition erat_good (e : erat) : Prop :=
  Forall (fun kv => 1 <= rx_walks (ev_rec (snd kv)) <= 5
                    /\ length (rx_guest_real (ev_rec (snd kv))) = 5%nat
                    /\ shift_ok (ev_guest (snd kv))) e.
Lemma erat_insert_ok : forall e h a r rec g, shift_ok h -> shift_ok g ->
  a < 2 ^ 64 -> r < 2 ^ 64 ->
  exists e', erat_insert e h a r rec g = Some e' /\
    (erat_good e -> 1 <= rx_walks rec <= 5 -> length (rx_guest_real rec) = 5%nat -> erat_good e').
Proof.
  intros e h a r rec g Hh Hg Ha Hr. unfold erat_insert.
  assert (Hs : shift_ok (if h <? g then h else g)) by (destruct (h <? g); assumption).
  set (s := if h <? g then h else g) in *. rewrite erat_align_ok by assumption.
  destruct (find_key _ _ _).
  - eexists. split; [reflexivity|]. intros He Hw Hl. unfold erat_good in *.
    set (k := mk_ek _ _ _). clearbody k. induction e as [|[k' v] e IH]; [constructor|].
    apply Forall_cons_iff in He as [H1 H2]. cbn [update_key]. destruct (eara_cmp k' k).
    + constructor; [|exact H2]. cbn. now repeat split.
    + constructor; [exact H1|]. now apply IH.
  - eexists. split; [reflexivity|]. intros He Hw Hl. constructor; [|exact He]. cbn. now repeat split.
Qed.

Lemma decode_spec : forall st x m reloc a r, xlate_wf x -> Forall xlate_wf (xs_partial st) ->
  a < 2 ^ 64 -> r < 2 ^ 64 ->
  match xlate_decode st x m reloc a r with
  | XErr XCache => False
  | XErr XAssert => reloc = true
  | XErr XOob =>
      (exists n pre, In n (xs_partial st) /\ overlap n x /\ kept_prefix n x pre
                     /\ (38 < length pre + length (records_of x))%nat)
      \/ m_hv m = false /\ reloc = true /\
         exists y, decoded st x y /\ length (records_of y) = 38%nat /\ xlate_complete y = false
  | XOk (st', res) =>
      Forall xlate_wf (xs_partial st')
      /\ (erat_good (xs_erat st) -> erat_good (xs_erat st'))
      /\ match res with
         | None => True
         | Some (rec, h, g) =>
             if m_hv m then reloc = false /\ rec = zero_radix /\ h = 0 /\ g = 0
             else if reloc then nested_shape rec h g
             else real_shape rec h /\ g = 0
         end
  end.
Proof.
  intros st x m reloc a r Hx Hp Ha Hr.
  assert (HL : forall x1 plist, xlate_wf x1 -> decoded st x x1 -> Forall xlate_wf plist ->
    partial_lookup (xs_partial st) x
      = XOk (None, plist) /\ x1 = x \/ partial_lookup (xs_partial st) x = XOk (Some x1, plist) ->
    match xlate_decode st x m reloc a r with
    | XErr XCache => False
    | XErr XAssert => reloc = true
    | XErr XOob =>
        m_hv m = false /\ reloc = true /\
           exists y, decoded st x y /\ length (records_of y) = 38%nat /\ xlate_complete y = false
    | XOk (st', res) =>
        Forall xlate_wf (xs_partial st')
        /\ (erat_good (xs_erat st) -> erat_good (xs_erat st'))
        /\ match res with
           | None => True
           | Some (rec, h, g) =>
               if m_hv m then reloc = false /\ rec = zero_radix /\ h = 0 /\ g = 0
               else if reloc then nested_shape rec h g
               else real_shape rec h /\ g = 0
           end
    end).
  { intros x1 plist Hx1 Hd Hpl HE. unfold xlate_decode.
    assert (Eq : match partial_lookup (xs_partial st) x with
                 | XErr e => False | XOk (f, p) => p = plist /\ match f with Some y => y | None => x end = x1 end).
    { destruct HE as [[-> ->]| ->]; now split. }
    destruct (partial_lookup (xs_partial st) x) as [[found p]|e]; [|destruct Eq].
    destruct Eq as [-> ->]. clear HE found.
    assert (Hfx : match (if xlate_complete x1 then XOk x1 else xlate_fixup x1 m reloc r) with
      | XErr XOob => m_hv m = false /\ reloc = true /\ x_nwalks x1 = 38%nat /\ xlate_complete x1 = false
      | XErr _ => False
      | XOk y => xlate_wf y end).
    { destruct (xlate_complete x1); [exact Hx1|].
      pose proof (fixup_spec x1 m reloc r Hx1) as H. destruct (xlate_fixup x1 m reloc r) as [y|[]]; tauto. }
    destruct (if xlate_complete x1 then _ else _) as [x2|[]]; [|destruct Hfx..|].
    2: { destruct Hfx as (H1 & H2 & H3 & H4). split; [exact H1|]. split; [exact H2|].
         exists x1. split; [exact Hd|]. split; [|exact H4]. now rewrite records_length. }
    destruct (m_hv m) eqn:Ehv; cbn [andb negb].
    - destruct reloc; cbn [negb andb]; [reflexivity|].
      split; [exact Hpl|]. split; [tauto|]. destruct (_ =? _)%nat; [now repeat split|exact I].
    - destruct reloc; cbn [negb andb].
      + destruct (safe_nested_radix x2 Hfx (mk_xaddr 0 (x_lpid x2) (x_pid x2) a) (mk_pst (xs_pwc st) 0))
          as (s & res & E & Hi & Hpost); [cbn; lia|].
        rewrite E. destruct res as [[[[rec hra] h] g]|].
        2: { split; [exact Hpl|]. tauto. }
        specialize (Hpost _ eq_refl). cbn [nested_post] in Hpost.
        destruct (_ =? r); [|reflexivity].
        assert (Hs : shift_ok h /\ shift_ok g /\ 1 <= rx_walks rec <= 5 /\ length (rx_guest_real rec) = 5%nat).
        { destruct Hpost as (_ & _ & Hw & Hh & _ & _ & _ & Hl). unfold shift_ok in *.
          split; [exact Hh|]. split; [|split; [|exact Hl]]; lia. }
        destruct Hs as (Hh & Hg & Hw & Hl).
        destruct (erat_insert_ok (xs_erat st) h a r rec g Hh Hg Ha Hr) as (e' & -> & He).
        split; [exact Hpl|]. split; [intro HG; now apply He|].
        destruct (_ =? _)%nat; [exact Hpost|exact I].
      + destruct (safe_guest_real x2 Hfx (mk_xaddr 0 (x_lpid x2) (x_pid x2) a) (mk_pst (xs_pwc st) 0))
          as (s & res & E & Hi & Hpost); [cbn; lia|].
        rewrite E. destruct res as [[rec h]|].
        2: { split; [exact Hpl|]. tauto. }
        specialize (Hpost _ eq_refl). cbn [fst snd] in Hpost.
        assert (Hs : shift_ok h /\ 1 <= rx_walks rec <= 5 /\ length (rx_guest_real rec) = 5%nat).
        { destruct Hpost as (_ & _ & Hw & Hh & _ & _ & _ & Hl).
          split; [exact Hh|]. rewrite Hw, Hl. split; [lia|reflexivity]. }
        destruct Hs as (Hh & Hw & Hl).
        destruct (erat_insert_ok (xs_erat st) h a r rec h Hh Hh Ha Hr) as (e' & -> & He).
        split; [exact Hpl|]. split; [intro HG; now apply He|].
        destruct (_ =? _)%nat; [now split|exact I]. }
  destruct (lookup_spec (xs_partial st) x Hp Hx) as [[E F]|(l1 & n & l2 & pre & El & F & O & K & H)].
  - assert (HD : decoded st x x). { repeat split; try (now apply Hx). left. now split. }
    specialize (HL x (xs_partial st) Hx HD Hp (or_introl (conj E eq_refl))).
    destruct (xlate_decode st x m reloc a r) as [?|[]]; try exact HL. right. exact HL.
  - assert (Hin : In n (xs_partial st)). { rewrite El. apply in_or_app. right. now left. }
    destruct (38 <? length pre + x_nwalks x)%nat eqn:E38.
    + unfold xlate_decode. rewrite H. left. exists n, pre. rewrite records_length by exact Hx.
      repeat split; try assumption; try (now apply O). lia.
    + destruct H as (y & E & Wy & Ry & Ly & Py & Dy).
      assert (HD : decoded st x y).
      { repeat split; try assumption; try (now apply Wy). right. exists n, pre. split; [exact Hin|]. split; [exact O|]. split; [exact K|exact Ry]. }
      assert (Hp' : Forall xlate_wf (l1 ++ l2)).
      { rewrite El in Hp. apply Forall_app in Hp as [P1 P2]. apply Forall_cons_iff in P2 as [_ P2].
        now apply Forall_app. }
      specialize (HL y (l1 ++ l2) Wy HD Hp' (or_intror E)).
      destruct (xlate_decode st x m reloc a r) as [?|[]]; try exact HL. right. exact HL.
Qed.

(** ** Lookup *)
Lemma erat_find_good : forall e k v, erat_good e -> find_key eara_cmp e k = Some v ->
  1 <= rx_walks (ev_rec v) <= 5 /\ length (rx_guest_real (ev_rec v)) = 5%nat /\ shift_ok (ev_guest v).
Proof.
  intros e k v He. induction e as [|[k' v'] e IH]; [discriminate|].
  apply Forall_cons_iff in He as [H1 H2]. cbn [find_key]. destruct (eara_cmp k' k).
  - intros [= <-]. exact H1.
  - now apply IH.
Qed.
Lemma erat_get_ok : forall e s a r, shift_ok s -> a < 2 ^ 64 -> r < 2 ^ 64 ->
  exists k, erat_get e s a r = Some (find_key eara_cmp e k).
Proof. intros e s a r Hs Ha Hr. unfold erat_get. rewrite erat_align_ok by assumption. now eexists. Qed.

(** The entry with the largest page shift. *)
Definition first_hit (e : erat) (a r : N) (o : option eara_val) : Prop :=
  match o with
  | None => forall s, shift_ok s -> erat_get e s a r = Some None
  | Some v => exists s, shift_ok s /\ erat_get e s a r = Some (Some v)
              /\ forall s', shift_ok s' -> s < s' -> erat_get e s' a r = Some None
  end.
Lemma search_spec : forall e a r, a < 2 ^ 64 -> r < 2 ^ 64 ->
  exists o, erat_search e host_page_sizes a r = XOk o /\ first_hit e a r o.
Proof.
  intros e a r Ha Hr. unfold host_page_sizes. cbn [erat_search].
  destruct (erat_get_ok e 30 a r ltac:(unfold shift_ok; tauto) Ha Hr) as (k30 & E30).
  destruct (erat_get_ok e 21 a r ltac:(unfold shift_ok; tauto) Ha Hr) as (k21 & E21).
  destruct (erat_get_ok e 16 a r ltac:(unfold shift_ok; tauto) Ha Hr) as (k16 & E16).
  destruct (erat_get_ok e 12 a r ltac:(unfold shift_ok; tauto) Ha Hr) as (k12 & E12).
  rewrite E30, E21, E16, E12.
  destruct (find_key eara_cmp e k30) as [v|].
  { exists (Some v). split; [reflexivity|]. exists 30. unfold shift_ok. repeat split; [tauto|exact E30|].
    intros s' Hs' Hl. lia. }
  destruct (find_key eara_cmp e k21) as [v|].
  { exists (Some v). split; [reflexivity|]. exists 21. unfold shift_ok. repeat split; [tauto|exact E21|].
    intros s' [->|[->|[->| ->]]] Hl; try lia. exact E30. }
  destruct (find_key eara_cmp e k16) as [v|].
  { exists (Some v). split; [reflexivity|]. exists 16. unfold shift_ok. repeat split; [tauto|exact E16|].
    intros s' [->|[->|[->| ->]]] Hl; try lia; assumption. }
  destruct (find_key eara_cmp e k12) as [v|].
  { exists (Some v). split; [reflexivity|]. exists 12. unfold shift_ok. repeat split; [tauto|exact E12|].
    intros s' [->|[->|[->| ->]]] Hl; try lia; assumption. }
  exists None. split; [reflexivity|]. intros s [->|[->|[->| ->]]]; assumption.
Qed.

Lemma replace_low : forall s g a, shift_ok s ->
  N.lor (N.land g (N.lxor (sub64 (2 ^ s mod w64) 1) (w64 - 1))) (N.land a (sub64 (2 ^ s mod w64) 1))
  = g mod 2 ^ 64 / 2 ^ s * 2 ^ s + a mod 2 ^ s.
Proof.
  intros s g a Hs.
  assert (E : sub64 (2 ^ s mod w64) 1 = N.ones s).
  { destruct Hs as [->|[->|[->| ->]]]; vm_compute; reflexivity. }
  assert (E2 : N.lxor (N.ones s) (w64 - 1) = N.shiftl (N.ones (64 - s)) s).
  { destruct Hs as [->|[->|[->| ->]]]; vm_compute; reflexivity. }
  rewrite E, E2, land_field, N.land_ones.
  assert (Hle : s <= 64) by (unfold shift_ok in Hs; lia).
  rewrite (mod_div g 64 s) by exact Hle.
  apply lor_disjoint_add. apply N.mod_lt, N.pow_nonzero. lia.
Qed.

Definition with_offset (l : list N) (i : nat) (s a : N) : list N :=
  set_nth l i (nth i l 0 mod 2 ^ 64 / 2 ^ s * 2 ^ s + a mod 2 ^ s).
Lemma lookup_ok : forall e m reloc a r, erat_good e -> a < 2 ^ 64 -> r < 2 ^ 64 ->
  m_hv m = false ->
  exists o, first_hit e a r o /\
  xlate_lookup e m reloc a r = XOk (
    match o with
    | None => None
    | Some v =>
        let rec := ev_rec v in
        if reloc then
          Some (mk_radix (rx_type rec) (rx_nr_ptes rec) (rx_walks rec) (rx_host_ptes rec)
                  (rx_host_real rec)
                  (with_offset (rx_guest_real rec) (N.to_nat (rx_walks rec) - 1) (ev_guest v) a),
                ev_host v, ev_guest v)
        else Some (rec, ev_host v, 0)
    end).
Proof.
  intros e m reloc a r He Ha Hr Hm. unfold xlate_lookup. rewrite Hm.
  destruct (search_spec e a r Ha Hr) as (o & -> & Ho). exists o. split; [exact Ho|].
  destruct o as [v|]; [|reflexivity]. cbv zeta.
  assert (Hv : 1 <= rx_walks (ev_rec v) <= 5 /\ length (rx_guest_real (ev_rec v)) = 5%nat /\ shift_ok (ev_guest v)).
  { destruct Ho as (s & Hs & E & _). unfold erat_get in E. rewrite erat_align_ok in E by assumption.
    injection E as E. eapply erat_find_good; eassumption. }
  destruct Hv as (Hw & Hl & Hg). destruct reloc; [|reflexivity].
  destruct (rx_walks (ev_rec v) =? 0) eqn:E0; [lia|].
  destruct (nth_error (rx_guest_real (ev_rec v)) (N.to_nat (rx_walks (ev_rec v) - 1))) as [g|] eqn:En.
  2: { apply nth_error_None in En. lia. }
  rewrite replace_low by exact Hg. unfold with_offset.
  replace (N.to_nat (rx_walks (ev_rec v)) - 1)%nat with (N.to_nat (rx_walks (ev_rec v) - 1)) by lia.
  rewrite (nth_error_nth _ _ 0 En). reflexivity.
Qed.
Lemma lookup_hv : forall e m reloc a r, m_hv m = true ->
  xlate_lookup e m reloc a r = XOk (Some (zero_radix, 0, 0)).
Proof. intros e m reloc a r Hm. unfold xlate_lookup. now rewrite Hm. Qed.

(** ** Histories *)
Definition x_inv (st : xst) : Prop := Forall xlate_wf (xs_partial st) /\ erat_good (xs_erat st).
Lemma x_inv_init : x_inv xlate_init.
Proof. split; constructor. Qed.

Definition step_error (st : xst) (o : xop) (e : xerr) : Prop :=
  match o, e with
  | XDecode x m reloc a r, XAssert => reloc = true
  | XDecode x m reloc a r, XOob =>
      (exists n pre, In n (xs_partial st) /\ overlap n x /\ kept_prefix n x pre
                     /\ (38 < length pre + length (records_of x))%nat)
      \/ m_hv m = false /\ reloc = true /\
         exists y, decoded st x y /\ length (records_of y) = 38%nat /\ xlate_complete y = false
  | XPartial x, XOob =>
      exists n pre, In n (xs_partial st) /\ overlap n x /\ kept_prefix n x pre
                    /\ (38 < length pre + length (records_of x))%nat
  | _, _ => False
  end.
Lemma x_step_ok : forall st o, x_inv st -> xop_ok o ->
  match x_step st o with
  | XErr e => step_error st o e
  | XOk st' => x_inv st'
  end.
Proof.
  intros st o [Hp He] Ho. destruct o as [x m reloc a r|x|a r|m reloc a r]; cbn [x_step].
  - destruct Ho as (Hx & Ha & Hr). pose proof (decode_spec st x m reloc a r Hx Hp Ha Hr) as H.
    destruct (xlate_decode st x m reloc a r) as [[st' res]|[]]; try exact H.
    destruct H as (H1 & H2 & _). split; [exact H1|now apply H2].
  - cbn in Ho. destruct (insert_spec (xs_partial st) x Hp Ho) as [[-> F]|(l1 & n & l2 & pre & El & F & O & K & H)].
    + split; cbn; [|exact He]. apply Forall_app. split; [exact Hp|constructor; [exact Ho|constructor]].
    + assert (Hin : In n (xs_partial st)). { rewrite El. apply in_or_app. right. now left. }
      destruct (38 <? length pre + x_nwalks x)%nat eqn:E38.
      * rewrite H. exists n, pre. rewrite records_length by exact Ho.
        split; [exact Hin|]. split; [exact O|]. split; [exact K|lia].
      * destruct H as (y & -> & Wy & _). split; cbn; [|exact He].
        rewrite El in Hp. apply Forall_app in Hp as [P1 P2]. apply Forall_cons_iff in P2 as [_ P2].
        apply Forall_app. split; [exact P1|]. now constructor.
  - split; cbn; [|exact He]. destruct (address_lookup_spec (xs_partial st) a r) as [[-> F]|(l1 & n & l2 & El & _ & _ & ->)].
    + exact Hp.
    + cbn. rewrite El in Hp. apply Forall_app in Hp as [P1 P2]. apply Forall_cons_iff in P2 as [_ P2].
      now apply Forall_app.
  - destruct Ho as [Ha Hr]. destruct (m_hv m) eqn:Em.
    + rewrite lookup_hv by exact Em. now split.
    + destruct (lookup_ok (xs_erat st) m reloc a r He Ha Hr Em) as (o & _ & ->). now split.
Qed.
Lemma x_run_inv : forall h st st', x_inv st -> Forall xop_ok h -> x_run st h = XOk st' -> x_inv st'.
Proof.
  induction h as [|o h IH]; intros st st' Hi Hok E; [now injection E as <-|].
  apply Forall_cons_iff in Hok as [Ho Hok]. cbn [x_run] in E.
  pose proof (x_step_ok st o Hi Ho) as H. destruct (x_step st o) as [s1|e]; [|discriminate].
  eapply IH; eassumption.
Qed.
Lemma reachable_step : forall h st o, Forall xop_ok h -> x_run xlate_init h = XOk st -> xop_ok o ->
  match x_step st o with
  | XErr e => step_error st o e
  | XOk st' => x_inv st'
  end.
Proof. intros h st o Hh E Ho. apply x_step_ok; [|exact Ho]. eapply x_run_inv; [apply x_inv_init| |]; eassumption. Qed.
