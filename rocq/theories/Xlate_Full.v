(** Decoding of a complete two dimensional walk. *)
Require Import NArith ZArith List Bool Lia.
Require Import ZifyBool ZifyN ZifyNat.
Require Import Verif.Word Verif.Codec_Types Verif.Pwc_Model Verif.Pwc_Spec Verif.Pwc_Proofs.
Require Import Verif.Xlate_Model Verif.Xlate_Spec Verif.Xlate_Proofs.
Import ListNotations.
Local Open Scope N_scope.

Lemma bind_ok : forall A B (m : X A) (k : A -> X B) s s' a,
  m s = XOk (s', Some a) -> bind m k s = k a s'.
Proof. intros A B m k s s' a H. unfold bind. now rewrite H. Qed.

(** What the flag tests say about a record. *)
Lemma check_part : forall l w, In l [0; 2; 4; 6] ->
  check_walk w (N.lor PARTITION_PTE (X_LEVEL l))
  = wk_host w && negb (wk_guest w) && negb (wk_final w) && (l =? wk_level w).
Proof.
  intros l [f e g h lv ra] H. cbn in H.
  destruct H as [<-|[<-|[<-|[<-|[]]]]]; destruct f, g, h; cbn; try reflexivity; apply negb_involutive.
Qed.
Lemma check_nested : forall l w, In l [0; 2; 4; 6; 7] ->
  check_walk w (N.lor NESTED_PTE (X_LEVEL l))
  = wk_host w && wk_guest w && negb (wk_final w) && (l =? wk_level w).
Proof.
  intros l [f e g h lv ra] H. cbn in H.
  destruct H as [<-|[<-|[<-|[<-|[<-|[]]]]]]; destruct f, g, h; cbn; try reflexivity; apply negb_involutive.
Qed.
Lemma check_process : forall l w, In l [0; 2; 4; 6] ->
  check_walk w (N.lor PROCESS_PTE (X_LEVEL l))
  = negb (wk_host w) && wk_guest w && negb (wk_final w) && (l =? wk_level w).
Proof.
  intros l [f e g h lv ra] H. cbn in H.
  destruct H as [<-|[<-|[<-|[<-|[]]]]]; destruct f, g, h; cbn; try reflexivity; apply negb_involutive.
Qed.
Lemma check_leaf : forall l w, In l [0; 2; 4; 6] ->
  check_walk w (N.lor (N.lor X_NO_FINAL_RA X_GUEST_PTE) (X_LEVEL l))
  = wk_guest w && negb (wk_final w) && (l =? wk_level w).
Proof.
  intros l [f e g h lv ra] H. cbn in H.
  destruct H as [<-|[<-|[<-|[<-|[]]]]]; destruct f, g, h; cbn; try reflexivity; apply negb_involutive.
Qed.
Lemma check_nested_ra : forall l w, In l [0; 1] ->
  check_walk w (N.lor NESTED_RA_ADDR (X_LEVEL l))
  = wk_guest w && wk_host w && wk_final w && (l =? wk_level w).
Proof.
  intros l [f e g h lv ra] H. cbn in H.
  destruct H as [<-|[<-|[]]]; destruct f, g, h; cbn; try reflexivity; apply negb_involutive.
Qed.
Lemma check_process_ra : forall l w, In l [0; 1] ->
  check_walk w (N.lor PROCESS_RA_ADDR (X_LEVEL l))
  = wk_guest w && negb (wk_host w) && wk_final w && (l =? wk_level w).
Proof.
  intros l [f e g h lv ra] H. cbn in H.
  destruct H as [<-|[<-|[]]]; destruct f, g, h; cbn; try reflexivity; apply negb_involutive.
Qed.
Lemma check_final : forall w, check_walk w (lor3 X_HOST_RA X_GUEST_PTE X_FINAL_RA)
  = wk_host w && wk_guest w && wk_final w.
Proof. intros [f e g h lv ra]. now destruct f, g, h. Qed.
Lemma check_process_final : forall w, check_walk w (lor3 X_NO_HOST_RA X_GUEST_PTE X_FINAL_RA)
  = negb (wk_host w) && wk_guest w && wk_final w.
Proof. intros [f e g h lv ra]. now destruct f, g, h. Qed.
Lemma check_guest : forall w, check_walk w X_GUEST_PTE = wk_guest w.
Proof. intros [f e g h lv ra]. now destruct f, g, h. Qed.
Lemma check_final_ra : forall w, check_walk w X_FINAL_RA = wk_final w.
Proof. intros [f e g h lv ra]. now destruct f, g, h. Qed.
Lemma check_table : forall w, check_walk w (lor3 X_HOST_RA X_NO_GUEST_PTE (X_LEVEL 7))
  = wk_host w && negb (wk_guest w) && (7 =? wk_level w).
Proof. intros [f e g h lv ra]. destruct f, g, h; cbn; try reflexivity; apply negb_involutive. Qed.
Lemma check_table2 : forall w, check_walk w (N.lor X_GUEST_PTE (X_LEVEL 7))
  = wk_guest w && (7 =? wk_level w).
Proof. intros [f e g h lv ra]. destruct f, g, h; cbn; try reflexivity; apply negb_involutive. Qed.

Section FULL.
  Variable x : xlate.
  Hypothesis Hx : xlate_wf x.

  (** Records still to be read. *)
  Definition at_ (s : pst) (ws : list walk) : Prop :=
    (ps_i s <= x_nwalks x)%nat /\ skipn (ps_i s) (records_of x) = ws.

  Lemma nth_skipn : forall A (l : list A) i w r, skipn i l = w :: r ->
    nth_error l i = Some w /\ skipn (S i) l = r.
  Proof.
    intros A l. induction l as [|v l IH]; intros [|i] w r H; cbn in *; try discriminate.
    - now injection H as -> ->.
    - now apply IH.
  Qed.
  Lemma at_cons : forall s w ws, at_ s (w :: ws) ->
    (ps_i s < x_nwalks x)%nat /\ nth_error (x_walks x) (ps_i s) = Some w
    /\ forall p, at_ (mk_pst p (S (ps_i s))) ws.
  Proof.
    intros s w ws [H1 H2]. destruct (nth_skipn _ _ _ _ _ H2) as [E1 E2].
    assert (Hlt : (ps_i s < length (records_of x))%nat) by (apply nth_error_Some; congruence).
    rewrite records_length in Hlt by exact Hx. split; [exact Hlt|]. split.
    - rewrite <- E1. unfold records_of. clear -Hlt.
      revert Hlt. generalize (x_nwalks x) (ps_i s). induction (x_walks x) as [|v l IH]; intros n i Hi.
      + now rewrite firstn_nil.
      + destruct n as [|n]; [lia|]. destruct i as [|i]; [reflexivity|]. cbn. apply IH. lia.
    - intro p. split; cbn [ps_i]; [lia|exact E2].
  Qed.
  Lemma at_pwc : forall s ws p, at_ s ws -> at_ (mk_pst p (ps_i s)) ws.
  Proof. intros s ws p H. exact H. Qed.

  Lemma peek_at : forall s w ws f, at_ s (w :: ws) ->
    peek x f s = XOk (s, Some (if check_walk w f then Some w else None)).
  Proof.
    intros s w ws f H. destruct (at_cons s w ws H) as (H1 & H2 & _). unfold peek.
    destruct (x_nwalks x <=? ps_i s)%nat eqn:E; [lia|]. now rewrite H2.
  Qed.
  Lemma take_hit : forall s w ws f, at_ s (w :: ws) -> check_walk w f = true ->
    exists s', take x f s = XOk (s', Some (Some w)) /\ at_ s' ws.
  Proof.
    intros s w ws f H Hc. unfold take. rewrite (peek_at s w ws f H), Hc. eexists. split; [reflexivity|].
    apply (at_cons s w ws H).
  Qed.
  Lemma take_miss : forall s w ws f, at_ s (w :: ws) -> check_walk w f = false ->
    take x f s = XOk (s, Some None).
  Proof. intros s w ws f H Hc. unfold take. now rewrite (peek_at s w ws f H), Hc. Qed.
  Lemma firstn_skipn_swap : forall A (l : list A) n i, firstn (n - i) (skipn i l) = skipn i (firstn n l).
  Proof.
    intros A l. induction l as [|v l IH]; intros n i.
    - now rewrite firstn_nil, !skipn_nil, firstn_nil.
    - destruct i as [|i]; [cbn [skipn]; now rewrite Nat.sub_0_r|].
      destruct n as [|n]; [reflexivity|]. simpl. apply IH.
  Qed.
  Lemma scan_at : forall s ws f, at_ s ws ->
    scan x f s = XOk (s, Some (existsb (fun w => check_walk w f) ws)).
  Proof.
    intros s ws f [H1 H2]. unfold scan. destruct Hx as [Hl Hn].
    rewrite scan_from_ok by lia.
    rewrite firstn_skipn_swap. fold (records_of x). now rewrite H2.
  Qed.

  Lemma insert_out : forall st addr r leaf s, level_ok st -> r < 2 ^ 64 ->
    exists s', c_insert st addr r leaf s = XOk (s', Some tt) /\ ps_i s' = ps_i s
      /\ pte_out st addr s' = XOk (s', Some (mk_pte r (pagesize_of st) leaf)).
  Proof.
    intros st addr r leaf s Hl Hr. unfold c_insert, pwc_insert.
    destruct (dir_get_insert (page_walk_cache (ps_pwc s)) st addr r leaf Hl Hr) as (c' & -> & H).
    cbn [option_map]. eexists. split; [reflexivity|]. split; [reflexivity|].
    unfold pte_out, c_get, bind, pwc_get. cbn [ps_pwc page_walk_cache].
    destruct (H st addr Hl) as (old & _ & ->).
    assert (E : same_dir st addr st addr = true).
    { unfold same_dir, same_ids. rewrite Z.eqb_refl, !N.eqb_refl. reflexivity. }
    assert (E2 : same_entry st addr st addr = true).
    { unfold same_entry. rewrite E, N.eqb_refl. reflexivity. }
    rewrite E, E2.
    replace (Z.to_N ((Z.of_N r + 8 * (Z.of_N (entry st (xa_address addr)) - Z.of_N (entry st (xa_address addr)))) mod 2 ^ 64)) with r.
    2: { rewrite Z.sub_diag, Z.mul_0_r, Z.add_0_r, Z.mod_small by lia. lia. }
    destruct leaf; reflexivity.
  Qed.

  (** Subtype and leaf decisions as functions of the records to come. *)
  Definition sub_of (flag : N) (ws : list walk) : option N :=
    if existsb (fun w => check_walk w (N.lor flag (X_LEVEL 0))) ws then Some XLATE_4K_PTE
    else if existsb (fun w => check_walk w (N.lor flag (X_LEVEL 1))) ws then Some XLATE_64K_PTE
    else None.
  Lemma pte_subtype_at : forall flag s ws, at_ s ws -> pte_subtype x flag s = XOk (s, sub_of flag ws).
  Proof.
    intros flag s ws H. unfold pte_subtype, sub_of.
    rewrite (bind_ok _ _ _ _ _ _ _ (scan_at s ws _ H)). unfold HTM_FINAL_4K, HTM_FINAL_64K.
    destruct (existsb _ ws); [reflexivity|].
    rewrite (bind_ok _ _ _ _ _ _ _ (scan_at s ws _ H)).
    destruct (existsb _ ws); reflexivity.
  Qed.
  Fixpoint pleaf (ls : list N) (level : N) (ws : list walk) : option bool :=
    match ls with
    | [] => if level <? 4 then Some true else None
    | l :: ls' =>
        if l =? level then (if level <? 4 then Some true else None)
        else if existsb (fun w => check_walk w (N.lor (N.lor X_NO_FINAL_RA X_GUEST_PTE) (X_LEVEL l))) ws
             then Some false else pleaf ls' level ws
    end.
  Lemma process_is_leaf_at : forall level s ws, at_ s ws ->
    process_is_leaf x level s = XOk (s, pleaf levels level ws).
  Proof.
    intros level s ws H. unfold process_is_leaf. induction levels as [|l ls IH]; cbn [process_is_leaf_from pleaf].
    - unfold PTE_LEVEL_2. now destruct (level <? 4).
    - destruct (l =? level).
      + unfold PTE_LEVEL_2. now destruct (level <? 4).
      + rewrite (bind_ok _ _ _ _ _ _ _ (scan_at s ws _ H)).
        destruct (existsb _ ws); [reflexivity|exact IH].
  Qed.
  Lemma partition_is_leaf_at : forall level s w ws, at_ s (w :: ws) ->
    (wk_guest w || wk_final w = true -> level < 6) ->
    partition_is_leaf x level s = XOk (s, Some (wk_guest w || wk_final w)).
  Proof.
    intros level s w ws H Hl. unfold partition_is_leaf.
    rewrite (bind_ok _ _ _ _ _ _ _ (peek_at s w ws _ H)), check_guest.
    destruct (wk_guest w); cbn [orb] in *.
    - unfold PTE_LEVEL_1. destruct (level <? 6) eqn:E; [reflexivity|]. specialize (Hl eq_refl). lia.
    - rewrite (bind_ok _ _ _ _ _ _ _ (peek_at s w ws _ H)), check_final_ra.
      destruct (wk_final w); [|reflexivity].
      unfold PTE_LEVEL_1. destruct (level <? 6) eqn:E; [reflexivity|]. specialize (Hl eq_refl). lia.
  Qed.

  Lemma htm_level_in : forall t, type_ok t -> In (htm_level t) [0; 2; 4; 6].
  Proof. intros t [->|[->|[->| ->]]]; cbn; tauto. Qed.
  Lemma partition_pte_at : forall t addr s r w ws st, type_ok t -> r < 2 ^ 64 ->
    at_ s (mk_walk false false false true (htm_level t) r :: w :: ws) ->
    (wk_guest w || wk_final w = true -> htm_level t < 6) ->
    (if t =? XLATE_PTE then sub_of NESTED_RA_ADDR (w :: ws) = Some st else st = t) ->
    exists s', decode_partition_pte x t addr s
               = XOk (s', Some (mk_pte r (pagesize_of st) (wk_guest w || wk_final w)))
               /\ at_ s' (w :: ws).
  Proof.
    intros t addr s r w ws st Ht Hr H Hl Hs. unfold decode_partition_pte.
    destruct (take_hit s _ _ (N.lor PARTITION_PTE (X_LEVEL (htm_level t))) H) as (s1 & E1 & H1).
    { rewrite check_part by now apply htm_level_in. cbn. apply N.eqb_refl. }
    rewrite (bind_ok _ _ _ _ _ _ _ E1). cbn [wk_ra].
    rewrite (bind_ok _ _ _ _ _ _ _ (partition_is_leaf_at _ s1 w ws H1 Hl)).
    assert (Es : partition_subtype x t s1 = XOk (s1, Some st)).
    { unfold partition_subtype. destruct (t =? XLATE_PTE); [|now subst].
      rewrite (pte_subtype_at _ s1 _ H1). now rewrite Hs. }
    rewrite (bind_ok _ _ _ _ _ _ _ Es).
    assert (Hlv : level_ok st).
    { apply (sub_level t); [exact Ht|]. unfold sub_ok. destruct (t =? XLATE_PTE); [|exact Hs].
      unfold sub_of in Hs. destruct (existsb _ _); [injection Hs as <-; tauto|].
      destruct (existsb _ _); [injection Hs as <-; tauto|discriminate]. }
    destruct (insert_out st addr r (wk_guest w || wk_final w) s1 Hlv Hr) as (s2 & E2 & Ei & E3).
    rewrite (bind_ok _ _ _ _ _ _ _ E2), E3. exists s2. split; [reflexivity|].
    destruct H1. split; rewrite Ei; assumption.
  Qed.

  Lemma real_addr_at : forall flag addr sz s w ws, shift_ok sz -> at_ s (w :: ws) ->
    check_walk w flag = true ->
    exists s', partition_real_addr x flag addr sz s = XOk (s', Some (wk_ra w)) /\ at_ s' ws.
  Proof.
    intros flag addr sz s w ws Hz H Hc. unfold partition_real_addr.
    destruct (take_hit s w ws flag H Hc) as (s1 & E1 & H1).
    rewrite (bind_ok _ _ _ _ _ _ _ E1).
    unfold c_tlb_insert at 1, bind, pwc_tlb_insert.
    destruct (rpn_get_insert (tlb_cache (ps_pwc s1)) sz addr (wk_ra w) Hz) as (c' & -> & _).
    cbn [option_map ret]. eexists. split; [reflexivity|]. now apply at_pwc.
  Qed.
  Lemma process_real_at : forall addr sz s w ws, shift_ok sz -> at_ s (w :: ws) ->
    check_walk w (lor3 X_NO_HOST_RA X_GUEST_PTE X_FINAL_RA) = true ->
    exists s', process_real_addr x addr sz s = XOk (s', Some (wk_ra w)) /\ at_ s' ws.
  Proof.
    intros addr sz s w ws Hz H Hc. unfold process_real_addr.
    destruct (take_hit s w ws _ H Hc) as (s1 & E1 & H1).
    rewrite (bind_ok _ _ _ _ _ _ _ E1).
    unfold c_tlb_insert at 1, bind, pwc_tlb_insert.
    destruct (rpn_get_insert (tlb_cache (ps_pwc s1)) sz addr (wk_ra w) Hz) as (c' & -> & _).
    cbn [option_map ret]. eexists. split; [reflexivity|]. now apply at_pwc.
  Qed.
  Lemma final_at : forall flag addr sz s w ws (l : list N), shift_ok sz -> at_ s (w :: ws) ->
    check_walk w flag = true ->
    exists s', (ra <- partition_real_addr x flag addr sz ;;
            _ <- c_rev_insert sz (mk_xaddr 0 (xa_lpid addr) 0 ra) (xa_address addr) ;;
            ret (ra, l, sz)) s = XOk (s', Some (wk_ra w, l, sz)) /\ at_ s' ws.
  Proof.
    intros flag addr sz s w ws l Hz H Hc.
    destruct (real_addr_at flag addr sz s w ws Hz H Hc) as (s1 & E1 & H1).
    rewrite (bind_ok _ _ _ _ _ _ _ E1).
    unfold c_rev_insert at 1, bind, pwc_reverse_insert.
    destruct (rpn_get_insert (reverse_cache (ps_pwc s1)) sz (mk_xaddr 0 (xa_lpid addr) 0 (wk_ra w)) (xa_address addr) Hz)
      as (c' & -> & _).
    cbn [option_map ret]. eexists. split; [reflexivity|]. now apply at_pwc.
  Qed.

  Definition size_of (l : list N) (st : N) : N :=
    match length l with 2%nat => 30 | 3%nat => 21 | _ => pagesize_of st end.
  Lemma translate_at : forall flag addr s h w ws st, host_ok h ->
    at_ s (host_pte_records (hw_ptes h) ++ w :: ws) ->
    check_walk w flag = true -> wk_guest w = true -> wk_ra w = hw_ra h ->
    (length (hw_ptes h) = 4%nat -> sub_of NESTED_RA_ADDR (w :: ws) = Some st) ->
    exists s', partition_translate x flag addr s
               = XOk (s', Some (hw_ra h, hw_ptes h, size_of (hw_ptes h) st)) /\ at_ s' ws.
  Proof.
    intros flag addr s [ptes ra] w ws st [Hlen Hb] H Hc Hg Hra Hst. cbn [hw_ptes hw_ra] in *.
    destruct ptes as [|p1 [|p2 [|p3 [|p4 [|p5 l]]]]]; cbn [length] in Hlen; try lia;
      unfold host_pte_records in H; cbn [combine map fst snd app] in H;
      apply Forall_cons_iff in Hb as [B1 Hb]; apply Forall_cons_iff in Hb as [B2 Hb].
    - unfold partition_translate.
      destruct (partition_pte_at XLATE_PGD addr s p1 _ _ XLATE_PGD ltac:(unfold type_ok; tauto) B1 H) as (s1 & E1 & H1);
        [cbn; discriminate|reflexivity|].
      rewrite (bind_ok _ _ _ _ _ _ _ E1).
      destruct (partition_pte_at XLATE_PUD addr s1 p2 _ _ XLATE_PUD ltac:(unfold type_ok; tauto) B2 H1) as (s2 & E2 & H2);
        [reflexivity|reflexivity|].
      rewrite (bind_ok _ _ _ _ _ _ _ E2). cbn [pte_leaf pte_address pte_size]. rewrite Hg. cbn [orb].
      rewrite <- Hra. apply final_at; [cbn; unfold shift_ok; tauto|exact H2|exact Hc].
    - apply Forall_cons_iff in Hb as [B3 Hb]. unfold partition_translate.
      destruct (partition_pte_at XLATE_PGD addr s p1 _ _ XLATE_PGD ltac:(unfold type_ok; tauto) B1 H) as (s1 & E1 & H1);
        [cbn; discriminate|reflexivity|].
      rewrite (bind_ok _ _ _ _ _ _ _ E1).
      destruct (partition_pte_at XLATE_PUD addr s1 p2 _ _ XLATE_PUD ltac:(unfold type_ok; tauto) B2 H1) as (s2 & E2 & H2);
        [reflexivity|reflexivity|].
      rewrite (bind_ok _ _ _ _ _ _ _ E2). cbn [pte_leaf wk_guest wk_final orb].
      destruct (partition_pte_at XLATE_PMD addr s2 p3 _ _ XLATE_PMD ltac:(unfold type_ok; tauto) B3 H2) as (s3 & E3 & H3);
        [reflexivity|reflexivity|].
      rewrite (bind_ok _ _ _ _ _ _ _ E3). cbn [pte_leaf pte_address pte_size]. rewrite Hg. cbn [orb].
      rewrite <- Hra. apply final_at; [cbn; unfold shift_ok; tauto|exact H3|exact Hc].
    - apply Forall_cons_iff in Hb as [B3 Hb]. apply Forall_cons_iff in Hb as [B4 Hb]. unfold partition_translate.
      destruct (partition_pte_at XLATE_PGD addr s p1 _ _ XLATE_PGD ltac:(unfold type_ok; tauto) B1 H) as (s1 & E1 & H1);
        [cbn; discriminate|reflexivity|].
      rewrite (bind_ok _ _ _ _ _ _ _ E1).
      destruct (partition_pte_at XLATE_PUD addr s1 p2 _ _ XLATE_PUD ltac:(unfold type_ok; tauto) B2 H1) as (s2 & E2 & H2);
        [reflexivity|reflexivity|].
      rewrite (bind_ok _ _ _ _ _ _ _ E2). cbn [pte_leaf wk_guest wk_final orb].
      destruct (partition_pte_at XLATE_PMD addr s2 p3 _ _ XLATE_PMD ltac:(unfold type_ok; tauto) B3 H2) as (s3 & E3 & H3);
        [reflexivity|reflexivity|].
      rewrite (bind_ok _ _ _ _ _ _ _ E3). cbn [pte_leaf wk_guest wk_final orb].
      specialize (Hst eq_refl).
      destruct (partition_pte_at XLATE_PTE addr s3 p4 _ _ st ltac:(unfold type_ok; tauto) B4 H3) as (s4 & E4 & H4);
        [reflexivity|exact Hst|].
      rewrite (bind_ok _ _ _ _ _ _ _ E4). cbn [pte_leaf pte_address pte_size].
      rewrite <- Hra. apply final_at; [|exact H4|exact Hc].
      unfold sub_of in Hst. unfold shift_ok. destruct (existsb _ _); [injection Hst as <-; cbn; tauto|].
      destruct (existsb _ _); [injection Hst as <-; cbn; tauto|discriminate].
  Qed.

  Lemma process_pte_at : forall t addr s g ws leaf st, type_ok t -> g < 2 ^ 64 ->
    at_ s (mk_walk false false true false (htm_level t) g :: ws) ->
    pleaf levels (htm_level t) ws = Some leaf ->
    (if t =? XLATE_PTE then sub_of PROCESS_RA_ADDR ws = Some st else st = t) ->
    exists s', decode_process_pte x t addr s = XOk (s', Some (mk_pte g (pagesize_of st) leaf))
               /\ at_ s' ws.
  Proof.
    intros t addr s g ws leaf st Ht Hg H Hl Hs. unfold decode_process_pte.
    destruct (take_hit s _ _ (N.lor PROCESS_PTE (X_LEVEL (htm_level t))) H) as (s1 & E1 & H1).
    { rewrite check_process by now apply htm_level_in. cbn. apply N.eqb_refl. }
    rewrite (bind_ok _ _ _ _ _ _ _ E1). cbn [wk_ra].
    assert (El : process_is_leaf x (htm_level t) s1 = XOk (s1, Some leaf)).
    { rewrite (process_is_leaf_at _ s1 ws H1). now rewrite Hl. }
    rewrite (bind_ok _ _ _ _ _ _ _ El).
    assert (Es : process_subtype x t s1 = XOk (s1, Some st)).
    { unfold process_subtype. destruct (t =? XLATE_PTE); [|now subst].
      rewrite (pte_subtype_at _ s1 _ H1). now rewrite Hs. }
    rewrite (bind_ok _ _ _ _ _ _ _ Es).
    assert (Hlv : level_ok st).
    { apply (sub_level t); [exact Ht|]. unfold sub_ok. destruct (t =? XLATE_PTE); [|exact Hs].
      unfold sub_of in Hs. destruct (existsb _ _); [injection Hs as <-; tauto|].
      destruct (existsb _ _); [injection Hs as <-; tauto|discriminate]. }
    destruct (insert_out st addr g leaf s1 Hlv Hg) as (s2 & E2 & Ei & E3).
    rewrite (bind_ok _ _ _ _ _ _ _ E2), E3. exists s2. split; [reflexivity|].
    destruct H1. split; rewrite Ei; assumption.
  Qed.
End FULL.

(** Scans over the parts of a walk. *)
Definition demands_guest (f : walk -> bool) : Prop := forall w, wk_guest w = false -> f w = false.
Lemma existsb_host : forall f ptes ws, demands_guest f ->
  existsb f (host_pte_records ptes ++ ws) = existsb f ws.
Proof.
  intros f ptes ws Hf. rewrite existsb_app.
  replace (existsb f (host_pte_records ptes)) with false; [reflexivity|].
  symmetry. unfold host_pte_records. induction (combine [6; 4; 2; 0] ptes) as [|lp l IH]; [reflexivity|].
  cbn [map existsb]. rewrite IH, Hf; reflexivity.
Qed.
Definition f_nra (l : N) (w : walk) : bool := wk_guest w && wk_host w && wk_final w && (l =? wk_level w).
Definition f_pra (l : N) (w : walk) : bool := wk_guest w && negb (wk_host w) && wk_final w && (l =? wk_level w).
Definition f_leaf (l : N) (w : walk) : bool := wk_guest w && negb (wk_final w) && (l =? wk_level w).
Lemma existsb_ext : forall A (f g : A -> bool) l, (forall a, f a = g a) -> existsb f l = existsb g l.
Proof. intros A f g l H. induction l as [|a l IH]; [reflexivity|]. cbn. now rewrite H, IH. Qed.
Lemma dg_nra : forall l, demands_guest (f_nra l).
Proof. intros l w H. unfold f_nra. now rewrite H. Qed.
Lemma dg_pra : forall l, demands_guest (f_pra l).
Proof. intros l w H. unfold f_pra. now rewrite H. Qed.
Lemma dg_leaf : forall l, demands_guest (f_leaf l).
Proof. intros l w H. unfold f_leaf. now rewrite H. Qed.
Lemma sub_nested : forall ws, sub_of NESTED_RA_ADDR ws =
  if existsb (f_nra 0) ws then Some XLATE_4K_PTE
  else if existsb (f_nra 1) ws then Some XLATE_64K_PTE else None.
Proof.
  intros ws. unfold sub_of.
  rewrite (existsb_ext _ (fun w => check_walk w (N.lor NESTED_RA_ADDR (X_LEVEL 0))) (f_nra 0)) by (intro w; apply check_nested_ra; cbn; tauto).
  rewrite (existsb_ext _ (fun w => check_walk w (N.lor NESTED_RA_ADDR (X_LEVEL 1))) (f_nra 1)) by (intro w; apply check_nested_ra; cbn; tauto).
  reflexivity.
Qed.
Lemma sub_process : forall ws, sub_of PROCESS_RA_ADDR ws =
  if existsb (f_pra 0) ws then Some XLATE_4K_PTE
  else if existsb (f_pra 1) ws then Some XLATE_64K_PTE else None.
Proof.
  intros ws. unfold sub_of.
  rewrite (existsb_ext _ (fun w => check_walk w (N.lor PROCESS_RA_ADDR (X_LEVEL 0))) (f_pra 0)) by (intro w; apply check_process_ra; cbn; tauto).
  rewrite (existsb_ext _ (fun w => check_walk w (N.lor PROCESS_RA_ADDR (X_LEVEL 1))) (f_pra 1)) by (intro w; apply check_process_ra; cbn; tauto).
  reflexivity.
Qed.
Lemma pleaf_levels : forall level ws, In level [0; 2; 4; 6] -> pleaf levels level ws =
  if level =? 0 then Some true
  else if existsb (f_leaf 0) ws then Some false
  else if level =? 2 then Some true
  else if existsb (f_leaf 2) ws then Some false
  else if level =? 4 then None
  else if existsb (f_leaf 4) ws then Some false else None.
Proof.
  intros level ws H. unfold levels, PTE_LEVEL_4, PTE_LEVEL_3, PTE_LEVEL_2, PTE_LEVEL_1. cbn [pleaf].
  rewrite (existsb_ext _ (fun w => check_walk w (N.lor (N.lor X_NO_FINAL_RA X_GUEST_PTE) (X_LEVEL 0))) (f_leaf 0)) by (intro w; apply check_leaf; cbn; tauto).
  rewrite (existsb_ext _ (fun w => check_walk w (N.lor (N.lor X_NO_FINAL_RA X_GUEST_PTE) (X_LEVEL 2))) (f_leaf 2)) by (intro w; apply check_leaf; cbn; tauto).
  rewrite (existsb_ext _ (fun w => check_walk w (N.lor (N.lor X_NO_FINAL_RA X_GUEST_PTE) (X_LEVEL 4))) (f_leaf 4)) by (intro w; apply check_leaf; cbn; tauto).
  destruct H as [<-|[<-|[<-|[<-|[]]]]]; cbn; destruct (existsb (f_leaf 0) ws), (existsb (f_leaf 2) ws), (existsb (f_leaf 4) ws); reflexivity.
Qed.

(** The remaining records, in the nesting produced by the parser. *)
Definition final_records (t : full_walk) : list walk :=
  mk_walk true false true false (fw_glevel t) (fst (fw_final t))
  :: host_pte_records (hw_ptes (snd (fw_final t)))
  ++ [mk_walk true false true true (fw_hlevel t) (hw_ra (snd (fw_final t)))].
Definition guest_then (level : N) (gh : N * host_walk) (rest : list walk) : list walk :=
  mk_walk false false true false level (fst gh)
  :: host_pte_records (hw_ptes (snd gh))
  ++ mk_walk false false true true level (hw_ra (snd gh)) :: rest.

Lemma guest_records_then : forall level gh rest,
  guest_records (level, gh) ++ rest = guest_then level gh rest.
Proof. intros level [g h] rest. unfold guest_records, guest_then. cbn. now rewrite <- app_assoc. Qed.

Lemma ex_then : forall f level (gh : N * host_walk) rest, demands_guest f ->
  existsb f (guest_then level gh rest)
  = f (mk_walk false false true false level (fst gh))
    || (f (mk_walk false false true true level (hw_ra (snd gh))) || existsb f rest).
Proof.
  intros f level gh rest Hf. unfold guest_then. cbn [existsb]. rewrite existsb_host by exact Hf. reflexivity.
Qed.
Lemma ex_after : forall f level (gh : N * host_walk) rest, demands_guest f ->
  existsb f (host_pte_records (hw_ptes (snd gh)) ++ mk_walk false false true true level (hw_ra (snd gh)) :: rest)
  = f (mk_walk false false true true level (hw_ra (snd gh))) || existsb f rest.
Proof. intros f level gh rest Hf. rewrite existsb_host by exact Hf. reflexivity. Qed.
Lemma ex_final : forall f t, demands_guest f ->
  existsb f (final_records t)
  = f (mk_walk true false true false (fw_glevel t) (fst (fw_final t)))
    || (f (mk_walk true false true true (fw_hlevel t) (hw_ra (snd (fw_final t)))) || false).
Proof.
  intros f t Hf. unfold final_records. cbn [existsb]. rewrite existsb_host by exact Hf. reflexivity.
Qed.

Ltac scans :=
  repeat first
    [ rewrite ex_then by first [apply dg_nra|apply dg_pra|apply dg_leaf]
    | rewrite ex_after by first [apply dg_nra|apply dg_pra|apply dg_leaf]
    | rewrite ex_final by first [apply dg_nra|apply dg_pra|apply dg_leaf]
    | rewrite existsb_host by first [apply dg_nra|apply dg_pra|apply dg_leaf]
    | progress cbn [existsb] ];
  unfold f_nra, f_pra, f_leaf;
  cbn [wk_guest wk_host wk_final wk_level andb orb negb].

Definition host_sub (t : full_walk) : N := if fw_hlevel t =? 0 then XLATE_4K_PTE else XLATE_64K_PTE.
Definition guest_sub (t : full_walk) : N := if fw_glevel t =? 0 then XLATE_4K_PTE else XLATE_64K_PTE.

Section FULL2.
  Variable x : xlate.
  Hypothesis Hx : xlate_wf x.
  Variable t : full_walk.

  Lemma lvl_case : forall v, v <= 1 -> v = 0 \/ v = 1. Proof. lia. Qed.

  (** One guest level: its entry and the walk that translates it. *)
  Lemma level_at : forall ty addr gh rest s leaf st, type_ok ty -> fst gh < 2 ^ 64 -> host_ok (snd gh) ->
    at_ x s (guest_then (htm_level ty) gh rest) ->
    pleaf levels (htm_level ty)
      (host_pte_records (hw_ptes (snd gh)) ++ mk_walk false false true true (htm_level ty) (hw_ra (snd gh)) :: rest)
      = Some leaf ->
    (if ty =? XLATE_PTE then sub_of PROCESS_RA_ADDR
       (host_pte_records (hw_ptes (snd gh)) ++ mk_walk false false true true (htm_level ty) (hw_ra (snd gh)) :: rest) = Some st
     else st = ty) ->
    (length (hw_ptes (snd gh)) = 4%nat ->
       sub_of NESTED_RA_ADDR (mk_walk false false true true (htm_level ty) (hw_ra (snd gh)) :: rest) = Some (host_sub t)) ->
    exists s1 s2 z, decode_process_pte x ty addr s = XOk (s1, Some (mk_pte (fst gh) (pagesize_of st) leaf))
      /\ nested x (N.lor NESTED_PTE (X_LEVEL (htm_level ty))) (process_real (xa_lpid addr) (fst gh)) s1
         = XOk (s2, Some (hw_ra (snd gh), hw_ptes (snd gh), z))
      /\ at_ x s2 rest.
  Proof.
    intros ty addr gh rest s leaf st Hty Hg Hh H Hl Hs Hn.
    destruct (process_pte_at x Hx ty addr s (fst gh) _ leaf st Hty Hg H Hl Hs) as (s1 & E1 & H1).
    destruct (translate_at x Hx (N.lor NESTED_PTE (X_LEVEL (htm_level ty))) (process_real (xa_lpid addr) (fst gh))
                s1 (snd gh) _ rest (host_sub t) Hh H1) as (s2 & E2 & H2).
    - rewrite check_nested by (pose proof (htm_level_in ty Hty) as Hin; cbn in *; tauto). cbn. apply N.eqb_refl.
    - reflexivity.
    - reflexivity.
    - exact Hn.
    - exists s1, s2. eexists. repeat split; [exact E1|exact E2|apply H2..].
  Qed.

  Lemma translate_final : forall addr s, host_ok (snd (fw_final t)) ->
    (length (hw_ptes (snd (fw_final t))) = 4%nat -> fw_hlevel t <= 1) ->
    at_ x s (host_pte_records (hw_ptes (snd (fw_final t)))
             ++ [mk_walk true false true true (fw_hlevel t) (hw_ra (snd (fw_final t)))]) ->
    exists s', nested x (lor3 X_HOST_RA X_GUEST_PTE X_FINAL_RA) addr s
      = XOk (s', Some (hw_ra (snd (fw_final t)), hw_ptes (snd (fw_final t)), host_shift t)) /\ at_ x s' [].
  Proof.
    intros addr s Hh Hl H.
    destruct (translate_at x Hx (lor3 X_HOST_RA X_GUEST_PTE X_FINAL_RA) addr s (snd (fw_final t)) _ [] (host_sub t) Hh H)
      as (s' & E & H').
    - now rewrite check_final.
    - reflexivity.
    - reflexivity.
    - intro H4. rewrite sub_nested. scans. unfold host_sub.
      destruct (lvl_case _ (Hl H4)) as [-> | ->]; reflexivity.
    - exists s'. split; [|exact H']. unfold nested. rewrite E. do 3 f_equal.
      unfold size_of, host_shift, host_sub. destruct Hh as [Hlen _].
      destruct (length (hw_ptes (snd (fw_final t)))) as [|[|[|[|n]]]]; try reflexivity;
        destruct (fw_hlevel t =? 0); reflexivity.
  Qed.

  Lemma pad_fill : forall n l, (length l <= n)%nat -> pad n l = fill n l.
  Proof.
    intros n l H. unfold pad, fill. rewrite firstn_app, firstn_all2 by exact H. f_equal.
    assert (HR : forall k m, (k <= m)%nat -> firstn k (repeat 0 m) = repeat 0 k).
    { induction k as [|k IH]; intros [|m] Hm; [reflexivity..|lia|]. cbn. f_equal. apply IH. lia. }
    symmetry. apply HR. lia.
  Qed.

  Definition table_records : list walk :=
    match fw_table t with
    | Some (pa, pr, h) => mk_walk false false false true 7 pa :: guest_records (7, (pr, h))
    | None => []
    end.
  Definition table_step (addr : xaddr) : X unit :=
    _ <- take x (lor3 X_HOST_RA X_NO_GUEST_PTE (X_LEVEL 7)) ;;
    w <- take x (N.lor X_GUEST_PTE (X_LEVEL 7)) ;;
    match w with
    | Some w => ignore (nested x (N.lor NESTED_PTE (X_LEVEL 7)) (process_real (xa_lpid addr) (wk_ra w)))
    | None => ret tt
    end.
  Lemma table_at : forall addr s gh rest,
    Forall host_ok (match fw_table t with Some (_, _, h) => [h] | None => [] end) ->
    at_ x s (table_records ++ guest_then 6 gh rest) ->
    (match fw_table t with Some (_, _, h) => length (hw_ptes h) = 4%nat | None => False end ->
     sub_of NESTED_RA_ADDR (guest_then 6 gh rest) = Some (host_sub t)) ->
    exists s', table_step addr s = XOk (s', Some tt) /\ at_ x s' (guest_then 6 gh rest).
  Proof.
    intros addr s gh rest Hh H Hs. unfold table_step, table_records in *.
    destruct (fw_table t) as [[[pa pr] h]|].
    - rewrite <- app_comm_cons, guest_records_then in H.
      destruct (take_hit x Hx s _ _ (lor3 X_HOST_RA X_NO_GUEST_PTE (X_LEVEL 7)) H) as (s1 & E1 & H1); [reflexivity|].
      rewrite (bind_ok _ _ _ _ _ _ _ E1). unfold guest_then at 1 in H1.
      destruct (take_hit x Hx s1 _ _ (N.lor X_GUEST_PTE (X_LEVEL 7)) H1) as (s2 & E2 & H2); [reflexivity|].
      rewrite (bind_ok _ _ _ _ _ _ _ E2). cbn [wk_ra fst snd] in *.
      apply Forall_cons_iff in Hh as [Hh _].
      destruct (translate_at x Hx (N.lor NESTED_PTE (X_LEVEL 7)) (process_real (xa_lpid addr) pr) s2 h _ _ (host_sub t) Hh H2)
        as (s3 & E3 & H3); [reflexivity|reflexivity|reflexivity| |].
      { intro H4. specialize (Hs H4). rewrite sub_nested in *. exact Hs. }
      unfold ignore, nested. rewrite E3. exists s3. now split.
    - cbn [app] in H.
      assert (M1 : take x (lor3 X_HOST_RA X_NO_GUEST_PTE (X_LEVEL 7)) s = XOk (s, Some None)).
      { eapply take_miss; [exact Hx|exact H|]. reflexivity. }
      assert (M2 : take x (N.lor X_GUEST_PTE (X_LEVEL 7)) s = XOk (s, Some None)).
      { eapply take_miss; [exact Hx|exact H|]. reflexivity. }
      rewrite (bind_ok _ _ _ _ _ _ _ M1), (bind_ok _ _ _ _ _ _ _ M2). exists s. now split.
  Qed.
End FULL2.

Lemma max_len_fold : forall hs : list host_walk, max_len (map hw_ptes hs)
  = fold_right N.max 0 (map (fun h => N.of_nat (length (hw_ptes h))) hs).
Proof.
  intros hs. unfold max_len.
  assert (H : forall hs m, fold_left (fun m (r : list N) => N.max m (N.of_nat (length r))) (map hw_ptes hs) m
    = N.max m (fold_right N.max 0 (map (fun h => N.of_nat (length (hw_ptes h))) hs))).
  { clear hs. induction hs as [|h hs IH]; intros m; cbn [map fold_left fold_right].
    - now rewrite N.max_0_r.
    - now rewrite IH, N.max_assoc. }
  rewrite H. apply N.max_0_l.
Qed.

Section FULL3.
  Variable x : xlate.
  Hypothesis Hx : xlate_wf x.
  Variable t : full_walk.

  Definition walk_body (addr : xaddr) : X (radix * N * N * N) :=
    let nest lvl a := nested x (N.lor NESTED_PTE (X_LEVEL lvl)) (process_real (xa_lpid addr) a) in
    g0 <- decode_process_pte x XLATE_PGD addr ;;
    h0 <- nest PTE_LEVEL_1 (pte_address g0) ;;
    g1 <- decode_process_pte x XLATE_PUD addr ;;
    h1 <- nest PTE_LEVEL_2 (pte_address g1) ;;
    g2 <- decode_process_pte x XLATE_PMD addr ;;
    h2 <- nest PTE_LEVEL_3 (pte_address g2) ;;
    let '(r0, l0, _) := h0 in let '(r1, l1, _) := h1 in let '(r2, l2, _) := h2 in
    let final a := nested x (lor3 X_HOST_RA X_GUEST_PTE X_FINAL_RA) (process_real (xa_lpid addr) a) in
    if pte_leaf g2 then
      a3 <- process_real_addr x addr (pte_size g2) ;;
      h3 <- final a3 ;;
      let '(ra, l3, hsize) := h3 in
      let rows := [l0; l1; l2; l3] in
      ret (mk_radix UNSPECIFIED (max_len rows) 4 (pad_rows rows) (pad 4 [r0; r1; r2])
             (pad 5 [pte_address g0; pte_address g1; pte_address g2; a3]),
           ra, hsize, pte_size g2)
    else
      g3 <- decode_process_pte x XLATE_PTE addr ;;
      h3 <- nest PTE_LEVEL_4 (pte_address g3) ;;
      a4 <- process_real_addr x addr (pte_size g3) ;;
      h4 <- final a4 ;;
      let '(r3, l3, _) := h3 in
      let '(ra, l4, hsize) := h4 in
      let rows := [l0; l1; l2; l3; l4] in
      ret (mk_radix UNSPECIFIED (max_len rows) 5 (pad_rows rows) [r0; r1; r2; r3]
             [pte_address g0; pte_address g1; pte_address g2; pte_address g3; a4],
           ra, hsize, pte_size g3).
  Lemma bind3 : forall A B C D (m1 : X A) (m2 : X B) (f : B -> X C) (k : C -> X D) s,
    bind m1 (fun _ => bind m2 (fun w => bind (f w) k)) s
    = bind (bind m1 (fun _ => bind m2 f)) k s.
  Proof.
    intros A B C D m1 m2 f k s. unfold bind. destruct (m1 s) as [[s1 [a|]]|]; try reflexivity.
    destruct (m2 s1) as [[s2 [b|]]|]; reflexivity.
  Qed.
  Lemma decode_split : forall addr s,
    decode_nested_radix x addr s = bind (table_step x addr) (fun _ => walk_body addr) s.
  Proof.
    intros addr s. apply (bind3 _ _ _ _ (take x (lor3 X_HOST_RA X_NO_GUEST_PTE (X_LEVEL 7)))).
  Qed.

  Lemma fw_final_hyps : fw_ok t ->
    host_ok (snd (fw_final t)) /\ (length (hw_ptes (snd (fw_final t))) = 4%nat -> fw_hlevel t <= 1).
  Proof.
    intros (H1 & _ & _ & H4). unfold all_hosts in *. rewrite !Forall_app in H1.
    destruct H1 as (_ & _ & H1). apply Forall_cons_iff in H1 as [H1 _]. split; [exact H1|].
    intro El. destruct H4 as [H4|H4]; [exact H4|]. rewrite !Forall_app in H4.
    destruct H4 as (_ & _ & H4). apply Forall_cons_iff in H4 as [H4 _]. lia.
  Qed.
  Lemma fw_guest_hyps : fw_ok t -> forall gh, In gh (fw_guest t) ->
    fst gh < 2 ^ 64 /\ host_ok (snd gh) /\ (length (hw_ptes (snd gh)) = 4%nat -> fw_hlevel t <= 1).
  Proof.
    intros (H1 & H2 & _ & H4) gh Hin. unfold all_hosts in *. rewrite !Forall_app in H1.
    destruct H1 as (_ & H1 & _). rewrite Forall_map in H1.
    rewrite Forall_forall in H1, H2. split; [now apply H2|]. split; [now apply H1|].
    intro El. destruct H4 as [H4|H4]; [exact H4|]. rewrite !Forall_app in H4.
    destruct H4 as (_ & H4 & _). rewrite Forall_map in H4. rewrite Forall_forall in H4.
    specialize (H4 gh Hin). cbn in H4. lia.
  Qed.
  Lemma fw_table_hyps : fw_ok t ->
    Forall host_ok (match fw_table t with Some (_, _, h) => [h] | None => [] end) /\
    (match fw_table t with Some (_, _, h) => length (hw_ptes h) = 4%nat | None => False end -> fw_hlevel t <= 1).
  Proof.
    intros (H1 & _ & _ & H4). unfold all_hosts in *. rewrite !Forall_app in H1.
    destruct H1 as (H1 & _). split; [exact H1|]. destruct (fw_table t) as [[[pa pr] h]|]; [|tauto].
    intro El. destruct H4 as [H4|H4]; [exact H4|]. rewrite !Forall_app in H4.
    destruct H4 as (H4 & _). apply Forall_cons_iff in H4 as [H4 _]. lia.
  Qed.

  Lemma nested_full : forall addr p, fw_ok t -> records_of x = full_records t ->
    exists s', decode_nested_radix x addr (mk_pst p 0)
      = XOk (s', Some (fw_radix t, hw_ra (snd (fw_final t)), host_shift t, guest_shift t))
      /\ ps_i s' = x_nwalks x.
  Proof.
    intros addr p Hok Er.
    destruct (fw_final_hyps Hok) as [Hfh Hfl]. pose proof (fw_guest_hyps Hok) as HG.
    destruct (fw_table_hyps Hok) as [Hth Htl].
    assert (H0 : at_ x (mk_pst p 0) (full_records t)).
    { split; cbn [ps_i]; [lia|exact Er]. }
    assert (Hend : forall s, at_ x s [] -> ps_i s = x_nwalks x).
    { intros s [E1 E2]. assert (El : length (skipn (ps_i s) (records_of x)) = 0%nat) by now rewrite E2.
      rewrite skipn_length, records_length in El by exact Hx. lia. }
    assert (Hsub : forall v, v <= 1 ->
      (if 0 =? v then Some XLATE_4K_PTE else if 1 =? v then Some XLATE_64K_PTE else None)
      = Some (if v =? 0 then XLATE_4K_PTE else XLATE_64K_PTE)).
    { intros v Hv. destruct (lvl_case v Hv) as [-> | ->]; reflexivity. }
    assert (Efr : full_records t = table_records t ++ flat_map guest_records (combine [6; 4; 2; 0] (fw_guest t)) ++ final_records t).
    { reflexivity. }
    rewrite Efr in H0. clear Efr.
    rewrite decode_split.
    destruct Hok as (_ & _ & Hlen & _). unfold fw_radix, guest_shift.
    destruct (fw_guest t) as [|gh0 [|gh1 [|gh2 [|gh3 [|gh4 l]]]]] eqn:Eg; cbn [length] in Hlen; try lia;
      cbn [combine flat_map] in H0; rewrite app_nil_r, <- !app_assoc, !guest_records_then in H0.
    - destruct (HG gh0 ltac:(cbn; tauto)) as (B0 & K0 & S0).
      destruct (HG gh1 ltac:(cbn; tauto)) as (B1 & K1 & S1).
      destruct (HG gh2 ltac:(cbn; tauto)) as (B2 & K2 & S2).
      destruct (table_at x Hx t addr _ gh0 _ Hth H0) as (s1 & E1 & H1).
      { intro H4. rewrite sub_nested. scans. unfold host_sub. rewrite !orb_false_r. now apply Hsub, Htl. }
      rewrite (bind_ok _ _ _ _ _ _ _ E1). unfold walk_body. cbv zeta.
      destruct (level_at x Hx t XLATE_PGD addr gh0 _ s1 false XLATE_PGD ltac:(unfold type_ok; tauto) B0 K0 H1)
        as (s2 & s3 & z2 & E2 & E3 & H3); [| reflexivity | |].
      { rewrite pleaf_levels by (cbn; tauto). scans.
        destruct (0 =? _); reflexivity. }
      { intro H4. rewrite sub_nested. scans. unfold host_sub. rewrite !orb_false_r. now apply Hsub, S0. }
      rewrite (bind_ok _ _ _ _ _ _ _ E2). cbn [pte_address]. rewrite (bind_ok _ _ _ _ _ _ _ E3).
      destruct (level_at x Hx t XLATE_PUD addr gh1 _ s3 false XLATE_PUD ltac:(unfold type_ok; tauto) B1 K1 H3)
        as (s4 & s5 & z4 & E4 & E5 & H5); [| reflexivity | |].
      { rewrite pleaf_levels by (cbn; tauto). scans.
        destruct (0 =? _); reflexivity. }
      { intro H4. rewrite sub_nested. scans. unfold host_sub. rewrite !orb_false_r. now apply Hsub, S1. }
      rewrite (bind_ok _ _ _ _ _ _ _ E4). cbn [pte_address]. rewrite (bind_ok _ _ _ _ _ _ _ E5).
      destruct (level_at x Hx t XLATE_PMD addr gh2 _ s5 true XLATE_PMD ltac:(unfold type_ok; tauto) B2 K2 H5)
        as (s6 & s7 & z6 & E6 & E7 & H7); [| reflexivity | |].
      { rewrite pleaf_levels by (cbn; tauto). scans. reflexivity. }
      { intro H4. rewrite sub_nested. scans. unfold host_sub. rewrite !orb_false_r. now apply Hsub, S2. }
      rewrite (bind_ok _ _ _ _ _ _ _ E6). cbn [pte_address]. rewrite (bind_ok _ _ _ _ _ _ _ E7).
      cbn [pte_leaf pte_size]. unfold final_records in H7.
      destruct (process_real_at x Hx addr (pagesize_of XLATE_PMD) s7 _ _ ltac:(unfold shift_ok; cbn; tauto) H7) as (s8 & E8 & H8);
        [now rewrite check_process_final|].
      rewrite (bind_ok _ _ _ _ _ _ _ E8). cbn [wk_ra].
      destruct (translate_final x Hx t (process_real (xa_lpid addr) (fst (fw_final t))) s8 Hfh Hfl H8) as (s9 & E9 & H9).
      rewrite (bind_ok _ _ _ _ _ _ _ E9). exists s9. split; [|now apply Hend].
      unfold ret. do 3 f_equal. cbn [length map app].
      rewrite !pad_fill by (cbn; lia). unfold pad_rows.
      replace (map (pad NR_RADIX_PTES) _) with (map (fill 4) [hw_ptes (snd gh0); hw_ptes (snd gh1); hw_ptes (snd gh2); hw_ptes (snd (fw_final t))]).
      2: { cbn [map]. unfold NR_RADIX_PTES. rewrite !pad_fill; [reflexivity|..].
           all: first [apply K0|apply K1|apply K2|apply Hfh]. }
      f_equal. f_equal. f_equal. f_equal.
      apply (max_len_fold [snd gh0; snd gh1; snd gh2; snd (fw_final t)]).
    - destruct (HG gh0 ltac:(cbn; tauto)) as (B0 & K0 & S0).
      destruct (HG gh1 ltac:(cbn; tauto)) as (B1 & K1 & S1).
      destruct (HG gh2 ltac:(cbn; tauto)) as (B2 & K2 & S2).
      destruct (HG gh3 ltac:(cbn; tauto)) as (B3 & K3 & S3).
      destruct Hlen as [Hlen|[_ Hgl]]; [discriminate|].
      destruct (table_at x Hx t addr _ gh0 _ Hth H0) as (s1 & E1 & H1).
      { intro H4. rewrite sub_nested. scans. unfold host_sub. rewrite !orb_false_r. now apply Hsub, Htl. }
      rewrite (bind_ok _ _ _ _ _ _ _ E1). unfold walk_body. cbv zeta.
      destruct (level_at x Hx t XLATE_PGD addr gh0 _ s1 false XLATE_PGD ltac:(unfold type_ok; tauto) B0 K0 H1)
        as (s2 & s3 & z2 & E2 & E3 & H3); [| reflexivity | |].
      { rewrite pleaf_levels by (cbn; tauto). scans. reflexivity. }
      { intro H4. rewrite sub_nested. scans. unfold host_sub. rewrite !orb_false_r. now apply Hsub, S0. }
      rewrite (bind_ok _ _ _ _ _ _ _ E2). cbn [pte_address]. rewrite (bind_ok _ _ _ _ _ _ _ E3).
      destruct (level_at x Hx t XLATE_PUD addr gh1 _ s3 false XLATE_PUD ltac:(unfold type_ok; tauto) B1 K1 H3)
        as (s4 & s5 & z4 & E4 & E5 & H5); [| reflexivity | |].
      { rewrite pleaf_levels by (cbn; tauto). scans. reflexivity. }
      { intro H4. rewrite sub_nested. scans. unfold host_sub. rewrite !orb_false_r. now apply Hsub, S1. }
      rewrite (bind_ok _ _ _ _ _ _ _ E4). cbn [pte_address]. rewrite (bind_ok _ _ _ _ _ _ _ E5).
      destruct (level_at x Hx t XLATE_PMD addr gh2 _ s5 false XLATE_PMD ltac:(unfold type_ok; tauto) B2 K2 H5)
        as (s6 & s7 & z6 & E6 & E7 & H7); [| reflexivity | |].
      { rewrite pleaf_levels by (cbn; tauto). scans. reflexivity. }
      { intro H4. rewrite sub_nested. scans. unfold host_sub. rewrite !orb_false_r. now apply Hsub, S2. }
      rewrite (bind_ok _ _ _ _ _ _ _ E6). cbn [pte_address]. rewrite (bind_ok _ _ _ _ _ _ _ E7).
      cbn [pte_leaf].
      destruct (level_at x Hx t XLATE_PTE addr gh3 _ s7 true (guest_sub t) ltac:(unfold type_ok; tauto) B3 K3 H7)
        as (s8 & s9 & z8 & E8 & E9 & H9).
      { rewrite pleaf_levels by (cbn; tauto). reflexivity. }
      { cbn [N.eqb]. replace (XLATE_PTE =? XLATE_PTE) with true by reflexivity.
        rewrite sub_process. scans. unfold guest_sub. rewrite !orb_false_r. now apply Hsub. }
      { intro H4. rewrite sub_nested. scans. unfold host_sub. rewrite !orb_false_r. now apply Hsub, S3. }
      rewrite (bind_ok _ _ _ _ _ _ _ E8). cbn [pte_address]. rewrite (bind_ok _ _ _ _ _ _ _ E9).
      cbn [pte_size]. unfold final_records in H9.
      assert (Hz : shift_ok (pagesize_of (guest_sub t))).
      { unfold guest_sub, shift_ok. destruct (fw_glevel t =? 0); cbn; tauto. }
      destruct (process_real_at x Hx addr (pagesize_of (guest_sub t)) s9 _ _ Hz H9) as (s10 & E10 & H10);
        [now rewrite check_process_final|].
      rewrite (bind_ok _ _ _ _ _ _ _ E10). cbn [wk_ra].
      destruct (translate_final x Hx t (process_real (xa_lpid addr) (fst (fw_final t))) s10 Hfh Hfl H10) as (s11 & E11 & H11).
      rewrite (bind_ok _ _ _ _ _ _ _ E11). exists s11. split; [|now apply Hend].
      unfold ret. cbn [length map app].
      replace (pagesize_of (guest_sub t)) with (if fw_glevel t =? 0 then 12 else 16)
        by (unfold guest_sub; destruct (fw_glevel t =? 0); reflexivity).
      cbn [Nat.eqb]. do 3 f_equal.
      unfold pad_rows.
      replace (map (pad NR_RADIX_PTES) _) with (map (fill 4) [hw_ptes (snd gh0); hw_ptes (snd gh1); hw_ptes (snd gh2); hw_ptes (snd gh3); hw_ptes (snd (fw_final t))]).
      2: { cbn [map]. unfold NR_RADIX_PTES. rewrite !pad_fill; [reflexivity|..].
           all: first [apply K0|apply K1|apply K2|apply K3|apply Hfh]. }
      f_equal. f_equal. f_equal. f_equal.
      apply (max_len_fold [snd gh0; snd gh1; snd gh2; snd gh3; snd (fw_final t)]).
  Qed.
End FULL3.

Lemma mask_4k : forall ra, ra < 2 ^ 64 ->
  N.land ra (N.lxor (2 ^ 12 - 1) (w64 - 1)) = ra / 2 ^ 12 * 2 ^ 12.
Proof. intros ra H. apply (aligned 12); [unfold shift_ok; tauto|exact H]. Qed.

Lemma full_complete : forall x t, xlate_wf x -> records_of x = full_records t -> xlate_complete x = true.
Proof.
  intros x t Hx E. unfold xlate_complete. pose proof (records_length x Hx) as Hl.
  rewrite E in Hl. destruct (x_nwalks x) as [|n] eqn:En; [reflexivity|].
  assert (Hn : nth n (x_walks x) zero_walk = nth n (records_of x) zero_walk).
  { unfold records_of. rewrite En. clear. revert n. induction (x_walks x) as [|w l IH]; intros [|n]; cbn; try reflexivity.
    apply IH. }
  rewrite Hn, E.
  assert (Ef : exists pre, full_records t = pre ++ [mk_walk true false true true (fw_hlevel t) (hw_ra (snd (fw_final t)))]).
  { unfold full_records. rewrite app_comm_cons, !app_assoc. eexists. reflexivity. }
  destruct Ef as [pre Ef]. rewrite Ef in *. rewrite app_length in Hl. cbn [length] in Hl.
  rewrite app_nth2 by lia. replace (n - length pre)%nat with 0%nat by lia. reflexivity.
Qed.

Lemma decode_full : forall st x t m a r, xlate_wf x -> Forall xlate_wf (xs_partial st) ->
  Forall (fun n => ~ overlap n x) (xs_partial st) ->
  fw_ok t -> records_of x = full_records t -> m_hv m = false ->
  a < 2 ^ 64 -> r < 2 ^ 64 -> hw_ra (snd (fw_final t)) < 2 ^ 64 ->
  if hw_ra (snd (fw_final t)) / 2 ^ 12 * 2 ^ 12 =? r then
    exists p e, xlate_decode st x m true a r
      = XOk (mk_xst p e (xs_partial st), Some (fw_radix t, host_shift t, guest_shift t))
      /\ erat_insert (xs_erat st) (host_shift t) a r (fw_radix t) (guest_shift t) = Some e
  else xlate_decode st x m true a r = XErr XAssert.
Proof.
  intros st x t m a r Hx Hp Hno Hok Er Hm Ha Hr Hra.
  assert (EL : partial_lookup (xs_partial st) x = XOk (None, xs_partial st)).
  { destruct (lookup_spec (xs_partial st) x Hp Hx) as [[E _]|(l1 & n & l2 & pre & El & _ & O & _)]; [exact E|].
    exfalso. rewrite Forall_forall in Hno. apply (Hno n); [|exact O]. rewrite El. apply in_or_app. right. now left. }
  destruct (nested_full x Hx t (mk_xaddr 0 (x_lpid x) (x_pid x) a) (xs_pwc st) Hok Er) as (s' & E & Ei).
  unfold xlate_decode. rewrite EL, (full_complete x t Hx Er), Hm. cbn [andb negb]. rewrite E.
  rewrite mask_4k by exact Hra. destruct (_ =? r); [|reflexivity].
  assert (Hs : shift_ok (host_shift t) /\ shift_ok (guest_shift t)).
  { unfold host_shift, guest_shift, shift_ok. split.
    - destruct (length _) as [|[|[|[|]]]]; try (destruct (fw_hlevel t =? 0)); tauto.
    - destruct (_ =? 3)%nat; [tauto|]. destruct (fw_glevel t =? 0); tauto. }
  destruct Hs as [Hs1 Hs2].
  destruct (erat_insert_ok (xs_erat st) (host_shift t) a r (fw_radix t) (guest_shift t) Hs1 Hs2 Ha Hr) as (e' & Ee & _).
  rewrite Ee, Ei, Nat.eqb_refl. exists (ps_pwc s'), e'. now split.
Qed.

(** ** Decoding, then looking up in the same page *)
Lemma erat_get_after : forall e h a r rec g e' a' r', shift_ok h -> shift_ok g ->
  a < 2 ^ 64 -> r < 2 ^ 64 -> a' < 2 ^ 64 -> r' < 2 ^ 64 ->
  erat_insert e h a r rec g = Some e' ->
  let s := N.min h g in
  a' / 2 ^ s = a / 2 ^ s -> r' / 2 ^ s = r / 2 ^ s ->
  (exists v, erat_get e' s a' r' = Some (Some v) /\ ev_rec v = rec /\ ev_guest v = g
             /\ (erat_get e s a' r' = Some None -> ev_host v = h))
  /\ forall s', shift_ok s' -> s' <> s -> erat_get e' s' a' r' = erat_get e s' a' r'.
Proof.
  intros e h a r rec g e' a' r' Hh Hg Ha Hr Ha' Hr' E s Es1 Es2.
  assert (Hs : shift_ok s). { unfold s. destruct (N.min_spec h g) as [[_ ->]|[_ ->]]; assumption. }
  unfold erat_insert in E.
  replace (if h <? g then h else g) with s in E by (unfold s; destruct (h <? g) eqn:El; lia).
  rewrite erat_align_ok in E by assumption.
  unfold erat_get. rewrite (erat_align_ok s a' r') by assumption. rewrite Es1, Es2.
  set (k := mk_ek s _ _) in *.
  destruct (find_key eara_cmp e k) as [v|] eqn:Ef; injection E as <-.
  - split.
    + exists (mk_ev rec (ev_host v) g). rewrite (find_update eara_cmp eara_cmp_ok).
      replace (eara_cmp k k) with true by (symmetry; now apply eara_cmp_ok).
      rewrite Ef. repeat split. discriminate.
    + intros s' Hs' Hne. rewrite erat_align_ok by assumption. rewrite (find_update eara_cmp eara_cmp_ok).
      match goal with |- context [eara_cmp k ?k'] => destruct (eara_cmp k k') eqn:Ek; [|reflexivity] end.
      apply eara_cmp_ok in Ek. unfold k in Ek. congruence.
  - split.
    + exists (mk_ev rec h g). cbn [find_key].
      replace (eara_cmp k k) with true by (symmetry; now apply eara_cmp_ok). now repeat split.
    + intros s' Hs' Hne. rewrite erat_align_ok by assumption. cbn [find_key].
      match goal with |- context [eara_cmp k ?k'] => destruct (eara_cmp k k') eqn:Ek; [|reflexivity] end.
      apply eara_cmp_ok in Ek. unfold k in Ek. congruence.
Qed.

Lemma guest_real_at : forall t a, (length (fw_guest t) = 3 \/ length (fw_guest t) = 4)%nat ->
  fst (fw_final t) < 2 ^ 64 ->
  let rec := fw_radix t in
  mk_radix (rx_type rec) (rx_nr_ptes rec) (rx_walks rec) (rx_host_ptes rec) (rx_host_real rec)
    (with_offset (rx_guest_real rec) (N.to_nat (rx_walks rec) - 1) (guest_shift t) a)
  = fw_radix (fw_at t a).
Proof.
  intros t a Hl Hf rec. unfold rec, fw_radix, fw_at, with_offset.
  cbn [rx_type rx_nr_ptes rx_walks rx_host_ptes rx_host_real rx_guest_real fw_guest fw_final fst snd].
  set (s := guest_shift t). clearbody s. f_equal.
  destruct (fw_guest t) as [|g0 [|g1 [|g2 [|g3 [|g4 l]]]]]; cbn [length] in Hl; try lia;
    cbn; rewrite N.mod_small by exact Hf; reflexivity.
Qed.
Lemma shifts_ok : forall t, shift_ok (host_shift t) /\ shift_ok (guest_shift t).
Proof.
  intro t. unfold host_shift, guest_shift, shift_ok. split.
  - destruct (length _) as [|[|[|[|]]]]; try (destruct (fw_hlevel t =? 0)); tauto.
  - destruct (_ =? 3)%nat; [tauto|]. destruct (fw_glevel t =? 0); tauto.
Qed.

Lemma first_hit_unique : forall e a r o o', first_hit e a r o -> first_hit e a r o' -> o = o'.
Proof.
  intros e a r [v|] [v'|] H H'; cbn in *; try reflexivity.
  - destruct H as (s & Hs & E & L). destruct H' as (s' & Hs' & E' & L').
    destruct (N.lt_trichotomy s s') as [Hlt|[->|Hlt]].
    + rewrite L in E' by assumption. discriminate.
    + congruence.
    + rewrite L' in E by assumption. discriminate.
  - destruct H as (s & Hs & E & L). rewrite H' in E by assumption. discriminate.
  - destruct H' as (s & Hs & E & L). rewrite H in E by assumption. discriminate.
Qed.

Lemma decode_then_lookup : forall st x t m a r a' r', xlate_wf x -> x_inv st ->
  Forall (fun n => ~ overlap n x) (xs_partial st) ->
  fw_ok t -> records_of x = full_records t -> m_hv m = false ->
  a < 2 ^ 64 -> r < 2 ^ 64 -> a' < 2 ^ 64 -> r' < 2 ^ 64 ->
  fst (fw_final t) < 2 ^ 64 -> hw_ra (snd (fw_final t)) < 2 ^ 64 ->
  hw_ra (snd (fw_final t)) / 2 ^ 12 * 2 ^ 12 = r ->
  let s := N.min (host_shift t) (guest_shift t) in
  a' / 2 ^ s = a / 2 ^ s -> r' / 2 ^ s = r / 2 ^ s ->
  (forall s', shift_ok s' -> s <= s' -> erat_get (xs_erat st) s' a' r' = Some None) ->
  exists st', xlate_decode st x m true a r
      = XOk (st', Some (fw_radix t, host_shift t, guest_shift t))
    /\ xlate_lookup (xs_erat st') m true a' r'
      = XOk (Some (fw_radix (fw_at t a'), host_shift t, guest_shift t)).
Proof.
  intros st x t m a r a' r' Hx [Hp He] Hno Hok Er Hm Ha Hr Ha' Hr' Hf Hra Eq s Ea Err Hbig.
  pose proof (decode_full st x t m a r Hx Hp Hno Hok Er Hm Ha Hr Hra) as HD.
  rewrite Eq, N.eqb_refl in HD. destruct HD as (p & e & ED & EI).
  exists (mk_xst p e (xs_partial st)). split; [exact ED|]. cbn [xs_erat].
  destruct (shifts_ok t) as [S1 S2].
  assert (Hlen : (length (fw_guest t) = 3 \/ length (fw_guest t) = 4)%nat) by (destruct Hok as (_ & _ & Hl & _); tauto).
  assert (Hs : shift_ok s). { unfold s. destruct (N.min_spec (host_shift t) (guest_shift t)) as [[_ ->]|[_ ->]]; assumption. }
  destruct (erat_get_after _ _ _ _ _ _ _ a' r' S1 S2 Ha Hr Ha' Hr' EI Ea Err) as [(v & Ev & V1 & V2 & V3) Hoth].
  assert (Hg : erat_good e).
  { destruct (erat_insert_ok (xs_erat st) (host_shift t) a r (fw_radix t) (guest_shift t) S1 S2 Ha Hr) as (e0 & E0 & G0).
    rewrite EI in E0. injection E0 as <-. apply G0; [exact He| |].
    - unfold fw_radix. cbn [rx_walks]. rewrite app_length, map_length. cbn [length]. lia.
    - unfold fw_radix, fill. cbn [rx_guest_real]. rewrite firstn_length, !app_length, map_length, repeat_length. cbn [length]. lia. }
  destruct (lookup_ok e m true a' r' Hg Ha' Hr' Hm) as (o & Ho & ->).
  assert (Eo : o = Some v).
  { eapply first_hit_unique; [exact Ho|]. exists s. split; [exact Hs|]. split; [exact Ev|].
    intros s' Hs' Hlt. rewrite Hoth by (assumption || lia). apply Hbig; [exact Hs'|lia]. }
  subst o. cbv zeta. rewrite V1, V2, (V3 (Hbig s Hs ltac:(lia))).
  do 4 f_equal. now apply guest_real_at.
Qed.

(** ** The shape of the decoder's answer, from any state *)
Lemma parse_bounds : forall x addr s, xlate_wf x -> (ps_i s <= x_nwalks x)%nat ->
  (exists s' r, decode_nested_radix x addr s = XOk (s', r) /\ (ps_i s <= ps_i s' <= x_nwalks x)%nat)
  /\ (exists s' r, decode_guest_real x addr s = XOk (s', r) /\ (ps_i s <= ps_i s' <= x_nwalks x)%nat).
Proof.
  intros x addr s Hx Hs. split.
  - destruct (safe_nested_radix x Hx addr s Hs) as (s' & r & E & H & _). now exists s', r.
  - destruct (safe_guest_real x Hx addr s Hs) as (s' & r & E & H & _). now exists s', r.
Qed.

