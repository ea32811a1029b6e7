(** Decoding one walk by the partition's tables, part of it left out. *)
Require Import NArith ZArith List Bool Lia.
Require Import ZifyBool ZifyN ZifyNat.
Require Import Verif.Word Verif.Codec_Types Verif.Pwc_Model Verif.Pwc_Spec Verif.Pwc_Proofs.
Require Import Verif.Xlate_Model Verif.Xlate_Spec Verif.Xlate_Proofs Verif.Xlate_Full Verif.Resume_Spec Verif.Resume_Proofs.
Import ListNotations.
Local Open Scope N_scope.

Section STEPS.
  Variable T : tables.
  Hypothesis HT : tables_ok T.
  Variable x : xlate.
  Hypothesis Hx : xlate_wf x.

  Definition step_of (t : N) (y : xaddr) : N := if t =? XLATE_PTE then tb_kind T y else t.
  Lemma kind_cases : forall y, tb_kind T y = XLATE_4K_PTE \/ tb_kind T y = XLATE_64K_PTE.
  Proof. destruct HT as (_ & _ & _ & H & _). exact H. Qed.
  Lemma step_level : forall t y, type_ok t -> level_ok (step_of t y).
  Proof.
    intros t y Ht. unfold step_of, level_ok.
    destruct Ht as [->|[->|[->| ->]]]; cbn [N.eqb XLATE_PTE]; try tauto.
    replace (XLATE_PTE =? XLATE_PTE) with true by reflexivity.
    destruct (kind_cases y) as [->| ->]; tauto.
  Qed.
  Lemma step_kind : forall t y, type_ok t -> step_of t y = XLATE_4K_PTE \/ step_of t y = XLATE_64K_PTE ->
    step_of t y = tb_kind T y.
  Proof.
    intros t y Ht. unfold step_of. destruct Ht as [->|[->|[->| ->]]]; try reflexivity.
    all: cbn; intros [H|H]; discriminate.
  Qed.
  Definition good (s s' : pst) : Prop := faithful T (ps_pwc s') /\ le (ps_pwc s) (ps_pwc s').
  Lemma good_refl : forall s, faithful T (ps_pwc s) -> good s s.
  Proof. intros s H. split; [exact H|apply le_refl]. Qed.
  Lemma good_trans : forall a b c, good a b -> good b c -> good a c.
  Proof. intros a b c [_ L] [F L']. split; [exact F|]. exact (le_trans _ _ _ L L'). Qed.

  Definition pte_at (t : N) (y : xaddr) : pte :=
    mk_pte (entry_at T (step_of t y) y) (pagesize_of (step_of t y)) (leaf_of T (step_of t y) y).

  Lemma out_known : forall l y s, level_ok l -> faithful T (ps_pwc s) -> known (ps_pwc s) l y ->
    pte_out l y s = XOk (s, Some (mk_pte (entry_at T l y) (pagesize_of l) (leaf_of T l y))).
  Proof.
    intros l y s Hl F K. unfold pte_out, c_get, bind. rewrite (known_get T _ l y Hl F K).
    destruct (leaf_of T l y); reflexivity.
  Qed.
  Lemma insert_step : forall t y s, type_ok t -> faithful T (ps_pwc s) ->
    exists s', c_insert (step_of t y) y (entry_at T (step_of t y) y) (leaf_of T (step_of t y) y) s = XOk (s', Some tt)
      /\ ps_i s' = ps_i s /\ good s s' /\ sure (ps_pwc s') (step_of t y) y.
  Proof.
    intros t y s Ht F. unfold c_insert.
    destruct (insert_faithful T HT (ps_pwc s) (step_of t y) y (step_level t y Ht) (step_kind t y Ht) F)
      as (p' & -> & F' & L & K).
    eexists. split; [reflexivity|]. split; [reflexivity|]. split; [split; assumption|exact K].
  Qed.
  Lemma sure_known : forall p l y, sure p l y -> known p l y.
  Proof. intros p l y H. apply H, same_entry_refl. Qed.
  Lemma at_index : forall s s' ws, ps_i s' = ps_i s -> at_ x s ws -> at_ x s' ws.
  Proof. intros s s' ws E [A B]. split; rewrite E; assumption. Qed.

  Lemma partition_present : forall t y s w ws, type_ok t -> faithful T (ps_pwc s) ->
    at_ x s (mk_walk false false false true (htm_level t) (entry_at T (step_of t y) y) :: w :: ws) ->
    wk_guest w || wk_final w = leaf_of T (step_of t y) y ->
    (t = XLATE_PTE -> sub_of NESTED_RA_ADDR (w :: ws) = Some (tb_kind T y)) ->
    exists s', decode_partition_pte x t y s = XOk (s', Some (pte_at t y))
      /\ at_ x s' (w :: ws) /\ good s s' /\ sure (ps_pwc s') (step_of t y) y.
  Proof.
    intros t y s w ws Ht F H Hw Hs. unfold decode_partition_pte.
    destruct (take_hit x Hx s _ _ (N.lor PARTITION_PTE (X_LEVEL (htm_level t))) H) as (s1 & E1 & H1).
    { rewrite check_part by now apply htm_level_in. cbn. apply N.eqb_refl. }
    assert (F1 : ps_pwc s1 = ps_pwc s).
    { unfold take in E1. rewrite (peek_at x Hx s _ _ _ H) in E1.
      destruct (check_walk _ _); injection E1 as <-; reflexivity. }
    rewrite (bind_ok _ _ _ _ _ _ _ E1). cbn [wk_ra].
    assert (Hl : wk_guest w || wk_final w = true -> htm_level t < 6).
    { rewrite Hw. destruct Ht as [->|[->|[->| ->]]]; cbn; try reflexivity; discriminate. }
    rewrite (bind_ok _ _ _ _ _ _ _ (partition_is_leaf_at x Hx _ s1 w ws H1 Hl)), Hw.
    assert (Es : partition_subtype x t s1 = XOk (s1, Some (step_of t y))).
    { unfold partition_subtype, step_of. destruct (t =? XLATE_PTE) eqn:Et; [|reflexivity].
      apply N.eqb_eq in Et. rewrite (pte_subtype_at x Hx _ s1 _ H1). now rewrite (Hs Et). }
    rewrite (bind_ok _ _ _ _ _ _ _ Es).
    rewrite <- F1 in F.
    destruct (insert_step t y s1 Ht F) as (s2 & E2 & Ei & G2 & K2).
    rewrite (bind_ok _ _ _ _ _ _ _ E2).
    rewrite (out_known _ y s2 (step_level t y Ht) (proj1 G2) (sure_known _ _ _ K2)).
    exists s2. split; [reflexivity|]. split; [exact (at_index _ _ _ Ei H1)|]. split; [|exact K2].
    destruct G2 as [G2 L2]. split; [exact G2|]. now rewrite <- F1.
  Qed.
  Lemma cached_kind : forall t y s, type_ok t -> faithful T (ps_pwc s) -> known (ps_pwc s) (step_of t y) y ->
    partition_cached x (subtypes t) (htm_level t) y s = XOk (s, Some (step_of t y))
    /\ process_cached x (subtypes t) (htm_level t) y s = XOk (s, Some (Some (step_of t y))).
  Proof.
    intros t y s Ht F K. pose proof (known_get T _ _ y (step_level t y Ht) F K) as E.
    assert (HF : forall b : bool, has (if b then 1 else 2) (N.lor PWC_LEAF PWC_NOT_LEAF) = true) by (intros []; reflexivity).
    unfold step_of in *. unfold subtypes. destruct (t =? XLATE_PTE).
    - assert (K4 : tb_kind T y <> XLATE_4K_PTE -> c_get XLATE_4K_PTE y s = XOk (s, Some None)).
      { intro Hn. unfold c_get. destruct (pwc_get (ps_pwc s) XLATE_4K_PTE y) as [[[r f]|]|] eqn:Eg.
        - exfalso. apply (known_kind T (ps_pwc s) XLATE_4K_PTE y r f); [tauto|exact F|congruence|exact Eg].
        - reflexivity.
        - exfalso. unfold pwc_get, dir_get in Eg. cbn in Eg.
          destruct (find_key _ _ _) in Eg; discriminate Eg. }
      destruct (kind_cases y) as [Ek|Ek]; rewrite Ek in *.
      + assert (G : c_get XLATE_4K_PTE y s = XOk (s, Some (Some (entry_at T XLATE_4K_PTE y, if leaf_of T XLATE_4K_PTE y then 1 else 2))))
          by (unfold c_get; now rewrite E).
        cbn [partition_cached process_cached]. rewrite !(bind_ok _ _ _ _ _ _ _ G), HF. split; reflexivity.
      + assert (G : c_get XLATE_64K_PTE y s = XOk (s, Some (Some (entry_at T XLATE_64K_PTE y, if leaf_of T XLATE_64K_PTE y then 1 else 2))))
          by (unfold c_get; now rewrite E).
        cbn [partition_cached process_cached].
        rewrite !(bind_ok _ _ _ _ _ _ _ (K4 ltac:(discriminate))), !(bind_ok _ _ _ _ _ _ _ G), HF. split; reflexivity.
    - assert (G : c_get t y s = XOk (s, Some (Some (entry_at T t y, if leaf_of T t y then 1 else 2))))
        by (unfold c_get; now rewrite E).
      cbn [partition_cached process_cached]. rewrite !(bind_ok _ _ _ _ _ _ _ G), HF. split; reflexivity.
  Qed.
  Lemma partition_absent : forall t y s w ws, type_ok t -> faithful T (ps_pwc s) ->
    at_ x s (w :: ws) ->
    wk_host w && negb (wk_guest w) && negb (wk_final w) && (htm_level t =? wk_level w) = false ->
    sure (ps_pwc s) (step_of t y) y ->
    exists s', decode_partition_pte x t y s = XOk (s', Some (pte_at t y))
      /\ at_ x s' (w :: ws) /\ good s s' /\ sure (ps_pwc s') (step_of t y) y.
  Proof.
    intros t y s w ws Ht F H Hw K. exists s. split; [|split; [exact H|split; [now apply good_refl|exact K]]].
    unfold decode_partition_pte.
    assert (E1 : take x (N.lor PARTITION_PTE (X_LEVEL (htm_level t))) s = XOk (s, Some None)).
    { eapply take_miss; [exact Hx|exact H|]. rewrite check_part by now apply htm_level_in. exact Hw. }
    rewrite (bind_ok _ _ _ _ _ _ _ E1).
    destruct (cached_kind t y s Ht F (sure_known _ _ _ K)) as [E2 _].
    rewrite (bind_ok _ _ _ _ _ _ _ E2).
    now apply out_known; [apply step_level|..|apply sure_known].
  Qed.

  Lemma process_absent : forall t y s w ws, type_ok t -> faithful T (ps_pwc s) ->
    at_ x s (w :: ws) ->
    negb (wk_host w) && wk_guest w && negb (wk_final w) && (htm_level t =? wk_level w) = false ->
    sure (ps_pwc s) (step_of t y) y ->
    exists s', decode_process_pte x t y s = XOk (s', Some (pte_at t y))
      /\ at_ x s' (w :: ws) /\ good s s' /\ sure (ps_pwc s') (step_of t y) y.
  Proof.
    intros t y s w ws Ht F H Hw K. exists s. split; [|split; [exact H|split; [now apply good_refl|exact K]]].
    unfold decode_process_pte.
    assert (E1 : take x (N.lor PROCESS_PTE (X_LEVEL (htm_level t))) s = XOk (s, Some None)).
    { eapply take_miss; [exact Hx|exact H|]. rewrite check_process by now apply htm_level_in. exact Hw. }
    rewrite (bind_ok _ _ _ _ _ _ _ E1).
    destruct (cached_kind t y s Ht F (sure_known _ _ _ K)) as [_ E2].
    rewrite (bind_ok _ _ _ _ _ _ _ E2).
    now apply out_known; [apply step_level|..|apply sure_known].
  Qed.
  Lemma process_present : forall t y s ws, type_ok t -> faithful T (ps_pwc s) ->
    at_ x s (mk_walk false false true false (htm_level t) (entry_at T (step_of t y) y) :: ws) ->
    pleaf levels (htm_level t) ws = Some (leaf_of T (step_of t y) y) ->
    (t = XLATE_PTE -> sub_of PROCESS_RA_ADDR ws = Some (tb_kind T y)) ->
    exists s', decode_process_pte x t y s = XOk (s', Some (pte_at t y))
      /\ at_ x s' ws /\ good s s' /\ sure (ps_pwc s') (step_of t y) y.
  Proof.
    intros t y s ws Ht F H Hw Hs. unfold decode_process_pte.
    destruct (take_hit x Hx s _ _ (N.lor PROCESS_PTE (X_LEVEL (htm_level t))) H) as (s1 & E1 & H1).
    { rewrite check_process by now apply htm_level_in. cbn. apply N.eqb_refl. }
    assert (F1 : ps_pwc s1 = ps_pwc s).
    { unfold take in E1. rewrite (peek_at x Hx s _ _ _ H) in E1.
      destruct (check_walk _ _); injection E1 as <-; reflexivity. }
    rewrite (bind_ok _ _ _ _ _ _ _ E1). cbn [wk_ra].
    assert (El : process_is_leaf x (htm_level t) s1 = XOk (s1, Some (leaf_of T (step_of t y) y))).
    { rewrite (process_is_leaf_at x Hx _ s1 ws H1). now rewrite Hw. }
    rewrite (bind_ok _ _ _ _ _ _ _ El).
    assert (Es : process_subtype x t s1 = XOk (s1, Some (step_of t y))).
    { unfold process_subtype, step_of. destruct (t =? XLATE_PTE) eqn:Et; [|reflexivity].
      apply N.eqb_eq in Et. rewrite (pte_subtype_at x Hx _ s1 _ H1). now rewrite (Hs Et). }
    rewrite (bind_ok _ _ _ _ _ _ _ Es).
    rewrite <- F1 in F.
    destruct (insert_step t y s1 Ht F) as (s2 & E2 & Ei & G2 & K2).
    rewrite (bind_ok _ _ _ _ _ _ _ E2).
    rewrite (out_known _ y s2 (step_level t y Ht) (proj1 G2) (sure_known _ _ _ K2)).
    exists s2. split; [reflexivity|]. split; [exact (at_index _ _ _ Ei H1)|]. split; [|exact K2].
    destruct G2 as [G2 L2]. split; [exact G2|]. now rewrite <- F1.
  Qed.

  (** The real address at the end. *)
  Lemma final_present : forall flag y sz s w ws (l : list N), shift_ok sz -> faithful T (ps_pwc s) ->
    at_ x s (w :: ws) -> check_walk w flag = true ->
    wk_ra w < 2 ^ 52 -> wk_ra w / 2 ^ sz = tb_page T sz y ->
    exists s', (ra <- partition_real_addr x flag y sz ;;
            _ <- c_rev_insert sz (mk_xaddr 0 (xa_lpid y) 0 ra) (xa_address y) ;;
            ret (ra, l, sz)) s = XOk (s', Some (wk_ra w, l, sz))
      /\ at_ x s' ws /\ good s s' /\ sure_page (ps_pwc s') sz y.
  Proof.
    intros flag y sz s w ws l Hz F H Hc Hb Hp.
    destruct (take_hit x Hx s w ws flag H Hc) as (s1 & E1 & H1).
    assert (F1 : ps_pwc s1 = ps_pwc s).
    { unfold take in E1. rewrite (peek_at x Hx s _ _ _ H), Hc in E1. injection E1 as <-; reflexivity. }
    rewrite <- F1 in F.
    destruct (tlb_faithful T HT (ps_pwc s1) sz y (wk_ra w) Hz Hb Hp F) as (p2 & E2 & F2 & L2 & K2 & _).
    destruct (rev_faithful T p2 sz (mk_xaddr 0 (xa_lpid y) 0 (wk_ra w)) (xa_address y) Hz F2) as (p3 & E3 & F3 & L3).
    exists (mk_pst p3 (ps_i s1)). split.
    - unfold partition_real_addr, bind, c_tlb_insert, c_rev_insert, ret. rewrite E1, E2. cbn [ps_pwc ps_i]. now rewrite E3.
    - split; [exact (at_index _ _ _ eq_refl H1)|]. split.
      + split; [exact F3|]. cbn [ps_pwc]. rewrite <- F1. exact (le_trans _ _ _ L2 L3).
      + cbn [ps_pwc]. exact (sure_page_le _ _ _ _ Hz L3 K2).
  Qed.
  Lemma final_absent : forall flag y sz s w ws (l : list N), shift_ok sz -> faithful T (ps_pwc s) ->
    at_ x s (w :: ws) -> check_walk w flag = false -> sure_page (ps_pwc s) sz y ->
    let ra := tb_page T sz y * 2 ^ sz + xa_address y mod 2 ^ sz in
    exists s', (ra <- partition_real_addr x flag y sz ;;
            _ <- c_rev_insert sz (mk_xaddr 0 (xa_lpid y) 0 ra) (xa_address y) ;;
            ret (ra, l, sz)) s = XOk (s', Some (ra, l, sz))
      /\ at_ x s' (w :: ws) /\ good s s' /\ sure_page (ps_pwc s') sz y.
  Proof.
    intros flag y sz s w ws l Hz F H Hc K ra.
    pose proof (take_miss x Hx s w ws flag H Hc) as E1.
    assert (E2 : pwc_tlb_get (ps_pwc s) sz y = Some (Some ra)).
    { apply (known_page_get T _ sz y Hz F). apply K, same_page_refl. }
    destruct (rev_faithful T (ps_pwc s) sz (mk_xaddr 0 (xa_lpid y) 0 ra) (xa_address y) Hz F) as (p3 & E3 & F3 & L3).
    exists (mk_pst p3 (ps_i s)). split.
    - unfold partition_real_addr, bind, c_tlb_get, c_rev_insert, ret. rewrite E1, E2. now rewrite E3.
    - split; [exact (at_index _ _ _ eq_refl H)|]. split; [split; assumption|].
      cbn [ps_pwc]. exact (sure_page_le _ _ _ _ Hz L3 K).
  Qed.
End STEPS.
