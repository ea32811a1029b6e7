(** Properties C24, C25 and C26: translation caches of the HTM decoder. *)
Require Import NArith ZArith List Bool.
Require Import Verif.Word Verif.Codec_Types Verif.Pwc_Model Verif.Pwc_Spec Verif.Pwc_Proofs.
Import ListNotations.
Local Open Scope N_scope.

(** Every lookup of every history of ERAT calls: the walk and guest shift of
    the newest insertion of the same page pair, the host shift of the oldest,
    absent if there is none. *)
Theorem C24_erat : forall h, Forall eop_ok h ->
  exists e, e_run erat_init h = Some (e, e_answers [] h).
Proof. exact erat_faithful. Qed.
Print Assumptions C24_erat.

Theorem C24_other_shifts_abort : forall e s a r, ~ shift_ok s ->
  erat_get e s a r = None /\
  forall host guest rec, N.min host guest = s -> erat_insert e host a r rec guest = None.
Proof.
  exact (fun e s a r H => conj (erat_bad_shift e s a r H)
           (fun host guest rec E =>
              erat_bad_insert e host a r rec guest (eq_ind_r (fun x => ~ shift_ok x) H E))).
Qed.
Print Assumptions C24_other_shifts_abort.

Definition wk (n : N) : radix := mk_radix n 0 0 [] [] [].
Definition e_hist : list eop :=
  [EGet 12 0x1234 0x5678; EIns 16 0x1abc 0x5def (wk 1) 12; EGet 12 0x1234 0x5678;
   EGet 12 0x1234 0x6678; EGet 16 0x1234 0x5678; EIns 30 0x1fff 0x5000 (wk 2) 12;
   EGet 12 0x1234 0x5678; EIns 21 0x1fff 0x5000 (wk 3) 16; EGet 16 0 0x0; EGet 12 0x1000 0x5678].
Example C24_ex : Forall eop_ok e_hist /\ e_answers [] e_hist =
  [None; Some (mk_ev (wk 1) 16 12); None; None;
   Some (mk_ev (wk 2) 16 12)     (* host shift 30 expected: stale *);
   Some (mk_ev (wk 3) 21 16); Some (mk_ev (wk 2) 16 12)].
Proof.
  split; [|vm_compute; reflexivity].
  unfold e_hist. repeat apply Forall_cons; try apply Forall_nil; cbn; unfold shift_ok; vm_compute; auto 10.
Qed.

(** The re-insertion of an ERAT entry with another host page size keeps the
    old size: the map is not faithful there. *)
Theorem C24_host_shift_stale_refuted :
  exists e, e_run erat_init [EIns 16 0x1000 0x5000 (wk 1) 12; EIns 30 0x1000 0x5000 (wk 2) 12;
                             EGet 12 0x1000 0x5000]
            = Some (e, [Some (mk_ev (wk 2) 16 12)]).
Proof. exact (ex_intro _ _ eq_refl). Qed.
Print Assumptions C24_host_shift_stale_refuted.

(** Page walk cache. *)
Theorem C25_page_walk_cache : forall h, Forall pop_ok h ->
  exists p, p_run pwc_init h = Some (p, p_answers [] h) /\
    forall l a, level_ok l -> pwc_get p l a = Some (dir_answer h l a).
Proof. exact pwc_dirs. Qed.
Print Assumptions C25_page_walk_cache.

Theorem C25_levels_independent : forall h o l a,
  match o with PIns l' _ _ _ => l' <> l | _ => True end ->
  dir_answer (h ++ [o]) l a = dir_answer h l a.
Proof. exact level_independent. Qed.
Print Assumptions C25_levels_independent.

Theorem C25_top_bits_ignored : forall h l a hi, level_ok l ->
  dir_answer h l (mk_xaddr (xa_msr a) (xa_lpid a) (xa_pid a) (xa_address a + hi * 2 ^ 52))
  = dir_answer h l a.
Proof. exact top_bits. Qed.
Print Assumptions C25_top_bits_ignored.

Theorem C25_other_levels_abort : forall p l a r leaf, (~ level_ok l ->
    p_step p (PIns l a r leaf) = None /\ p_step p (PGet l a) = None) /\
  (~ shift_ok l ->
    p_step p (TIns l a r) = None /\ p_step p (TGet l a) = None /\
    p_step p (RIns l a r) = None /\ p_step p (RGet l a) = None).
Proof. exact pwc_bad. Qed.
Print Assumptions C25_other_levels_abort.

Definition xa (ad : N) : xaddr := mk_xaddr 0 1 7 ad.
Definition p_hist : list pop :=
  [PGet XLATE_PMD (xa 0x40200000); PIns XLATE_PMD (xa 0x40200000) 0x9008 false;
   PGet XLATE_PMD (xa 0x40234567); PGet XLATE_PMD (xa 0x40612345);
   PGet XLATE_PUD (xa 0x40200000); PGet XLATE_PMD (mk_xaddr 2 1 7 0x40200000);
   PIns XLATE_PMD (xa 0x40600000) 0xa018 true; PGet XLATE_PMD (xa 0x40200000);
   PGet XLATE_PMD (xa 0x40600000); PGet XLATE_PMD (xa 0xc000000040600000);
   TIns 16 (xa 0x12345678) 0xabcdef01; TGet 16 (xa 0x12340009); TGet 12 (xa 0x12345678);
   RGet 16 (xa 0x12340009); RIns 21 (xa 0x600000) 0x7fffffff; RGet 21 (xa 0x612345)].
Example C25_ex : Forall pop_ok p_hist /\ p_answers [] p_hist =
  [OutDir None; OutDir (Some (0x9008, 2)); OutDir (Some (0x9018, 0)); OutDir None; OutDir None;
   OutDir (Some (0xa008, 2)); OutDir (Some (0xa018, 1)); OutDir (Some (0xa018, 1));
   OutPage (Some 0xabcd0009); OutPage None; OutPage None; OutPage (Some 0x7fe12345)].
Proof.
  split; [|vm_compute; reflexivity].
  unfold p_hist. repeat apply Forall_cons; try apply Forall_nil; cbn;
    unfold level_ok, shift_ok; vm_compute; auto 10.
Qed.

(** Translation cache and reverse cache. *)
Theorem C26_translation_and_reverse_cache : forall h, Forall pop_ok h ->
  exists p, p_run pwc_init h = Some (p, p_answers [] h) /\
    (forall l a, shift_ok l -> pwc_tlb_get p l a = Some (page_answer false h l a)) /\
    (forall l a, shift_ok l -> pwc_reverse_get p l a = Some (page_answer true h l a)).
Proof. exact pwc_pages. Qed.
Print Assumptions C26_translation_and_reverse_cache.
Example C26_ex : page_answer false p_hist 16 (xa 0x12340009) = Some 0xabcd0009 /\
  page_answer true p_hist 21 (xa 0x600001) = Some 0x7fe00001 /\
  page_answer true p_hist 16 (xa 0x12340009) = None.
Proof. vm_compute. auto. Qed.
