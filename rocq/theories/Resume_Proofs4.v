(** Decoding a whole walk, part of it left out. *)
Require Import NArith ZArith List Bool Lia.
Require Import ZifyBool ZifyN ZifyNat.
Require Import Verif.Word Verif.Codec_Types Verif.Pwc_Model Verif.Pwc_Spec Verif.Pwc_Proofs.
Require Import Verif.Xlate_Model Verif.Xlate_Spec Verif.Xlate_Proofs Verif.Xlate_Full Verif.Resume_Spec.
Require Import Verif.Resume_Proofs Verif.Resume_Proofs2 Verif.Resume_Proofs3.
Import ListNotations.
Local Open Scope N_scope.

Definition starts (L : N) (ws : list walk) : Prop :=
  exists w ws', ws = w :: ws' /\ wk_guest w = true /\ wk_host w = false /\ wk_level w <> 7
                /\ (wk_final w = true \/ wk_level w < L).

Lemma skipn_host_guest : forall k ptes w, In w (skipn k (host_pte_records ptes)) -> wk_guest w = false /\ wk_final w = false.
Proof.
  intros k ptes w H. assert (H' : In w (host_pte_records ptes)).
  { rewrite <- (firstn_skipn k (host_pte_records ptes)). apply in_or_app. now right. }
  unfold host_pte_records in H'. apply in_map_iff in H' as (lp & <- & _). now split.
Qed.
Lemma existsb_none : forall (f : walk -> bool) l, (forall w, In w l -> f w = false) -> existsb f l = false.
Proof.
  intros f l H. induction l as [|w l IH]; [reflexivity|]. cbn. rewrite (H w) by now left.
  apply IH. intros v Hv. apply H. now right.
Qed.
Lemma existsb_cut : forall f c lv h rest, demands_guest f ->
  f (mk_walk false false true true lv (hw_ra h)) = false ->
  existsb f (cut_host c lv h ++ rest) = existsb f rest.
Proof.
  intros f c lv h rest Hf Hn. unfold cut_host. rewrite !existsb_app.
  rewrite (existsb_none f (skipn _ _)).
  2: { intros w Hw. apply Hf. exact (proj1 (skipn_host_guest _ _ _ Hw)). }
  destruct (snd c); cbn [existsb orb]; [now rewrite Hn|reflexivity].
Qed.
Lemma pleaf_cut : forall c lv h rest, In lv [0; 2; 4; 6] ->
  pleaf levels lv (cut_host c lv h ++ rest) = pleaf levels lv rest.
Proof.
  intros c lv h rest Hl. rewrite !pleaf_levels by exact Hl.
  destruct Hl as [<-|[<-|[<-|[<-|[]]]]]; cbn [N.eqb Pos.eqb];
    rewrite ?(existsb_cut (f_leaf 0)), ?(existsb_cut (f_leaf 2)), ?(existsb_cut (f_leaf 4))
      by first [reflexivity|apply dg_leaf]; reflexivity.
Qed.
Lemma sub_process_cut : forall c lv h rest,
  sub_of PROCESS_RA_ADDR (cut_host c lv h ++ rest) = sub_of PROCESS_RA_ADDR rest.
Proof.
  intros c lv h rest. rewrite !sub_process. rewrite !existsb_cut by first [reflexivity|apply dg_pra]. reflexivity.
Qed.
Lemma sub_nested_tail : forall (c : nat * bool) lv h rest,
  sub_of NESTED_RA_ADDR ((if snd c then [mk_walk false false true true lv (hw_ra h)] else []) ++ rest)
  = sub_of NESTED_RA_ADDR rest.
Proof.
  intros c lv h rest. rewrite !sub_nested. destruct (snd c); reflexivity.
Qed.
(** Records before the last two do not matter for the kind of page. *)
Lemma sub_tail : forall pre fin, Forall (fun w => wk_final w = false) pre ->
  sub_of NESTED_RA_ADDR (pre ++ fin) = sub_of NESTED_RA_ADDR fin
  /\ sub_of PROCESS_RA_ADDR (pre ++ fin) = sub_of PROCESS_RA_ADDR fin.
Proof.
  intros pre fin H.
  assert (E : forall f, (forall w, wk_final w = false -> f w = false) -> existsb f (pre ++ fin) = existsb f fin).
  { intros f Hf. rewrite existsb_app, existsb_none; [reflexivity|]. intros w Hw. rewrite Forall_forall in H. auto. }
  rewrite !sub_nested, !sub_process.
  rewrite !E; [split; reflexivity|..]; intros w Hw; unfold f_nra, f_pra; rewrite Hw, ?andb_false_r; reflexivity.
Qed.
Lemma cut_host_nonfinal : forall c lv h, Forall (fun w => wk_final w = false) (cut_host c lv h).
Proof.
  intros c lv h. unfold cut_host. apply Forall_app. split.
  - apply Forall_forall. intros w Hw. exact (proj2 (skipn_host_guest _ _ _ Hw)).
  - destruct (snd c); repeat constructor.
Qed.
Lemma cut_guest_nonfinal : forall lc, Forall (fun w => wk_final w = false) (cut_guest lc).
Proof.
  intros [[lv [g h]] [c|]]; cbn [cut_guest]; [|constructor]. constructor; [reflexivity|apply cut_host_nonfinal].
Qed.
Lemma starts_guest : forall L lv gh o rest, lv < L -> lv <> 7 -> starts L rest -> starts L (cut_guest (lv, gh, o) ++ rest).
Proof.
  intros L lv [g h] [c|] rest Hl H7 H; [|exact H]. cbn [cut_guest app].
  eexists. eexists. split; [reflexivity|]. cbn. repeat split; [exact H7|now right].
Qed.

Section LEVEL.
  Variable T : tables.
  Hypothesis HT : tables_ok T.
  Variable x : xlate.
  Hypothesis Hx : xlate_wf x.
  Variable q : request.

  Lemma steps_length : forall y, length (steps T y) = depth T y.
  Proof.
    intro y. unfold steps, depth. destruct (tb_leaf T XLATE_PUD y); [reflexivity|].
    destruct (tb_leaf T XLATE_PMD y); reflexivity.
  Qed.
  Lemma records_length_host : forall y, skipn (depth T y) (host_pte_records (hw_ptes (host_at T y))) = [].
  Proof.
    intro y. apply skipn_all2. unfold host_pte_records. rewrite map_length, combine_length. unfold host_at. cbn [hw_ptes].
    rewrite map_length, steps_length. lia.
  Qed.
  Lemma real_at_page : forall y, real_at T y < 2 ^ 52 /\ real_at T y / 2 ^ shift_at T y = tb_page T (shift_at T y) y.
  Proof.
    intro y. destruct HT as (_ & _ & _ & _ & _ & _ & HB).
    pose proof (HB (shift_at T y) y (shift_at_ok T HT y)) as H. unfold real_at.
    assert (Hn : 2 ^ shift_at T y <> 0) by (apply N.pow_nonzero; lia).
    pose proof (N.mod_lt (xa_address y) (2 ^ shift_at T y) Hn) as Hm. split.
    - eapply N.lt_le_trans; [|exact H]. lia.
    - rewrite N.div_add_l by exact Hn. rewrite (N.div_small (_ mod _)) by exact Hm. lia.
  Qed.

  (** What may be assumed of the caches for something left out. *)
  Definition part_ok (p : pwc) (y : xaddr) (c : nat * bool) : Prop :=
    (fst c <= depth T y)%nat /\ sure_steps T p y (fst c)
    /\ (snd c = false -> fst c = depth T y /\ sure_page p (shift_at T y) y).
  Definition host_sure (p : pwc) (y : xaddr) : Prop :=
    sure_steps T p y (depth T y) /\ sure_page p (shift_at T y) y.
  Definition level_part_ok (p : pwc) (l : N) (o : option (nat * bool)) : Prop :=
    match o with
    | None => sure p l (rq_guest q) /\ part_ok p (rq_nest T q l) (depth T (rq_nest T q l), false)
    | Some c => part_ok p (rq_nest T q l) c
    end.
  Lemma sure_steps_le : forall p p' y n, le p p' -> sure_steps T p y n -> sure_steps T p' y n.
  Proof.
    intros p p' y n L H l Hl. apply (sure_le p); [|exact L|now apply H].
    apply (steps_level T HT y). rewrite <- (firstn_skipn n). apply in_or_app. now left.
  Qed.
  Lemma part_le : forall p p' y c, le p p' -> part_ok p y c -> part_ok p' y c.
  Proof.
    intros p p' y c L (A & B & C). split; [exact A|]. split; [exact (sure_steps_le _ _ _ _ L B)|].
    intro E. destruct (C E) as [C1 C2]. split; [exact C1|]. exact (sure_page_le _ _ _ _ (shift_at_ok T HT y) L C2).
  Qed.
  Lemma host_sure_le : forall p p' y, le p p' -> host_sure p y -> host_sure p' y.
  Proof.
    intros p p' y L [A B]. split; [exact (sure_steps_le _ _ _ _ L A)|]. exact (sure_page_le _ _ _ _ (shift_at_ok T HT y) L B).
  Qed.
  Lemma level_part_le : forall p p' l o, level_ok l -> le p p' -> level_part_ok p l o -> level_part_ok p' l o.
  Proof.
    intros p p' l [c|] Hl L H; [exact (part_le _ _ _ _ L H)|]. destruct H as [A B].
    split; [exact (sure_le _ _ _ _ Hl L A)|exact (part_le _ _ _ _ L B)].
  Qed.

  (** A nested walk followed by something of the guest. *)
  Lemma nested_cut : forall lv y c rest s, In lv [0; 2; 4; 6; 7] -> faithful T (ps_pwc s) -> part_ok (ps_pwc s) y c ->
    at_ x s (cut_host c lv (host_at T y) ++ rest) -> starts lv rest ->
    (depth T y = 4%nat -> sub_of NESTED_RA_ADDR rest = Some (tb_kind T y)) ->
    exists s', nested x (N.lor NESTED_PTE (X_LEVEL lv)) y s
        = XOk (s', Some (real_at T y, hw_ptes (host_at T y), shift_at T y))
      /\ at_ x s' rest /\ good T s s' /\ host_sure (ps_pwc s') y.
  Proof.
    intros lv y c rest s Hlv F (P1 & P2 & P3) H (w & ws' & Ew & Wg & Wh & W7 & Wf) Hs.
    unfold cut_host in H. rewrite <- app_assoc in H.
    assert (He : ending T (N.lor NESTED_PTE (X_LEVEL lv)) y (ps_pwc s) (real_at T y)
             ((if snd c then [mk_walk false false true true lv (hw_ra (host_at T y))] else []) ++ rest) rest).
    { destruct (snd c) eqn:Ec.
      - cbn [app]. eexists. eexists. split; [reflexivity|]. split; [reflexivity|]. left. split; [reflexivity|].
        split; [rewrite check_nested by exact Hlv; cbn; apply N.eqb_refl|]. split; [reflexivity|]. apply real_at_page.
      - cbn [app]. exists w, ws'. split; [exact Ew|]. split; [exact Wg|]. right. split; [reflexivity|].
        split; [rewrite check_nested by exact Hlv; now rewrite Wh|]. split; [reflexivity|]. now apply P3. }
    destruct (translate_cut T HT x Hx _ y s (fst c) _ _ _ F H P1 P2 He) as (s' & E & H' & G & K1 & K2).
    - intro H4. rewrite sub_nested_tail. now apply Hs.
    - exists s'. split; [exact E|]. split; [exact H'|]. split; [exact G|split; assumption].
  Qed.

  Lemma level_cut : forall ty o rest s, type_ok ty ->
    let l := step_of T ty (rq_guest q) in
    let y := rq_nest T q l in
    let lv := htm_level ty in
    faithful T (ps_pwc s) -> level_part_ok (ps_pwc s) l o ->
    at_ x s (cut_guest (lv, (entry_at T l (rq_guest q), host_at T y), o) ++ rest) ->
    starts lv rest ->
    (o <> None -> pleaf levels lv rest = Some (leaf_of T l (rq_guest q))) ->
    (o <> None -> ty = XLATE_PTE -> sub_of PROCESS_RA_ADDR rest = Some (tb_kind T (rq_guest q))) ->
    (depth T y = 4%nat -> sub_of NESTED_RA_ADDR rest = Some (tb_kind T y)) ->
    exists s1 s2, decode_process_pte x ty (rq_guest q) s = XOk (s1, Some (pte_at T ty (rq_guest q)))
      /\ nested x (N.lor NESTED_PTE (X_LEVEL lv)) y s1
         = XOk (s2, Some (real_at T y, hw_ptes (host_at T y), shift_at T y))
      /\ at_ x s2 rest /\ good T s s2 /\ sure (ps_pwc s2) l (rq_guest q) /\ host_sure (ps_pwc s2) y.
  Proof.
    intros ty o rest s Hty l y lv F P H St Hpl Hps Hns.
    assert (Hin : In lv [0; 2; 4; 6]) by exact (htm_level_in ty Hty).
    assert (Hin' : In lv [0; 2; 4; 6; 7]) by (cbn in *; tauto).
    assert (Hl : level_ok l) by exact (step_level T HT ty _ Hty).
    destruct o as [c|].
    - cbn [cut_guest app] in H.
      destruct (process_present T HT x Hx ty (rq_guest q) s _ Hty F H) as (s1 & E1 & H1 & G1 & K1).
      { fold l lv. rewrite pleaf_cut by exact Hin. apply Hpl. discriminate. }
      { intro Et. rewrite sub_process_cut. apply Hps; [discriminate|exact Et]. }
      destruct (nested_cut lv y c rest s1 Hin' (proj1 G1) (part_le _ _ _ _ (proj2 G1) P) H1 St Hns) as (s2 & E2 & H2 & G2 & K2).
      exists s1, s2. split; [exact E1|]. split; [exact E2|]. split; [exact H2|].
      split; [exact (good_trans T _ _ _ G1 G2)|]. split; [|exact K2]. exact (sure_le _ _ _ _ Hl (proj2 G2) K1).
    - cbn [cut_guest app] in H. destruct P as [P1 P2].
      pose proof St as (w & ws' & Ew & Wg & Wh & W7 & Wf).
      rewrite Ew in H.
      destruct (process_absent T HT x Hx ty (rq_guest q) s _ _ Hty F H) as (s1 & E1 & H1 & G1 & K1).
      { destruct Wf as [->|Wf]; [now rewrite andb_false_r|].
        replace (htm_level ty =? wk_level w) with false; [now rewrite andb_false_r|].
        symmetry. apply N.eqb_neq. fold lv. lia. }
      { exact P1. }
      rewrite <- Ew in H1.
      destruct (nested_cut lv y (depth T y, false) rest s1 Hin' (proj1 G1) (part_le _ _ _ _ (proj2 G1) P2)) as (s2 & E2 & H2 & G2 & K2).
      { unfold cut_host. cbn [fst snd]. rewrite records_length_host. exact H1. }
      { exact St. }
      { exact Hns. }
      exists s1, s2. split; [exact E1|]. split; [exact E2|]. split; [exact H2|].
      split; [exact (good_trans T _ _ _ G1 G2)|]. split; [|exact K2]. exact (sure_le _ _ _ _ Hl (proj2 G2) K1).
  Qed.

  (** The two final records and the walk between them. *)
  Definition fin (k : nat) : list walk :=
    mk_walk true false true false (rq_glevel q) (rq_greal q)
    :: skipn k (host_pte_records (hw_ptes (host_at T (rq_final q))))
    ++ [mk_walk true false true true (rq_hlevel q) (rq_real q)].
  Lemma fin_sub_nested : forall k, rq_hlevel q <= 1 ->
    sub_of NESTED_RA_ADDR (fin k) = Some (kind_of_level (rq_hlevel q)).
  Proof.
    intros k H. unfold fin. rewrite sub_nested. cbn [existsb].
    rewrite !existsb_app, !(existsb_none _ (skipn _ _)).
    2-3: intros w Hw; unfold f_nra; now rewrite (proj1 (skipn_host_guest _ _ _ Hw)).
    unfold f_nra, kind_of_level. cbn. destruct (lvl_case _ H) as [-> | ->]; reflexivity.
  Qed.
  Lemma fin_sub_process : forall k, rq_glevel q <= 1 ->
    sub_of PROCESS_RA_ADDR (fin k) = Some (kind_of_level (rq_glevel q)).
  Proof.
    intros k H. unfold fin. rewrite sub_process. cbn [existsb].
    rewrite !existsb_app, !(existsb_none _ (skipn _ _)).
    2-3: intros w Hw; unfold f_pra; now rewrite (proj1 (skipn_host_guest _ _ _ Hw)).
    unfold f_pra, kind_of_level. cbn. destruct (lvl_case _ H) as [-> | ->]; reflexivity.
  Qed.
  Lemma fin_leaf : forall k l, existsb (f_leaf l) (fin k) = false.
  Proof.
    intros k l. unfold fin. cbn [existsb]. rewrite existsb_app, (existsb_none _ (skipn _ _)).
    - reflexivity.
    - intros w Hw. unfold f_leaf. now rewrite (proj1 (skipn_host_guest _ _ _ Hw)).
  Qed.
  Lemma fin_starts : forall k L, rq_glevel q <> 7 -> starts L (fin k).
  Proof.
    intros k L H. unfold fin. eexists. eexists. split; [reflexivity|]. cbn. repeat split; [exact H|now left].
  Qed.
  Lemma final_cut : forall k sz s, shift_ok sz -> sz = shift_at T (rq_guest q) -> request_ok T q ->
    faithful T (ps_pwc s) ->
    part_ok (ps_pwc s) (rq_final q) (k, true) -> rq_greal q < 2 ^ 52 -> rq_real q < 2 ^ 52 ->
    at_ x s (fin k) ->
    exists s1 s2, process_real_addr x (rq_guest q) sz s = XOk (s1, Some (rq_greal q))
      /\ nested x (lor3 X_HOST_RA X_GUEST_PTE X_FINAL_RA) (rq_final q) s1
         = XOk (s2, Some (rq_real q, hw_ptes (host_at T (rq_final q)), shift_at T (rq_final q)))
      /\ at_ x s2 [] /\ good T s s2 /\ host_sure (ps_pwc s2) (rq_final q).
  Proof.
    intros k sz s Hz Ez Hq F P B1 B2 H. unfold fin in H.
    destruct Hq as (_ & _ & _ & Hk & Hg & Hr & _).
    destruct (take_hit x Hx s _ _ (lor3 X_NO_HOST_RA X_GUEST_PTE X_FINAL_RA) H) as (s1 & E1 & H1); [reflexivity|].
    assert (F1 : ps_pwc s1 = ps_pwc s).
    { unfold take in E1. rewrite (peek_at x Hx s _ _ _ H) in E1.
      destruct (check_walk _ _); injection E1 as <-; reflexivity. }
    rewrite <- F1 in F, P.
    rewrite <- Ez in Hg.
    destruct (tlb_faithful T HT (ps_pwc s1) sz (rq_guest q) (rq_greal q) Hz B1 Hg F) as (p2 & E2 & F2 & L2 & _ & _).
    set (s2 := mk_pst p2 (ps_i s1)).
    destruct (part_le (ps_pwc s1) (ps_pwc s2) _ _ L2 P) as (P1 & P2 & _). cbn [fst snd] in *.
    assert (H2 : at_ x s2 (skipn k (host_pte_records (hw_ptes (host_at T (rq_final q))))
       ++ [mk_walk true false true true (rq_hlevel q) (rq_real q)])) by exact (at_index x s1 s2 _ eq_refl H1).
    destruct (translate_cut T HT x Hx (lor3 X_HOST_RA X_GUEST_PTE X_FINAL_RA) (rq_final q) s2 k _ (rq_real q) [] F2 H2 P1 P2)
      as (s3 & E3 & H3 & G3 & K3 & K4).
    - eexists. eexists. split; [reflexivity|]. split; [reflexivity|]. left. split; [reflexivity|].
      split; [now rewrite check_final|]. split; [reflexivity|]. split; [exact B2|exact Hr].
    - intro H4. destruct (Hk (rq_final q)) as [Hk1 Hk2].
      { unfold hosts. apply in_or_app. right. apply in_or_app. right. now left. }
      { exact H4. }
      rewrite sub_nested. unfold f_nra. cbn. rewrite Hk2. unfold kind_of_level.
      destruct (lvl_case _ Hk1) as [-> | ->]; reflexivity.
    - exists s2, s3. split.
      + unfold process_real_addr, bind, c_tlb_insert, ret. rewrite E1. cbn [wk_ra]. now rewrite E2.
      + split; [exact E3|]. split; [exact H3|]. split; [|split; assumption].
        destruct G3 as [G3 L3]. split; [exact G3|]. rewrite <- F1. exact (le_trans _ _ _ L2 L3).
  Qed.
End LEVEL.
