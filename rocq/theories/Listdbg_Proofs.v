(** Proofs about the checking lists. *)
Require Import Arith NArith List Bool Lia Permutation.
Require Import Verif.Xlate_Model Verif.List_Model Verif.List_Spec Verif.List_Proofs Verif.List_Proofs2 Verif.List_Proofs3 Verif.List_Proofs4.
Require Import Verif.Listdbg_Model Verif.Listdbg_Spec.
Import ListNotations.
Local Open Scope N_scope.

Lemma checked_ok fuel h n l k : has_nodes h n l -> (length l <= fuel)%nat -> checked fuel h n k = k.
Proof.
  intros [D C] B. unfold checked, list_check. rewrite (chain_first _ _ _ _ C).
  rewrite (check_from_chain h n l fuel n C); [reflexivity|inversion D; assumption|exact B].
Qed.
Lemma world_perm h ls ls' fr : Permutation ls ls' -> models h (mk_world ls fr) -> models h (mk_world ls' fr).
Proof.
  intros P M. assert (Q : Permutation (flat_map nodes_of ls) (flat_map nodes_of ls')) by (apply Permutation_flat_map; exact P).
  destruct M as (D & C & L). unfold models. rewrite !w_nodes_eq in *. cbn [w_lists] in *. split; [|split].
  - eapply Permutation_NoDup; [|exact D]. apply Permutation_app_tail. exact Q.
  - rewrite Forall_forall in *. intros x X. apply C. apply (Permutation_in _ (Permutation_sym P)). exact X.
  - intros q. rewrite (L q). split; apply Permutation_in; apply Permutation_app_tail; [|symmetry]; exact Q.
Qed.
Lemma forget_models h ls n fr : models h (mk_world ls (n :: fr)) -> exists h', forget h n = Some h' /\ models h' (mk_world ls (n :: fr)) /\ get_next h' n = Some 0 /\ only [n] h h'.
Proof.
  intros M. pose proof (models_loose h ls [] n fr M) as Lv. unfold forget.
  destruct (set_prev_ok h n 0 Lv) as (h1 & E1 & NX1 & PV1 & O1 & SL1). rewrite E1. cbn [bind].
  destruct (set_next_ok h1 n 0) as (h2 & E2 & NX2 & PV2 & O2 & SL2); [apply SL1; exact Lv|]. exists h2. split; [exact E2|].
  assert (OO : only [n] h h2).
  { intros q Q. rewrite O2 by exact Q. apply O1. exact Q. }
  split; [|split; [rewrite NX2, N.eqb_refl; reflexivity|exact OO]].
  apply (rebuild h h2 _ _ (n :: fr) ls M); [eauto| |perm|perm|].
  - intros q Q. apply OO. intros I. apply Q. destruct I as [->|[]]. now left.
  - apply Forall_forall. intros x X. right. split; exact X.
Qed.
Lemma list_short ls fr hd l : In (hd, l) ls -> (length l < length (w_nodes (mk_world ls fr)))%nat.
Proof.
  intros I. apply in_split in I as (k1 & k2 & ->). rewrite w_nodes_eq, flat_map_app, !app_length. cbn [flat_map]. rewrite app_length. cbn. lia.
Qed.
Lemma models_in h ls fr hd l : models h (mk_world ls fr) -> In (hd, l) ls -> has_nodes h hd l.
Proof. intros M I. apply in_split in I as (k1 & k2 & ->). exact (models_has _ _ _ _ _ _ M). Qed.
Lemma head_has h ls fr l : models h (mk_world ls fr) -> In l (map fst ls) ->
  exists ns, has_nodes h l ns /\ (length ns < length (w_nodes (mk_world ls fr)))%nat.
Proof.
  intros M I. apply in_map_iff in I as ((x & ns) & E & I). cbn in E. subst x. exists ns. split; [exact (models_in _ _ _ _ _ M I)|exact (list_short _ _ _ _ I)].
Qed.
Lemma del_debug fuel h k1 hd l1 n l2 k2 fr : models h (mk_world (k1 ++ (hd, l1 ++ n :: l2) :: k2) fr) ->
  (length (w_nodes (mk_world (k1 ++ (hd, (l1 ++ n :: l2)%list) :: k2) fr)) <= fuel)%nat ->
  exists h', d_del fuel h n = DOk h' /\ models h' (mk_world (k1 ++ (hd, l1 ++ l2) :: k2) (n :: fr)) /\ get_next h' n = Some 0
    /\ forall q, ~ In q (hd :: l1 ++ n :: l2) -> h' q = h q.
Proof.
  intros M F. destruct (step_ok _ _ _ _ M (SDel k1 hd l1 n l2 k2 fr)) as (h1 & E1 & M1). cbn [run_op] in E1.
  destruct (del_node h hd l1 n l2 (models_has _ _ _ _ _ _ M)) as (h1' & E1' & _ & O1 & _). rewrite E1 in E1'. injection E1' as <-.
  destruct (forget_models _ _ _ _ M1) as (h2 & E2 & M2 & Z & O2). exists h2. split; [|split; [exact M2|split; [exact Z|]]].
  - unfold d_del. rewrite (checked_ok fuel h n (l2 ++ hd :: l1)).
    + rewrite E1. cbn [lift]. rewrite E2. reflexivity.
    + apply ring_rot. exact (models_has _ _ _ _ _ _ M).
    + pose proof (list_short (k1 ++ (hd, l1 ++ n :: l2) :: k2) fr hd (l1 ++ n :: l2)) as B.
      specialize (B ltac:(apply in_or_app; right; left; reflexivity)). rewrite app_length in *. cbn [length] in *. lia.
  - intros q Q. rewrite O2, O1; [reflexivity| |]; intros I; apply Q; cbn [In] in *; rewrite !in_app_iff in *; cbn [In] in *; tauto.
Qed.
Definition sews (sew : heap -> N -> N -> option heap) (place : list N -> list N -> N -> list N) : Prop :=
  forall h to l from m, chain h to l to -> chain h from m from -> NoDup ((to :: l) ++ from :: m) ->
  exists h', sew h to from = Some h' /\ has_nodes h' to (place l m from) /\ only ((to :: l) ++ from :: m) h h' /\ same_live h h'.
Lemma sew_behind_ok : sews sew_behind (fun l m from => l ++ from :: m).
Proof.
  intros h to l from m.
  intros C1 C2 D. pose proof (chain_last _ _ _ _ C1) as P1. pose proof (chain_last _ _ _ _ C2) as P2.
  pose proof (in_last l to) as I1. pose proof (in_last m from) as I2.
  pose proof (chain_live _ _ _ _ C1) as L1. pose proof (chain_live _ _ _ _ C2) as L2.
  assert (W : forall q, In q (to :: l) -> In q (from :: m) -> False).
  { intros q A B. exact (nodup_app_no _ _ q D A B). }
  unfold sew_behind. get_step. get_step.
  set_step ltac:(apply L1; inlist) h1.
  set_step ltac:(apply SL; apply L2; inlist) h2.
  set_step ltac:(apply SL0; apply SL; apply L1; inlist) h3.
  destruct (set_prev_ok h3 from (last l to)) as (h4 & E4 & NX2 & PV2 & O2 & SL2); [apply SL1; apply SL0; apply SL; apply L2; inlist|].
  assert (R : has_nodes h4 to (l ++ from :: m)).
  { split; [exact D |]. apply chain_app. split.
    - apply (chain_retarget h h4 to l to from); [exact C1 | exact (nodup_app_l _ _ D) | | | |].
      + intros q Q Q'. gets. apart W from to.
      + intros q Q. apply nodup_app_l in D. inversion D; subst. gets. apart W from to.
      + gets. apart W from to.
      + gets. apart W from to.
    - apply (chain_retarget h h4 from m from to); [exact C2 | exact (nodup_app_r _ _ D) | | | |].
      + intros q Q Q'. gets. apart W from to.
      + intros q Q. pose proof (nodup_app_r _ _ D) as D'. inversion D'; subst. gets. apart W from to.
      + gets. apart W from to.
      + gets. apart W from to. }
  exists h4. split; [exact E4|]. split; [exact R|]. split.
  - intros q Q.
    assert (q <> to /\ q <> from /\ q <> last l to /\ q <> last m from) as (A1 & A2 & A3 & A4).
    { repeat split; intros ->; apply Q; rewrite in_app_iff; simpl in *; tauto. }
    rewrite O2, O1, O0, O; simpl; intuition congruence.
  - repeat (eapply live_trans; [eassumption |]). apply live_refl.
Qed.
Lemma sew_before_ok : sews sew_before (fun l m from => from :: m ++ l).
Proof.
  intros h to l from m.
  intros C1 C2 D. pose proof (chain_first _ _ _ _ C1) as P1. pose proof (chain_last _ _ _ _ C2) as P2.
  pose proof (in_hd l to) as I1. pose proof (in_last m from) as I2.
  pose proof (chain_live _ _ _ _ C1) as L1. pose proof (chain_live _ _ _ _ C2) as L2.
  assert (W : forall q, In q (to :: l) -> In q (from :: m) -> False).
  { intros q A B. exact (nodup_app_no _ _ q D A B). }
  unfold sew_before. get_step. get_step.
  set_step ltac:(apply L1; inlist) h1.
  set_step ltac:(apply SL; apply L2; inlist) h2.
  set_step ltac:(apply SL0; apply SL; apply L1; inlist) h3.
  destruct (set_next_ok h3 (last m from) (hd to l)) as (h4 & E4 & NX2 & PV2 & O2 & SL2); [apply SL1; apply SL0; apply SL; apply L2; inlist|].
  assert (D1 : NoDup (to :: from :: m ++ l)).
  { eapply Permutation_NoDup; [| exact D]. simpl. constructor. rewrite Permutation_app_comm. simpl. reflexivity. }
  assert (R : has_nodes h4 to (from :: m ++ l)).
  { split; [exact D1 |]. split.
    - assert (Z1 : to <> last m from) by (intros Z; rewrite <- Z in I2; apply (W to); inlist).
      assert (Z2 : from <> hd to l) by (intros Z; rewrite <- Z in I1; apply (W from); inlist).
      split; gets; ends.
    - assert (T : chain h4 from m (hd to l)).
      { apply (chain_retarget h h4 from m from); [exact C2 | exact (nodup_app_r _ _ D) | | | |].
        + intros q Q Q'. assert (q <> to) by (intros ->; apply (W to); inlist). gets. ends.
        + intros q Q. pose proof (nodup_app_r _ _ D) as D'.
          assert (q <> hd to l) by (intros ->; exact (W _ I1 (or_intror Q))).
          assert (q <> from) by (intros ->; inversion D'; auto). gets. ends.
        + gets. ends.
        + gets. ends. }
      destruct l as [| y l]; simpl hd in *; [rewrite app_nil_r; exact T |].
      apply nodup_app_l in D. inversion D as [| ? ? X1 X2]; subst. inversion X2 as [| ? ? X3 X4]; subst.
      apply chain_app. split; [exact T |]. destruct C1 as [_ C1]. apply (chain_frame h); [exact C1 | |].
      + intros q Q. assert (q <> to) by inlist.
        assert (q <> last m from) by (intros ->; exact (W _ (or_intror Q) I2)). gets. ends.
      + intros q Q. assert (q <> y) by inlist. assert (q <> from) by (intros ->; apply (W from); inlist). gets. ends. }
  exists h4. split; [exact E4|]. split; [exact R|]. split.
  - intros q Q.
    assert (q <> to /\ q <> from /\ q <> hd to l /\ q <> last m from) as (A1 & A2 & A3 & A4).
    { repeat split; intros ->; apply Q; simpl in *; rewrite in_app_iff; simpl in *; tauto. }
    rewrite O2, O1, O0, O; simpl; intuition congruence.
  - repeat (eapply live_trans; [eassumption |]). apply live_refl.
Qed.
Lemma join_debug sew place a b fuel h to l from m ks fr : sews sew place -> place l m from = a ++ from :: b -> Permutation (a ++ b) (l ++ m) ->
  models h (mk_world ((to, l) :: (from, m) :: ks) fr) -> (length (w_nodes (mk_world ((to, l) :: (from, m) :: ks) fr)) <= fuel)%nat ->
  exists h', d_join sew fuel h to from = DOk h' /\ models h' (mk_world ((from, []) :: (to, a ++ b) :: ks) fr).
Proof.
  intros S P Q M F.
  assert (R1 : has_nodes h to l) by (apply (models_in _ _ _ _ _ M); left; reflexivity).
  assert (R2 : has_nodes h from m) by (apply (models_in _ _ _ _ _ M); right; left; reflexivity).
  assert (D : NoDup ((to :: l) ++ from :: m)).
  { pose proof (proj1 M) as D.
    assert (P1 : Permutation (w_nodes (mk_world ((to, l) :: (from, m) :: ks) fr)) (((to :: l) ++ from :: m) ++ flat_map nodes_of ks ++ fr)) by perm.
    apply (Permutation_NoDup P1) in D. exact (nodup_app_l _ _ D). }
  destruct (S h to l from m (proj2 R1) (proj2 R2) D) as (h1 & E1 & X & O & SL). rewrite P in X.
  assert (PW : Permutation (w_nodes (mk_world ((to, l) :: (from, m) :: ks) fr)) (w_nodes (mk_world ((to, a ++ from :: b) :: ks) fr))).
  { apply (Permutation_count_occ N.eq_dec). intros x. pose proof (proj1 (Permutation_count_occ N.eq_dec _ _) Q x) as Qx. rewrite !count_occ_app in Qx.
    rewrite ?w_nodes_eq; unfold nodes_of;
    repeat (progress (rewrite ?flat_map_app, ?app_nil_r, ?count_occ_app; cbn [flat_map app count_occ fst snd]));
    repeat match goal with |- context [N.eq_dec ?a ?b] => destruct (N.eq_dec a b) end; lia. }
  assert (M1 : models h1 (mk_world ((to, a ++ from :: b) :: ks) fr)).
  { apply (rebuild h h1 _ _ (((to :: l) ++ from :: m) ++ fr) ks M SL); [|exact PW|perm|].
    - intros q I. apply O. rewrite in_app_iff in I. tauto.
    - apply Forall_forall. intros x [<-|I]; [left; exact (proj2 X)|]. right. split; [exact I|]. right. right. exact I. }
  destruct (del_debug fuel h1 [] to a from b ks fr M1) as (h2 & E2 & M2 & _).
  { cbn [app]. rewrite <- (Permutation_length PW). exact F. }
  destruct (step_ok _ _ _ _ M2 (SHead _ [] from fr)) as (h3 & E3 & M3). cbn [run_op] in E3. exists h3. split; [|exact M3].
  unfold d_join. rewrite (checked_ok fuel h from m _ R2), (checked_ok fuel h to l _ R1).
  - rewrite E1. cbn [lift]. rewrite E2. cbn [andthen]. rewrite E3. reflexivity.
  - pose proof (list_short ((to, l) :: (from, m) :: ks) fr to l (or_introl eq_refl)). lia.
  - pose proof (list_short ((to, l) :: (from, m) :: ks) fr from m (or_intror (or_introl eq_refl))). lia.
Qed.
Lemma nodes_grow w o w' : step w o w' -> (length (w_nodes w') <= S (length (w_nodes w)))%nat.
Proof.
  intros H. inversion H; subst; rewrite !w_nodes_eq;
    repeat (rewrite ?flat_map_app, ?app_length; cbn [flat_map nodes_of fst snd app length]);
    unfold nodes_of; cbn [fst snd app length]; rewrite ?app_length; cbn [length]; rewrite ?app_length; cbn [length]; lia.
Qed.
Lemma dstep_ok fuel h w o l w' : models h w -> heads w o l -> step w o w' ->
  (length (w_nodes w) <= fuel)%nat -> (length (w_nodes w') <= fuel)%nat ->
  exists h', d_run_op fuel h o l = DOk h' /\ models h' w'.
Proof.
  intros M H S F F'. destruct (step_ok h w o w' M S) as (h1 & E & M1).
  assert (ADD : In l (map fst (w_lists w')) -> checked fuel h1 l (DOk h1) = DOk h1).
  { intros I. destruct w' as [ls' fr']. destruct (head_has _ _ _ _ M1 I) as (ns & X & B). apply (checked_ok fuel h1 l ns); [exact X|lia]. }
  inversion S; subst; cbn [d_run_op run_op] in *; clear S.
  - exists h1. rewrite E. split; [reflexivity|exact M1].
  - exists h1. rewrite E. split; [reflexivity|exact M1].
  - exists h1. rewrite E. split; [reflexivity|exact M1].
  - exists h1. unfold d_add_after. rewrite E. cbn [lift]. split; [|exact M1]. apply ADD. cbn [heads w_lists] in *. rewrite map_app in *. exact H.
  - exists h1. unfold d_add_after. rewrite E. cbn [lift]. split; [|exact M1]. apply ADD. cbn [heads w_lists] in *. rewrite map_app in *. exact H.
  - exists h1. unfold d_add_before. rewrite E. cbn [lift]. split; [|exact M1]. apply ADD. cbn [heads w_lists] in *. rewrite map_app in *. exact H.
  - exists h1. unfold d_add_before. rewrite E. cbn [lift]. split; [|exact M1]. apply ADD. cbn [heads w_lists] in *. rewrite map_app in *. exact H.
  - destruct (del_debug fuel h k1 hd l1 n l2 k2 fr M F) as (h2 & E2 & M2 & _). exists h2. split; [exact E2|exact M2].
  - destruct (del_debug fuel h k1 hd l1 n l2 k2 fr M F) as (h2 & E2 & M2 & _).
    destruct (step_ok _ _ _ _ M2 (SHead _ [] n fr)) as (h3 & E3 & M3). cbn [run_op] in E3. exists h3. split; [|exact M3].
    unfold d_del_init. rewrite E2. cbn [andthen]. unfold list_node_init. rewrite E3. reflexivity.
  - destruct (forget_models _ _ _ _ M1) as (h2 & E2 & M2 & _). exists h2. split; [|exact M2].
    unfold d_swap. rewrite (checked_ok fuel h o0 (l2 ++ hd :: l1)).
    + rewrite E. cbn [lift]. rewrite E2. reflexivity.
    + apply ring_rot. exact (models_has _ _ _ _ _ _ M).
    + pose proof (list_short (k1 ++ (hd, l1 ++ o0 :: l2) :: k2) (f1 ++ n :: f2) hd (l1 ++ o0 :: l2)) as B.
      specialize (B ltac:(apply in_or_app; right; left; reflexivity)). rewrite app_length in *. cbn [length] in *. lia.
  - assert (P : Permutation (k1 ++ (to, l0) :: k2 ++ (from, m) :: k3) ((to, l0) :: (from, m) :: k1 ++ k2 ++ k3)).
    { rewrite <- Permutation_middle. apply perm_skip. rewrite !app_assoc. rewrite <- Permutation_middle. reflexivity. }
    destruct (join_debug sew_behind _ l0 m fuel h to l0 from m (k1 ++ k2 ++ k3) fr sew_behind_ok eq_refl (Permutation_refl _) (world_perm _ _ _ _ P M)) as (h2 & E2 & M2).
    { rewrite w_nodes_eq, app_length in *. rewrite (Permutation_length (Permutation_flat_map nodes_of P)) in F. exact F. }
    exists h2. split; [exact E2|]. eapply world_perm; [|exact M2]. symmetry.
    rewrite <- Permutation_middle. etransitivity; [|apply perm_swap]. apply perm_skip. rewrite !app_assoc. rewrite <- Permutation_middle. reflexivity.
  - assert (P : Permutation (k1 ++ (from, m) :: k2 ++ (to, l0) :: k3) ((to, l0) :: (from, m) :: k1 ++ k2 ++ k3)).
    { rewrite <- Permutation_middle. etransitivity; [|apply perm_swap]. apply perm_skip. rewrite !app_assoc. rewrite <- Permutation_middle. reflexivity. }
    destruct (join_debug sew_behind _ l0 m fuel h to l0 from m (k1 ++ k2 ++ k3) fr sew_behind_ok eq_refl (Permutation_refl _) (world_perm _ _ _ _ P M)) as (h2 & E2 & M2).
    { rewrite w_nodes_eq, app_length in *. rewrite (Permutation_length (Permutation_flat_map nodes_of P)) in F. exact F. }
    exists h2. split; [exact E2|]. eapply world_perm; [|exact M2]. symmetry.
    rewrite <- Permutation_middle. apply perm_skip. rewrite !app_assoc. rewrite <- Permutation_middle. reflexivity.
  - assert (P : Permutation (k1 ++ (to, l0) :: k2 ++ (from, m) :: k3) ((to, l0) :: (from, m) :: k1 ++ k2 ++ k3)).
    { rewrite <- Permutation_middle. apply perm_skip. rewrite !app_assoc. rewrite <- Permutation_middle. reflexivity. }
    destruct (join_debug sew_before _ [] (m ++ l0) fuel h to l0 from m (k1 ++ k2 ++ k3) fr sew_before_ok eq_refl (Permutation_app_comm m l0) (world_perm _ _ _ _ P M)) as (h2 & E2 & M2).
    { rewrite w_nodes_eq, app_length in *. rewrite (Permutation_length (Permutation_flat_map nodes_of P)) in F. exact F. }
    exists h2. split; [exact E2|]. eapply world_perm; [|exact M2]. symmetry.
    rewrite <- Permutation_middle. etransitivity; [|apply perm_swap]. apply perm_skip. rewrite !app_assoc. rewrite <- Permutation_middle. reflexivity.
  - assert (P : Permutation (k1 ++ (from, m) :: k2 ++ (to, l0) :: k3) ((to, l0) :: (from, m) :: k1 ++ k2 ++ k3)).
    { rewrite <- Permutation_middle. etransitivity; [|apply perm_swap]. apply perm_skip. rewrite !app_assoc. rewrite <- Permutation_middle. reflexivity. }
    destruct (join_debug sew_before _ [] (m ++ l0) fuel h to l0 from m (k1 ++ k2 ++ k3) fr sew_before_ok eq_refl (Permutation_app_comm m l0) (world_perm _ _ _ _ P M)) as (h2 & E2 & M2).
    { rewrite w_nodes_eq, app_length in *. rewrite (Permutation_length (Permutation_flat_map nodes_of P)) in F. exact F. }
    exists h2. split; [exact E2|]. eapply world_perm; [|exact M2]. symmetry.
    rewrite <- Permutation_middle. apply perm_skip. rewrite !app_assoc. rewrite <- Permutation_middle. reflexivity.
Qed.
Theorem dsteps_ok w os w' : dsteps w os w' -> forall fuel h, models h w -> (length (w_nodes w) + length os <= fuel)%nat ->
  exists h', d_run_ops fuel h os = DOk h' /\ models h' w'.
Proof.
  induction 1 as [w|w o l w1 os w2 H S D IH|k1 n k2 fr os w D IH]; intros fuel h M F.
  - exists h. split; [reflexivity|exact M].
  - cbn [length] in F. pose proof (nodes_grow _ _ _ S) as G. destruct (dstep_ok fuel h w o l w1 M H S) as (h1 & E & M1); [lia|lia|].
    destruct (IH fuel h1 M1) as (h2 & E2 & M2); [lia|]. exists h2. split; [|exact M2]. cbn [d_run_ops]. rewrite E. exact E2.
  - apply IH; [apply forget_ok; exact M|]. rewrite w_nodes_eq, flat_map_app, !app_length in *. cbn [flat_map nodes_of fst snd app length] in *. cbn in F. lia.
Qed.
Lemma find_chain h l n k : forall ns fuel p, chain h p ns l -> ~ In l ns -> (length ns <= fuel)%nat ->
  find_from fuel h l n (List.hd l ns) k = if in_dec N.eq_dec n (ns ++ [l]) then k else DAbort.
Proof.
  induction ns as [|x ns IH]; intros fuel p C NI B.
  - cbn [List.hd app]. destruct fuel; cbn [find_from]; destruct (N.eqb_spec l n) as [->|Z].
    + destruct (in_dec _ _ _) as [|Y]; [reflexivity|]. destruct Y. now left.
    + rewrite N.eqb_refl. destruct (in_dec _ _ _) as [[Y|[]]|]; [congruence|reflexivity].
    + destruct (in_dec _ _ _) as [|Y]; [reflexivity|]. destruct Y. now left.
    + rewrite N.eqb_refl. destruct (in_dec _ _ _) as [[Y|[]]|]; [congruence|reflexivity].
  - cbn [List.hd length] in *. destruct fuel as [|fuel]; [lia|]. cbn [find_from]. destruct C as [_ C].
    destruct (N.eqb_spec x n) as [->|Z].
    + destruct (in_dec N.eq_dec n ((n :: ns) ++ [l])) as [|Y]; [reflexivity|]. destruct Y. now left.
    + destruct (N.eqb_spec x l) as [->|Z2]; [destruct NI; now left|]. rewrite (chain_first _ _ _ _ C).
      rewrite (IH fuel x C); [|intros I; apply NI; now right|lia].
      destruct (in_dec N.eq_dec n (ns ++ [l])) as [Y|Y]; destruct (in_dec N.eq_dec n ((x :: ns) ++ [l])) as [Y2|Y2]; try reflexivity.
      * destruct Y2. now right.
      * destruct Y2 as [Y2|Y2]; [congruence|contradiction].
Qed.
Theorem del_from_ok fuel h l ns n : has_nodes h l ns -> (length ns <= fuel)%nat ->
  (In n ns -> d_del_from fuel h l n = d_del fuel h n /\ list_del_from h l n = list_del h n) /\
  (~ In n (l :: ns) \/ ns = [] -> d_del_from fuel h l n = DAbort).
Proof.
  intros R B. pose proof R as [D C]. inversion D as [|? ? NI D']; subst. unfold d_del_from. rewrite (chain_first _ _ _ _ C).
  rewrite (find_chain h l n _ ns fuel l C NI B). split.
  - intros I. destruct (in_dec _ _ _) as [_|Y]; [|destruct Y; apply in_or_app; now left].
    rewrite (checked_ok fuel h l ns _ R B). unfold list_del_from. rewrite (empty_ok _ _ _ R). destruct ns as [|x ns]; [destruct I|]. split; reflexivity.
  - intros [I| ->]; (destruct (in_dec _ _ _) as [Y|_]; [|reflexivity]).
    + destruct I. apply in_app_or in Y as [Y|[Y|[]]]; [now right|now left].
    + rewrite (checked_ok fuel h l [] _ R B), (empty_ok _ _ _ R). reflexivity.
Qed.
Theorem del_twice fuel h l l1 n l2 : has_nodes h l (l1 ++ n :: l2) -> h 0 = None -> (length (l1 ++ n :: l2) < fuel)%nat ->
  exists h', d_del fuel h n = DOk h' /\ has_nodes h' l (l1 ++ l2) /\ d_del fuel h' n = DFault /\ (forall o, d_swap fuel h' n o = DFault).
Proof.
  intros R Z B. pose proof (proj1 (ring_rot h l l1 n l2) R) as R'.
  destruct (del_node h l l1 n l2 R) as (h1 & E1 & R1 & O1 & SL1).
  assert (Lv : live h1 n).
  { apply SL1. apply (chain_live _ _ _ _ (proj2 R')). now left. }
  assert (NI : ~ In n (l :: l1 ++ l2)).
  { assert (P : Permutation (l :: l1 ++ n :: l2) (n :: l :: l1 ++ l2)) by (symmetry; apply (Permutation_middle (l :: l1) l2 n)).
    pose proof (Permutation_NoDup P (proj1 R)) as D. inversion D; assumption. }
  destruct (set_prev_ok h1 n 0 Lv) as (h2 & E2 & NX2 & PV2 & O2 & SL2).
  destruct (set_next_ok h2 n 0) as (h3 & E3 & NX3 & PV3 & O3 & SL3); [apply SL2; exact Lv|].
  assert (N0 : n <> 0).
  { intros ->. apply (chain_live _ _ _ _ (proj2 R') 0); [now left|exact Z]. }
  assert (CK : list_check fuel h3 n = Some CFault).
  { unfold list_check. rewrite NX3, N.eqb_refl. destruct fuel as [|fuel]; [lia|]. cbn [check_from].
    replace (0 =? n) with false by (symmetry; apply N.eqb_neq; congruence).
    assert (h3 0 = None) as ->; [|reflexivity].
    rewrite O3, O2 by (intros [|[]]; congruence). destruct (h1 0) eqn:Q; [|reflexivity].
    assert (live h 0) as Y by (apply SL1; unfold live; congruence). destruct (Y Z). }
  exists h3. split; [|split; [|split]].
  - unfold d_del. rewrite (checked_ok fuel h n (l2 ++ l :: l1) _ R').
    + rewrite E1. cbn [lift]. unfold forget. rewrite E2. cbn [bind]. rewrite E3. reflexivity.
    + rewrite app_length in *. cbn [length] in *. lia.
  - destruct R1 as [D1 C1]. split; [exact D1|]. apply (chain_frame h1); [exact C1| |].
    + intros q Q. rewrite NX3. destruct (N.eqb_spec q n) as [->|]; [contradiction|]. apply NX2.
    + intros q Q. rewrite PV3, PV2. destruct (N.eqb_spec q n) as [->|]; [|reflexivity]. destruct NI. rewrite in_app_iff in Q. cbn [In] in *. tauto.
  - unfold d_del, checked. rewrite CK. reflexivity.
  - intros o. unfold d_swap, checked. rewrite CK. reflexivity.
Qed.
Lemma checked_good fuel h n k h' : checked fuel h n k = DOk h' -> (exists l, has_nodes h n l) /\ k = DOk h'.
Proof.
  unfold checked. destruct (list_check fuel h n) as [[]|] eqn:C; intros E; try discriminate E. split; [|exact E].
  unfold list_check in C. destruct (get_next h n) as [x|] eqn:G; [|discriminate C].
  destruct (check_good h n fuel n x C G) as (l & C1 & NI & _). exists l. split; [apply (chain_nodup h); assumption|exact C1].
Qed.
Theorem corrupt_stops fuel h :
  (forall n h', d_del fuel h n = DOk h' -> exists l, has_nodes h n l) /\
  (forall o n h', d_swap fuel h o n = DOk h' -> exists l, has_nodes h o l) /\
  (forall to from h', d_append_list fuel h to from = DOk h' \/ d_prepend_list fuel h to from = DOk h' ->
     (exists l, has_nodes h to l) /\ exists m, has_nodes h from m) /\
  (forall l p n h', d_add_after fuel h l p n = DOk h' \/ d_add_before fuel h l p n = DOk h' -> exists ns, has_nodes h' l ns).
Proof.
  split; [|split; [|split]].
  - intros n h' E. exact (proj1 (checked_good _ _ _ _ _ E)).
  - intros o n h' E. exact (proj1 (checked_good _ _ _ _ _ E)).
  - intros to from h' [E|E]; apply checked_good in E as [A E]; apply checked_good in E as [B _]; split; assumption.
  - intros l p n h' [E|E]; unfold d_add_after, d_add_before in E; destruct (list_add_after h p n), (list_add_before h p n); cbn [lift] in E; try discriminate E;
      pose proof (checked_good _ _ _ _ _ E) as [A Q]; injection Q as ->; exact A.
Qed.
