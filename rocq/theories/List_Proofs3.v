(** Proofs for C64: histories, loops and the check. *)
Require Import Arith NArith List Bool Lia Permutation.
Require Import Verif.Xlate_Model Verif.List_Model Verif.List_Spec Verif.List_Proofs Verif.List_Proofs2.
Import ListNotations.
Local Open Scope N_scope.

(** ** Histories *)
Definition nodes_of (x : N * list N) : list N := fst x :: snd x.
Lemma w_nodes_eq ls fr : w_nodes (mk_world ls fr) = flat_map nodes_of ls ++ fr.
Proof. reflexivity. Qed.
Ltac perm := apply (Permutation_count_occ N.eq_dec); intros ?;
  rewrite ?w_nodes_eq; unfold nodes_of;
  repeat (progress (rewrite ?flat_map_app, ?app_nil_r, ?count_occ_app; cbn [flat_map app count_occ fst snd]));
  repeat match goal with |- context [N.eq_dec ?a ?b] => destruct (N.eq_dec a b) end; lia.

Lemma apart ls fr A ks y q : NoDup (w_nodes (mk_world ls fr)) -> Permutation (w_nodes (mk_world ls fr)) (A ++ flat_map nodes_of ks) ->
  In y ks -> In q (nodes_of y) -> ~ In q A.
Proof.
  intros D P Y Q I. apply (Permutation_NoDup P) in D. apply (nodup_app_no _ _ q D I).
  apply in_flat_map. eauto.
Qed.
Lemma rebuild h h' w w' A ks : models h w -> same_live h h' -> only A h h' ->
  Permutation (w_nodes w) (w_nodes w') -> Permutation (w_nodes w) (A ++ flat_map nodes_of ks) ->
  Forall (fun x => chain h' (fst x) (snd x) (fst x) \/ (In x ks /\ In x (w_lists w))) (w_lists w') ->
  models h' w'.
Proof.
  intros (D & C & L) SL O P PA F. split; [exact (Permutation_NoDup P D) |]. split.
  - rewrite Forall_forall in *. intros x X. destruct (F x X) as [Y | [Y Z]]; [exact Y |].
    apply (chain_frame h); [exact (C x Z) | |]; intros q Q.
    + unfold get_next. rewrite O; [reflexivity |]. destruct w. eapply apart; eassumption.
    + unfold get_prev. rewrite O; [reflexivity |]. destruct w. eapply apart; [eassumption | eassumption | eassumption |].
      unfold nodes_of. inlist.
  - intros q. rewrite (SL q). unfold live. rewrite (L q). split; apply Permutation_in; [exact P | symmetry; exact P].
Qed.
Lemma models_has h k1 hd l k2 fr : models h (mk_world (k1 ++ (hd, l) :: k2) fr) -> has_nodes h hd l.
Proof.
  intros (D & C & _). split.
  - assert (P : Permutation (w_nodes (mk_world (k1 ++ (hd, l) :: k2) fr)) ((hd :: l) ++ flat_map nodes_of k1 ++ flat_map nodes_of k2 ++ fr)) by perm.
    apply (Permutation_NoDup P) in D. exact (nodup_app_l _ _ D).
  - rewrite Forall_forall in C. apply (C (hd, l)). simpl. rewrite in_app_iff. simpl. auto.
Qed.
Lemma models_loose h ls f1 n f2 : models h (mk_world ls (f1 ++ n :: f2)) -> live h n.
Proof. intros (_ & _ & L). apply L. rewrite w_nodes_eq, !in_app_iff. simpl. auto. Qed.
Lemma models_out h k1 hd l k2 f1 n f2 : models h (mk_world (k1 ++ (hd, l) :: k2) (f1 ++ n :: f2)) -> ~ In n (hd :: l).
Proof.
  intros (D & _). 
  assert (P : Permutation (w_nodes (mk_world (k1 ++ (hd, l) :: k2) (f1 ++ n :: f2)))
      ((n :: hd :: l) ++ flat_map nodes_of k1 ++ flat_map nodes_of k2 ++ f1 ++ f2)) by perm.
  apply (Permutation_NoDup P) in D. inversion D; subst. inlist.
Qed.
Lemma nodup_has h hd l : NoDup (hd :: l) -> chain h hd l hd -> has_nodes h hd l. Proof. split; assumption. Qed.

Ltac others := let H := fresh in apply Forall_forall; intros ? H; simpl in H |- *;
  repeat (rewrite in_app_iff in H; simpl in H);
  repeat match goal with
  | H : _ \/ _ |- _ => destruct H
  | H : (_, _) = ?x |- _ => subst x
  end; try (left; simpl; match goal with H : has_nodes _ _ _ |- _ => exact (proj2 H) end);
  try (right; rewrite ?in_app_iff; simpl; rewrite ?in_app_iff; simpl; tauto).

Lemma step_ok h w o w' : models h w -> step w o w' -> exists h', run_op h o = Some h' /\ models h' w'.
Proof.
  intros M S. inversion S; subst; clear S; simpl run_op.
  - (* alloc *) unfold alloc. destruct M as (D & C & L).
    destruct (h n) as [v |] eqn:E; [exfalso; apply H; apply L; congruence |].
    eexists. split; [reflexivity |].
    assert (G : forall q, In q (w_nodes (mk_world ls fr)) -> store h n (mk_node 0 0) q = h q).
    { intros q Q. unfold store. ends; tauto. }
    split; [| split].
    + eapply Permutation_NoDup; [| constructor; [exact H | exact D]]. perm.
    + rewrite Forall_forall in *. intros x X. specialize (C x X). simpl in X.
      assert (I : forall q, In q (fst x :: snd x) -> In q (w_nodes (mk_world ls fr))).
      { intros q Q. rewrite w_nodes_eq, in_app_iff, in_flat_map. eauto. }
      apply (chain_frame h); [exact C | |]; intros q Q; unfold get_next, get_prev; rewrite G; auto.
      apply I. inlist.
    + intros q. unfold store. split.
      * intros Q. destruct (N.eqb_spec q n) as [e |]; [subst q; rewrite w_nodes_eq, in_app_iff; simpl; auto |].
        apply L in Q. rewrite w_nodes_eq, in_app_iff in *. simpl. tauto.
      * intros Q. destruct (N.eqb_spec q n) as [e |]; [subst q; congruence |]. apply L.
        rewrite w_nodes_eq, in_app_iff in *. simpl in Q. intuition congruence.
  - (* free *) pose proof (models_loose _ _ _ _ _ M) as Ln. unfold release, live in *. destruct M as (D & C & L).
    destruct (h n) as [v |] eqn:E; [| congruence]. eexists. split; [reflexivity |].
    assert (P : Permutation (w_nodes (mk_world ls (f1 ++ n :: f2))) (n :: w_nodes (mk_world ls (f1 ++ f2)))) by perm.
    pose proof (Permutation_NoDup P D) as D'. inversion D' as [| ? ? D1 D2]; subst.
    assert (G : forall q, In q (w_nodes (mk_world ls (f1 ++ f2))) -> (if q =? n then None else h q) = h q).
    { intros q Q. ends; tauto. }
    split; [exact D2 | split].
    + rewrite Forall_forall in *. intros x X. specialize (C x X). simpl in X.
      assert (I : forall q, In q (fst x :: snd x) -> In q (w_nodes (mk_world ls (f1 ++ f2)))).
      { intros q Q. rewrite w_nodes_eq, in_app_iff, in_flat_map. eauto. }
      apply (chain_frame h); [exact C | |]; intros q Q; unfold get_next, get_prev; rewrite G; auto.
      apply I. inlist.
    + intros q. split.
      * intros Q. destruct (N.eqb_spec q n); [congruence |]. apply L in Q. apply (Permutation_in _ P) in Q.
        destruct Q; [congruence | assumption].
      * intros Q. rewrite G by exact Q. apply L. apply (Permutation_in _ (Permutation_sym P)). right. exact Q.
  - (* head *) destruct (init_ok h n (models_loose _ _ _ _ _ M)) as (h' & E & NX & PV & O & SL).
    exists h'. split; [exact E |]. assert (R : has_nodes h' n []).
    { split; [repeat constructor; auto |]. split; [rewrite NX | rewrite PV]; ends. }
    apply (rebuild h h' _ _ (n :: f1 ++ f2) ls M SL); [| perm | perm | others].
    intros q Q. apply O. inlist.
  - (* after head *) destruct (ring_add_after h hd l n (models_has _ _ _ _ _ _ M) (models_loose _ _ _ _ _ M) (models_out _ _ _ _ _ _ _ _ M)) as (h' & E & R & O & SL).
    exists h'. split; [exact E |].
    apply (rebuild h h' _ _ ((n :: hd :: l) ++ f1 ++ f2) (k1 ++ k2) M SL); [| perm | perm | others].
    intros q Q. apply O. rewrite in_app_iff in Q. tauto.
  - (* after *) destruct (add_after_node h hd l1 p l2 n (models_has _ _ _ _ _ _ M) (models_loose _ _ _ _ _ M) (models_out _ _ _ _ _ _ _ _ M)) as (h' & E & R & O & SL).
    exists h'. split; [exact E |].
    apply (rebuild h h' _ _ ((n :: hd :: l1 ++ p :: l2) ++ f1 ++ f2) (k1 ++ k2) M SL); [| perm | perm | others].
    intros q Q. apply O. rewrite in_app_iff in Q. tauto.
  - (* before head *) destruct (ring_add_before h hd l n (models_has _ _ _ _ _ _ M) (models_loose _ _ _ _ _ M) (models_out _ _ _ _ _ _ _ _ M)) as (h' & E & R & O & SL).
    exists h'. split; [exact E |].
    apply (rebuild h h' _ _ ((n :: hd :: l) ++ f1 ++ f2) (k1 ++ k2) M SL); [| perm | perm | others].
    intros q Q. apply O. rewrite in_app_iff in Q. tauto.
  - (* before *) destruct (add_before_node h hd l1 p l2 n (models_has _ _ _ _ _ _ M) (models_loose _ _ _ _ _ M) (models_out _ _ _ _ _ _ _ _ M)) as (h' & E & R & O & SL).
    exists h'. split; [exact E |].
    apply (rebuild h h' _ _ ((n :: hd :: l1 ++ p :: l2) ++ f1 ++ f2) (k1 ++ k2) M SL); [| perm | perm | others].
    intros q Q. apply O. rewrite in_app_iff in Q. tauto.
  - (* del *) destruct (del_node h hd l1 n l2 (models_has _ _ _ _ _ _ M)) as (h' & E & R & O & SL).
    exists h'. split; [exact E |].
    apply (rebuild h h' _ _ ((hd :: l1 ++ l2) ++ n :: fr) (k1 ++ k2) M SL); [| perm | perm | others].
    intros q Q. apply O. rewrite in_app_iff in Q. tauto.
  - (* del_init *) destruct (del_node h hd l1 n l2 (models_has _ _ _ _ _ _ M)) as (h1 & E & R & O & SL).
    assert (Ln : live h1 n). { apply SL. destruct M as (_ & _ & L). apply L. rewrite w_nodes_eq, flat_map_app. unfold nodes_of. simpl. rewrite !in_app_iff. simpl. rewrite !in_app_iff. simpl. tauto. }
    destruct (init_ok h1 n Ln) as (h' & E' & NX & PV & O' & SL').
    unfold list_del_init. rewrite E. exists h'. split; [exact E' |].
    assert (NN : ~ In n (hd :: l1 ++ l2)).
    { destruct M as (D & _).
      assert (P : Permutation (w_nodes (mk_world (k1 ++ (hd, l1 ++ n :: l2) :: k2) fr)) ((n :: hd :: l1 ++ l2) ++ flat_map nodes_of (k1 ++ k2) ++ fr)) by perm.
      apply (Permutation_NoDup P) in D. apply nodup_app_l in D. inversion D; assumption. }
    assert (R1 : has_nodes h' n []).
    { split; [repeat constructor; auto |]. split; [rewrite NX | rewrite PV]; ends. }
    assert (R2 : has_nodes h' hd (l1 ++ l2)).
    { destruct R as [R0 R2]. split; [exact R0 |]. apply (chain_frame h1); [exact R2 | |]; intros q Q.
      - rewrite NX. ends. 
      - rewrite PV. ends. exfalso. inlist. }
    apply (rebuild h h' _ _ ((n :: hd :: l1 ++ l2) ++ fr) (k1 ++ k2) M); [eauto | | perm | perm | ].
    + intros q Q. rewrite in_app_iff in Q. rewrite O' by inlist. apply O. inlist.
    + clear R. others.
  - (* swap *) destruct (swap_node h hd l1 o0 l2 n (models_has _ _ _ _ _ _ M) (models_loose _ _ _ _ _ M) (models_out _ _ _ _ _ _ _ _ M)) as (h' & E & R & O & SL).
    exists h'. split; [exact E |].
    apply (rebuild h h' _ _ ((n :: hd :: l1 ++ l2) ++ o0 :: f1 ++ f2) (k1 ++ k2) M SL); [| perm | perm | others].
    intros q Q. apply O. rewrite in_app_iff in Q. tauto.
  - (* append *)
    pose proof (models_has _ k1 _ _ (k2 ++ (from, m) :: k3) _ M) as R1.
    assert (R2 : has_nodes h from m).
    { apply (models_has h (k1 ++ (to, l) :: k2) from m k3 fr). rewrite <- app_assoc. exact M. }
    assert (D : NoDup ((to :: l) ++ from :: m)).
    { pose proof (proj1 M) as D.
      assert (P : Permutation (w_nodes (mk_world (k1 ++ (to, l) :: k2 ++ (from, m) :: k3) fr)) (((to :: l) ++ from :: m) ++ flat_map nodes_of (k1 ++ k2 ++ k3) ++ fr)) by perm.
      apply (Permutation_NoDup P) in D. exact (nodup_app_l _ _ D). }
    destruct (append_ok h to l from m (proj2 R1) (proj2 R2) D) as (h' & E & X1 & X2 & O & SL).
    exists h'. split; [exact E |].
    apply (rebuild h h' _ _ (((to :: l) ++ from :: m) ++ fr) (k1 ++ k2 ++ k3) M SL); [| perm | perm | clear R1 R2; others].
    intros q Q. apply O. rewrite in_app_iff in Q. tauto.
  - pose proof (models_has _ k1 _ _ (k2 ++ (to, l) :: k3) _ M) as R1.
    assert (R2 : has_nodes h to l).
    { apply (models_has h (k1 ++ (from, m) :: k2) to l k3 fr). rewrite <- app_assoc. exact M. }
    assert (D : NoDup ((to :: l) ++ from :: m)).
    { pose proof (proj1 M) as D.
      assert (P : Permutation (w_nodes (mk_world (k1 ++ (from, m) :: k2 ++ (to, l) :: k3) fr)) (((to :: l) ++ from :: m) ++ flat_map nodes_of (k1 ++ k2 ++ k3) ++ fr)) by perm.
      apply (Permutation_NoDup P) in D. exact (nodup_app_l _ _ D). }
    destruct (append_ok h to l from m (proj2 R2) (proj2 R1) D) as (h' & E & X1 & X2 & O & SL).
    exists h'. split; [exact E |].
    apply (rebuild h h' _ _ (((to :: l) ++ from :: m) ++ fr) (k1 ++ k2 ++ k3) M SL); [| perm | perm | clear R1 R2; others].
    intros q Q. apply O. rewrite in_app_iff in Q. tauto.
  - pose proof (models_has _ k1 _ _ (k2 ++ (from, m) :: k3) _ M) as R1.
    assert (R2 : has_nodes h from m).
    { apply (models_has h (k1 ++ (to, l) :: k2) from m k3 fr). rewrite <- app_assoc. exact M. }
    assert (D : NoDup ((to :: l) ++ from :: m)).
    { pose proof (proj1 M) as D.
      assert (P : Permutation (w_nodes (mk_world (k1 ++ (to, l) :: k2 ++ (from, m) :: k3) fr)) (((to :: l) ++ from :: m) ++ flat_map nodes_of (k1 ++ k2 ++ k3) ++ fr)) by perm.
      apply (Permutation_NoDup P) in D. exact (nodup_app_l _ _ D). }
    destruct (prepend_ok h to l from m (proj2 R1) (proj2 R2) D) as (h' & E & X1 & X2 & O & SL).
    exists h'. split; [exact E |].
    apply (rebuild h h' _ _ (((to :: l) ++ from :: m) ++ fr) (k1 ++ k2 ++ k3) M SL); [| perm | perm | clear R1 R2; others].
    intros q Q. apply O. rewrite in_app_iff in Q. tauto.
  - pose proof (models_has _ k1 _ _ (k2 ++ (to, l) :: k3) _ M) as R1.
    assert (R2 : has_nodes h to l).
    { apply (models_has h (k1 ++ (from, m) :: k2) to l k3 fr). rewrite <- app_assoc. exact M. }
    assert (D : NoDup ((to :: l) ++ from :: m)).
    { pose proof (proj1 M) as D.
      assert (P : Permutation (w_nodes (mk_world (k1 ++ (from, m) :: k2 ++ (to, l) :: k3) fr)) (((to :: l) ++ from :: m) ++ flat_map nodes_of (k1 ++ k2 ++ k3) ++ fr)) by perm.
      apply (Permutation_NoDup P) in D. exact (nodup_app_l _ _ D). }
    destruct (prepend_ok h to l from m (proj2 R2) (proj2 R1) D) as (h' & E & X1 & X2 & O & SL).
    exists h'. split; [exact E |].
    apply (rebuild h h' _ _ (((to :: l) ++ from :: m) ++ fr) (k1 ++ k2 ++ k3) M SL); [| perm | perm | clear R1 R2; others].
    intros q Q. apply O. rewrite in_app_iff in Q. tauto.
Qed.
Lemma forget_ok h k1 n k2 fr : models h (mk_world (k1 ++ (n, []) :: k2) fr) -> models h (mk_world (k1 ++ k2) (n :: fr)).
Proof.
  intros M. apply (rebuild h h _ _ (n :: fr) (k1 ++ k2) M); [auto | intros q _; reflexivity | perm | perm |].
  apply Forall_forall. intros x X. simpl in X |- *. right. rewrite !in_app_iff in *. simpl. tauto.
Qed.
Theorem steps_ok w os w' : steps w os w' -> forall h, models h w -> exists h', run_ops h os = Some h' /\ models h' w'.
Proof.
  induction 1; intros h M.
  - exists h. auto.
  - destruct (step_ok h w o w1 M H) as (h1 & E & M1). destruct (IHsteps h1 M1) as (h2 & E2 & M2).
    exists h2. split; [| exact M2]. simpl. rewrite E. exact E2.
  - apply IHsteps. apply forget_ok. exact M.
Qed.
Theorem lists_ok os w : steps (mk_world [] []) os w -> exists h, run_ops (fun _ => None) os = Some h /\ models h w.
Proof.
  intros S. apply (steps_ok _ _ _ S). split; [constructor |]. split; [constructor |]. intros q. simpl. split; [congruence | tauto].
Qed.
