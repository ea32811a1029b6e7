(** Mixed page sizes: the witnesses, for every sort function. *)
Require Import NArith ZArith List Bool Permutation Lia Arith.
Require Import ZifyBool ZifyN ZifyNat.
Require Import Verif.Word Verif.Bb_Spec Verif.Tlb_Model Verif.Tlb_Spec Verif.Tlb_Proofs.
Import ListNotations.
Local Open Scope N_scope.

Lemma sorted_unique : forall l l',
  Permutation l l' ->
  ordered (fun a b => (tlb_compare_ea a b < 0)%Z) l ->
  ordered (fun a b => (tlb_compare_ea a b <= 0)%Z) l' -> l' = l.
Proof.
  induction l as [|a l IH]; intros l' P O1 O2.
  - now apply Permutation_nil in P.
  - destruct O1 as [H1 O1]. rewrite Forall_forall in H1.
    destruct l' as [|b l']; [symmetry in P; now apply Permutation_nil in P|].
    destruct O2 as [H2 O2]. rewrite Forall_forall in H2.
    assert (a = b).
    { assert (Ia : In a (b :: l')) by (eapply Permutation_in; [exact P|now left]).
      assert (Ib : In b (a :: l)) by (eapply Permutation_in; [symmetry; exact P|now left]).
      destruct Ia as [Ia|Ia]; [now symmetry|]. destruct Ib as [Ib|Ib]; [exact Ib|].
      exfalso. specialize (H1 b Ib). specialize (H2 a Ia). unfold tlb_compare_ea in *.
      destruct (t_ea a <? t_ea b) eqn:E1; destruct (t_ea b <? t_ea a) eqn:E2; lia. }
    subst b. f_equal. apply IH; try assumption. now apply Permutation_cons_inv in P.
Qed.

Lemma sorted_as : forall qs l l', sorter qs -> Permutation l' l ->
  ordered (fun a b => (tlb_compare_ea a b < 0)%Z) l' -> qs tlb_compare_ea l = l'.
Proof.
  intros qs l l' HS P O. destruct (HS tlb_compare_ea l compare_ea_ok) as [P1 O1].
  apply sorted_unique; try assumption. now rewrite P.
Qed.

Definition E0 : N := 0x10000000.
Definition s_4k_1 : tlbs :=
  mk_tlbs (Some [mk_tlbe (E0 + 0x5000) 0x1000 4096 0 0 true]) 1 0 0 0.
Definition s_4k_2 : tlbs :=
  mk_tlbs (Some [mk_tlbe (E0 + 0x5000) 0x1000 4096 0 0 true;
                 mk_tlbe (E0 + 0x7000) 0x2000 4096 0 0 true]) 2 0 0 0.
Definition s_16m : tlbs :=
  mk_tlbs (Some [mk_tlbe E0 0x5000000 16777216 0 0 true;
                 mk_tlbe (E0 + 0x5000) 0x1000 4096 0 0 true;
                 mk_tlbe (E0 + 0x7000) 0x2000 4096 0 0 true;
                 zero_tlbe]) 3 0 0 0.

Ltac step E :=
  lazy -[tlb_validate tlb_compare_ea];
  try (match goal with
       | |- context [tlb_validate ?x] =>
           replace (tlb_validate x) with (TOk tt) by (vm_compute; reflexivity)
       end; lazy -[tlb_validate tlb_compare_ea]);
  rewrite E; vm_compute; reflexivity.

Lemma mixed_1 : forall qs, sorter qs ->
  tlb_ra_set qs tlb_zero (E0 + 0x5000) 1 0x1000 4096 = TOk s_4k_1.
Proof.
  intros qs HS.
  assert (E : qs tlb_compare_ea [mk_tlbe (E0 + 0x5000) 0x1000 4096 0 0 true] =
              [mk_tlbe (E0 + 0x5000) 0x1000 4096 0 0 true]).
  { apply sorted_as; [exact HS|reflexivity|]. cbn. auto. }
  lazy -[tlb_compare_ea] in E. step E.
Qed.
Lemma mixed_2 : forall qs, sorter qs ->
  tlb_ra_set qs s_4k_1 (E0 + 0x7000) 1 0x2000 4096 = TOk s_4k_2.
Proof.
  intros qs HS.
  assert (E : qs tlb_compare_ea [mk_tlbe (E0 + 0x5000) 0x1000 4096 0 0 true;
                                 mk_tlbe (E0 + 0x7000) 0x2000 4096 0 0 true] =
              [mk_tlbe (E0 + 0x5000) 0x1000 4096 0 0 true;
               mk_tlbe (E0 + 0x7000) 0x2000 4096 0 0 true]).
  { apply sorted_as; [exact HS|reflexivity|]. cbn. repeat split; repeat constructor. }
  lazy -[tlb_compare_ea] in E. step E.
Qed.
Lemma mixed_3 : forall qs, sorter qs ->
  tlb_ra_set qs s_4k_2 E0 1 0x5000000 16777216 = TOk s_16m.
Proof.
  intros qs HS.
  assert (E : qs tlb_compare_ea [mk_tlbe (E0 + 0x5000) 0x1000 4096 0 0 true;
                                 mk_tlbe (E0 + 0x7000) 0x2000 4096 0 0 true;
                                 mk_tlbe E0 0x5000000 16777216 0 0 true] =
              [mk_tlbe E0 0x5000000 16777216 0 0 true;
               mk_tlbe (E0 + 0x5000) 0x1000 4096 0 0 true;
               mk_tlbe (E0 + 0x7000) 0x2000 4096 0 0 true]).
  { apply sorted_as; [exact HS| |].
    - apply (Permutation_cons_append
               [mk_tlbe (E0 + 0x5000) 0x1000 4096 0 0 true;
                mk_tlbe (E0 + 0x7000) 0x2000 4096 0 0 true]).
    - cbn. repeat split; repeat constructor. }
  lazy -[tlb_compare_ea] in E. step E.
Qed.

Definition mixed : list op :=
  [OSet (E0 + 0x5000) 1 0x1000 4096; OSet (E0 + 0x7000) 1 0x2000 4096;
   OSet E0 1 0x5000000 16777216; OGet (E0 + 0x6000) 1; OGet (E0 + 0x5000) 1; OGet E0 1].

Lemma mixed_misses : forall qs, sorter qs ->
  latest mixed (E0 + 0x6000) = Some (0x5000000, 16777216) /\
  latest mixed (E0 + 0x5000) = Some (0x5000000, 16777216) /\
  exists s, (s0 <~ tlb_init ;; tlb_run qs s0 mixed)
            = TOk (s, [None; Some (0x1000, 4096); Some (0x5000000, 16777216)]).
Proof.
  intros qs HS. split; [reflexivity|]. split; [reflexivity|].
  change tlb_init with (TOk tlb_zero). unfold mixed. cbn [tbind tlb_run].
  rewrite (mixed_1 qs HS). cbn [tbind]. rewrite (mixed_2 qs HS). cbn [tbind].
  rewrite (mixed_3 qs HS). cbn [tbind]. eexists. vm_compute. reflexivity.
Qed.

Lemma mixed_ok : Forall op_ok mixed.
Proof. unfold mixed, op_ok, E0. repeat apply Forall_cons; try apply Forall_nil; cbn; lia. Qed.
