(** Properties C22 and C23: the software TLB. *)
Require Import NArith ZArith List Bool Permutation Lia.
Require Import ZifyBool ZifyN ZifyNat.
Require Import Verif.Word Verif.Bb_Spec Verif.Tlb_Model Verif.Tlb_Spec.
Require Import Verif.Tlb_Proofs Verif.Tlb_Proofs2.
Import ListNotations.
Local Open Scope N_scope.

(** A sorter exists, so the hypothesis is satisfiable. *)
Fixpoint insert (cmp : tlbe -> tlbe -> Z) (a : tlbe) (l : list tlbe) : list tlbe :=
  match l with
  | [] => [a]
  | b :: l' => if Z.leb (cmp a b) 0 then a :: l else b :: insert cmp a l'
  end.
Definition isort : qsort := fun cmp l => fold_right (insert cmp) [] l.
Example C22_sorter : sorter isort.
Proof.
  intros cmp l [Ha Ht].
  assert (P : forall a l, Permutation (a :: l) (insert cmp a l)).
  { intros a l0. induction l0 as [|b l0 IH]; [reflexivity|]. cbn.
    destruct (Z.leb (cmp a b) 0); [reflexivity|]. rewrite perm_swap. now constructor. }
  assert (O : forall a l, ordered (fun x y => (cmp x y <= 0)%Z) l ->
                          ordered (fun x y => (cmp x y <= 0)%Z) (insert cmp a l)).
  { intros a l0. induction l0 as [|b l0 IH]; intros H; [now split|]. cbn.
    destruct (Z.leb (cmp a b) 0) eqn:E.
    - split; [|exact H]. apply Z.leb_le in E. constructor; [exact E|].
      destruct H as [H _]. eapply Forall_impl; [|exact H]. cbn. intros x Hx. now apply (Ht a b x).
    - destruct H as [H1 H2]. split; [|now apply IH].
      rewrite Forall_forall in *. intros x Hx.
      apply (Permutation_in x (Permutation_sym (P a l0))) in Hx. destruct Hx as [<-|Hx].
      + apply Z.leb_gt in E. specialize (Ha a b). destruct (cmp a b), (cmp b a); lia.
      + now apply H1. }
  induction l as [|a l IH]; [split; [reflexivity|exact I]|]. cbn. destruct IH as [I1 I2]. split.
  - rewrite <- P. now constructor.
  - now apply O.
Qed.

(** Every lookup of a history of sets and lookups gives the translation of the
    latest set page holding the address, and nothing aborts. *)
Theorem C22_lookups : forall qs h, sorter qs -> Forall op_ok h ->
  no_mixed_overlap h -> top_unused [] h -> N.of_nat (length h) <= 2 ^ 30 ->
  exists s, (s0 <~ tlb_init ;; tlb_run qs s0 h) = TOk (s, answers [] h).
Proof. exact lookups_answered. Qed.
Print Assumptions C22_lookups.

Definition ex_hist : list op :=
  [OGet 0x12345678 1; OSet 0x12345678 1 0x99990 4096; OGet 0x12345abc 1;
   OSet 0x2000000 1 0x7000000 16777216; OSet 0x30000 1 0x40000 65536;
   OSet 0x50000 0 0x60000 4096;
   OGet 0x2abcdef 1; OGet 0x3ffff 1; OGet 0x50000 1; OGet 0xc000000000001234 0;
   OSet 0x12345000 1 0xabc000 4096; OGet 0x12345fff 1; OGet 0x12346000 1].
Example C22_ex :
  Forall op_ok ex_hist /\ no_mixed_overlap ex_hist /\ top_unused [] ex_hist /\
  answers [] ex_hist =
    [None; Some (0x99abc, 4096); Some (0x7abcdef, 16777216); Some (0x4ffff, 65536);
     None; Some (0x1234, 4096); Some (0xabcfff, 4096); None] /\
  exists s, (s0 <~ tlb_init ;; tlb_run isort s0 ex_hist) = TOk (s, answers [] ex_hist).
Proof.
  split; [unfold ex_hist; repeat apply Forall_cons; try apply Forall_nil; cbn; lia|].
  split.
  - intros a1 f1 r1 s1 a2 f2 r2 s2 H1 O1 H2 O2. unfold ex_hist in *. cbn [In] in H1, H2.
    repeat match goal with
           | H : _ \/ _ |- _ => destruct H as [H|H]
           | H : False |- _ => destruct H
           | H : OGet _ _ = OSet _ _ _ _ |- _ => discriminate H
           end;
    injection H1 as <- <- <- <-; injection H2 as <- <- <- <-;
      try discriminate O1; try discriminate O2; vm_compute;
      try (left; reflexivity); try (right; left; discriminate); right; right; discriminate.
  - split; [|split; [vm_compute; reflexivity|eexists; vm_compute; reflexivity]].
    unfold ex_hist; cbn [top_unused app]; repeat split;
      intros _ p z H; vm_compute in H; try discriminate H; injection H as <- <-; vm_compute; reflexivity.
Qed.

(** Pages of different sizes may overlap undetected: the page just set is not
    found, or a stale page is. *)
Theorem C23_overlap_missed_refuted : Forall op_ok mixed /\ forall qs, sorter qs ->
  latest mixed (E0 + 0x6000) = Some (0x5000000, 16777216) /\
  latest mixed (E0 + 0x5000) = Some (0x5000000, 16777216) /\
  exists s, (s0 <~ tlb_init ;; tlb_run qs s0 mixed)
            = TOk (s, [None; Some (0x1000, 4096); Some (0x5000000, 16777216)]).
Proof. exact (conj mixed_ok mixed_misses). Qed.
Print Assumptions C23_overlap_missed_refuted.

(** A lookup in a page that ends the address space aborts, whatever the
    history; the set itself is accepted. *)
Theorem C23_top_page_aborts : forall qs h ea page size, sorter qs -> Forall op_ok h ->
  no_mixed_overlap h -> top_unused [] h -> N.of_nat (length h) <= 2 ^ 30 -> ea < 2 ^ 64 ->
  latest h ea = Some (page, size) -> (ea / size + 1) * size = 2 ^ 64 ->
  exists s outs, (s0 <~ tlb_init ;; tlb_run qs s0 h) = TOk (s, outs) /\
                 tlb_ra_get s ea 1 = TErr TAssert.
Proof. exact top_lookup_aborts. Qed.
Print Assumptions C23_top_page_aborts.

Example C23_ex :
  let h := [OSet 0xfffffffffffff123 1 0x5000 4096] in
  latest h 0xfffffffffffff800 = Some (0x5000, 4096) /\
  match s0 <~ tlb_init ;; tlb_run isort s0 h with
  | TOk (s, _) => tlb_ra_get s 0xfffffffffffff800 1 = TErr TAssert
  | TErr _ => False
  end.
Proof. vm_compute. split; reflexivity. Qed.
