(** C90: the lists with CCAN_LIST_DEBUG. *)
Require Import NArith List Bool Lia.
Require Import Verif.List_Model Verif.List_Spec Verif.Listdbg_Model Verif.Listdbg_Spec Verif.Listdbg_Proofs.
Import ListNotations.
Local Open Scope N_scope.

(** The checks never stop a correct program, and its lists are those of the
    program without checks. *)
Theorem C90_runs : forall w os w', dsteps w os w' -> forall fuel h, models h w -> (length (w_nodes w) + length os <= fuel)%nat ->
  exists h', d_run_ops fuel h os = DOk h' /\ models h' w'.
Proof. exact dsteps_ok. Qed.
Print Assumptions C90_runs.

(** list_del_from is list_del for the nodes of the list; with checks it aborts
    for any node that is not in the list, and if the list is empty. *)
Theorem C90_del_from : forall fuel h l ns n, has_nodes h l ns -> (length ns <= fuel)%nat ->
  (In n ns -> d_del_from fuel h l n = d_del fuel h n /\ list_del_from h l n = list_del h n) /\
  (~ In n (l :: ns) \/ ns = [] -> d_del_from fuel h l n = DAbort).
Proof. exact del_from_ok. Qed.
Print Assumptions C90_del_from.

(** With checks a removed node cannot be removed or exchanged again: both
    follow the null pointer. *)
Theorem C90_twice : forall fuel h l l1 n l2, has_nodes h l (l1 ++ n :: l2) -> h 0 = None -> (length (l1 ++ n :: l2) < fuel)%nat ->
  exists h', d_del fuel h n = DOk h' /\ has_nodes h' l (l1 ++ l2) /\ d_del fuel h' n = DFault /\ (forall o, d_swap fuel h' n o = DFault).
Proof. exact del_twice. Qed.
Print Assumptions C90_twice.

(** No operation with checks uses a list that is not linked both ways. *)
Theorem C90_corrupt : forall fuel h,
  (forall n h', d_del fuel h n = DOk h' -> exists l, has_nodes h n l) /\
  (forall o n h', d_swap fuel h o n = DOk h' -> exists l, has_nodes h o l) /\
  (forall to from h', d_append_list fuel h to from = DOk h' \/ d_prepend_list fuel h to from = DOk h' ->
     (exists l, has_nodes h to l) /\ exists m, has_nodes h from m) /\
  (forall l p n h', d_add_after fuel h l p n = DOk h' \/ d_add_before fuel h l p n = DOk h' -> exists ns, has_nodes h' l ns).
Proof. exact corrupt_stops. Qed.
Print Assumptions C90_corrupt.

(** Nodes 10, 11 in list 1 *)
Definition ex_h : heap := fun p => match p with 1 => Some (mk_node 10 11) | 10 => Some (mk_node 11 1) | 11 => Some (mk_node 1 10) | _ => None end.
(** Without checks, removing 10, then 11, then 10 again puts 11 back into the list. *)
Theorem C90_unchecked_refuted : ~ forall h l l1 n l2 h', has_nodes h l (l1 ++ n :: l2) -> h 0 = None ->
  list_del h n = Some h' -> forall l3 m l4 h'', has_nodes h' l (l3 ++ m :: l4) -> list_del h' m = Some h'' ->
  forall h3, list_del h'' n = Some h3 -> list_top h3 l <> Some (Some m).
Proof.
  intros H.
  assert (N1 : NoDup [1; 10; 11]) by (repeat constructor; cbn; intuition discriminate).
  assert (N2 : NoDup [1; 11]) by (repeat constructor; cbn; intuition discriminate).
  destruct (list_del ex_h 10) as [h1|] eqn:E1; [|vm_compute in E1; discriminate E1].
  destruct (list_del h1 11) as [h2|] eqn:E2; [|vm_compute in E1; injection E1 as <-; vm_compute in E2; discriminate E2].
  destruct (list_del h2 10) as [h3|] eqn:E3; [|vm_compute in E1; injection E1 as <-; vm_compute in E2; injection E2 as <-; vm_compute in E3; discriminate E3].
  refine (H ex_h 1 [] 10 [11] h1 _ eq_refl E1 [] 11 [] h2 _ E2 h3 E3 _).
  - split; [exact N1|]. vm_compute. repeat split.
  - clear E2 E3. vm_compute in E1. injection E1 as <-. split; [exact N2|]. vm_compute. repeat split.
  - vm_compute in E1. injection E1 as <-. vm_compute in E2. injection E2 as <-. vm_compute in E3. injection E3 as <-. vm_compute. reflexivity.
Qed.
Print Assumptions C90_unchecked_refuted.
(** The thorough check of list_del_from takes the head for a node of its list. *)
Theorem C90_head_refuted : ~ forall fuel h l ns n, has_nodes h l ns -> (length ns < fuel)%nat -> ~ In n ns -> d_del_from fuel h l n = DAbort.
Proof.
  intros H. specialize (H 3%nat (fun p => match p with 1 => Some (mk_node 2 2) | 2 => Some (mk_node 1 1) | _ => None end) 1 [2] 1).
  assert (X : has_nodes (fun p => match p with 1 => Some (mk_node 2 2) | 2 => Some (mk_node 1 1) | _ => None end) 1 [2]).
  { split; [repeat constructor; cbn; intuition discriminate|]. vm_compute. repeat split. }
  specialize (H X). cbn [length] in H. specialize (H ltac:(lia) ltac:(intros [|[]]; discriminate)). vm_compute in H. discriminate H.
Qed.
Print Assumptions C90_head_refuted.

Definition ex_ops : list (op * N) :=
  [(OAlloc 1, 0); (OAlloc 2, 0); (OHead 1, 0); (OHead 2, 0); (OAlloc 10, 0); (OAlloc 11, 0); (OAlloc 12, 0); (OAlloc 13, 0);
   (OAddBefore 1 10, 1); (OAddBefore 1 11, 1); (OAddAfter 2 12, 2); (ODel 10, 0); (OAddAfter 12 10, 2); (OSwap 11 13, 0); (OAppend 2 1, 0); (OFree 11, 0)].
Example C90_ex : match d_run_ops 22 (fun _ => None) ex_ops with
  | DOk h => list_for_each (fun h s i => Some (h, s ++ [i])) 9 h [] 2 = Some (h, [12; 10; 13])
      /\ d_del 9 h 11 = DFault /\ d_del_from 9 h 1 10 = DAbort /\ (exists h', d_del_from 9 h 2 10 = DOk h')
  | _ => False
  end.
Proof. vm_compute. repeat split. eexists. reflexivity. Qed.
