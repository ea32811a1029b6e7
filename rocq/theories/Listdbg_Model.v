(** Model of qtrace-bbv/ccan/list/list.h with CCAN_LIST_DEBUG: the operations
    check the lists and clear the pointers of nodes they remove. *)
Require Import NArith List Bool.
Require Import Verif.List_Model Verif.List_Spec.
Import ListNotations.
Local Open Scope N_scope.

(** [DAbort] is abort() in corrupt (list.c:13-16) or a failing assert, [DFault]
    an access outside of the nodes, [DFuel] a loop of more than [fuel] rounds. *)
Inductive dres := DOk (h : heap) | DAbort | DFault | DFuel.
Definition lift (o : option heap) (k : heap -> dres) : dres := match o with Some h => k h | None => DFault end.
Definition andthen (r : dres) (k : heap -> dres) : dres := match r with DOk h => k h | _ => r end.
(* list.h:94-96, list_check and list_check_node of list.c:20-43 *)
Definition checked (fuel : nat) (h : heap) (n : N) (k : dres) : dres :=
  match list_check fuel h n with
  | Some CGood => k
  | Some CBad => DAbort
  | Some CFault => DFault
  | None => DFuel
  end.
(** n->next = n->prev = NULL *)
Definition forget (h : heap) (n : N) : option heap := let! h := set_prev h n 0 in set_next h n 0.

(* list.h:177-188, 203-209 *)
Definition d_add_after (fuel : nat) (h : heap) (l p n : N) : dres :=
  lift (list_add_after h p n) (fun h => checked fuel h l (DOk h)).
(* list.h:226-237, 249-255 *)
Definition d_add_before (fuel : nat) (h : heap) (l p n : N) : dres :=
  lift (list_add_before h p n) (fun h => checked fuel h l (DOk h)).
(* list.h:323-334 *)
Definition d_del (fuel : nat) (h : heap) (n : N) : dres :=
  checked fuel h n (lift (list_del h n) (fun h => lift (forget h n) DOk)).
(* list.h:349-354 *)
Definition d_del_init (fuel : nat) (h : heap) (n : N) : dres :=
  andthen (d_del fuel h n) (fun h => lift (list_node_init h n) DOk).
(* list.h:370-385 *)
Fixpoint find_from (fuel : nat) (h : heap) (l n i : N) (k : dres) : dres :=
  if i =? n then k
  else if i =? l then DAbort
  else match fuel with
       | O => DFuel
       | S f => match get_next h i with Some i' => find_from f h l n i' k | None => DFault end
       end.
Definition d_del_from (fuel : nat) (h : heap) (l n : N) : dres :=
  match get_next h l with
  | None => DFault
  | Some i =>
      find_from fuel h l n i
        (checked fuel h l
           match list_empty h l with
           | None => DFault
           | Some true => DAbort
           | Some false => d_del fuel h n
           end)
  end.
(* list.h:404-418 *)
Definition d_swap (fuel : nat) (h : heap) (o n : N) : dres :=
  checked fuel h o (lift (list_swap h o n) (fun h => lift (forget h o) DOk)).
(* list.h:640-653, up to list_del *)
Definition sew_behind (h : heap) (to from : N) : option heap :=
  let! from_tail := get_prev h from in
  let! to_tail := get_prev h to in
  let! h := set_prev h to from_tail in
  let! h := set_next h from_tail to in
  let! h := set_next h to_tail from in
  set_prev h from to_tail.
(* list.h:672-684, up to list_del *)
Definition sew_before (h : heap) (to from : N) : option heap :=
  let! from_tail := get_prev h from in
  let! to_head := get_next h to in
  let! h := set_next h to from in
  let! h := set_prev h from to in
  let! h := set_prev h to_head from_tail in
  set_next h from_tail to_head.
(* list.h:640-657, 672-688 *)
Definition d_join (sew : heap -> N -> N -> option heap) (fuel : nat) (h : heap) (to from : N) : dres :=
  checked fuel h from (checked fuel h to
    (lift (sew h to from) (fun h => andthen (d_del fuel h from) (fun h => lift (list_head_init h from) DOk)))).
Definition d_append_list := d_join sew_behind.
Definition d_prepend_list := d_join sew_before.

(** An operation, with the head that list_add_after and list_add_before are given *)
Definition d_run_op (fuel : nat) (h : heap) (o : op) (l : N) : dres :=
  match o with
  | OAlloc n => lift (alloc h n) DOk
  | OFree n => lift (release h n) DOk
  | OHead n => lift (list_head_init h n) DOk
  | OAddAfter p n => d_add_after fuel h l p n
  | OAddBefore p n => d_add_before fuel h l p n
  | ODel n => d_del fuel h n
  | ODelInit n => d_del_init fuel h n
  | OSwap o n => d_swap fuel h o n
  | OAppend to from => d_append_list fuel h to from
  | OPrepend to from => d_prepend_list fuel h to from
  end.
Fixpoint d_run_ops (fuel : nat) (h : heap) (os : list (op * N)) : dres :=
  match os with
  | [] => DOk h
  | (o, l) :: os' => andthen (d_run_op fuel h o l) (fun h => d_run_ops fuel h os')
  end.
