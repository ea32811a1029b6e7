(** Model of qtrace-bbv/ccan/list/list.h and list.c: doubly linked circular lists
    in memory, and of htm/pwc.c's list of partial walks in memory. *)
Require Import Arith NArith List Bool.
Require Import Verif.Xlate_Model.
Import ListNotations.
Local Open Scope N_scope.

(** Memory: the two pointers of the struct list_node at an address, [None] where
    there is no node (freed or never allocated).  A list head is its node
    (list.h:23-37).  Addresses of nodes and of the structures holding them are
    identified: list_node_to_off_ and list_node_from_off_ (list.h:809-816) are
    inverse to each other. *)
Record node := mk_node { next : N; prev : N }.
Definition heap := N -> option node.
(** Reading and writing through a pointer; [None] is an access outside of the
    nodes. *)
Definition get_next (h : heap) (p : N) : option N := match h p with Some n => Some (next n) | None => None end.
Definition get_prev (h : heap) (p : N) : option N := match h p with Some n => Some (prev n) | None => None end.
Definition store (h : heap) (p : N) (n : node) : heap := fun q => if q =? p then Some n else h q.
Definition set_next (h : heap) (p v : N) : option heap :=
  match h p with Some n => Some (store h p (mk_node v (prev n))) | None => None end.
Definition set_prev (h : heap) (p v : N) : option heap :=
  match h p with Some n => Some (store h p (mk_node (next n) v)) | None => None end.
Definition bind {A B} (o : option A) (f : A -> option B) : option B := match o with Some x => f x | None => None end.
Notation "'let!' x ':=' e 'in' f" := (bind e (fun x => f)) (at level 200, x binder, e at level 100, f at level 200).

(** calloc and free of a structure with a node *)
Definition alloc (h : heap) (p : N) : option heap :=
  match h p with None => Some (store h p (mk_node 0 0)) | Some _ => None end.
Definition release (h : heap) (p : N) : option heap :=
  match h p with Some _ => Some (fun q => if q =? p then None else h q) | None => None end.

(* list.h:143-146 and 155-158 *)
Definition list_head_init (h : heap) (l : N) : option heap :=
  let! h := set_prev h l l in set_next h l l.
Definition list_node_init := list_head_init.
(* list.h:177-188 *)
Definition list_add_after (h : heap) (p n : N) : option heap :=
  let! pn := get_next h p in
  let! h := set_next h n pn in
  let! h := set_prev h n p in
  let! pn := get_next h p in
  let! h := set_prev h pn n in
  set_next h p n.
(* list.h:203-209 *)
Definition list_add (h : heap) (l n : N) : option heap := list_add_after h l n.
(* list.h:226-237 *)
Definition list_add_before (h : heap) (p n : N) : option heap :=
  let! h := set_next h n p in
  let! pp := get_prev h p in
  let! h := set_prev h n pp in
  let! pp := get_prev h p in
  let! h := set_next h pp n in
  set_prev h p n.
(* list.h:249-255 *)
Definition list_add_tail (h : heap) (l n : N) : option heap := list_add_before h l n.
(* list.h:266-271 *)
Definition list_empty (h : heap) (l : N) : option bool := let! n := get_next h l in Some (n =? l).
(* list.h:323-334, without CCAN_LIST_DEBUG *)
Definition list_del (h : heap) (n : N) : option heap :=
  let! nn := get_next h n in
  let! np := get_prev h n in
  let! h := set_prev h nn np in
  let! np := get_prev h n in
  let! nn := get_next h n in
  set_next h np nn.
(* list.h:349-354 *)
Definition list_del_init (h : heap) (n : N) : option heap :=
  let! h := list_del h n in list_node_init h n.
(* list.h:370-385, without CCAN_LIST_DEBUG; the assertion's failure is [None] *)
Definition list_del_from (h : heap) (l n : N) : option heap :=
  let! e := list_empty h l in if e then None else list_del h n.
(* list.h:404-418, without CCAN_LIST_DEBUG *)
Definition list_swap (h : heap) (o n : N) : option heap :=
  let! x := h o in
  let! _ := h n in
  let h := store h n x in
  let! nn := get_next h n in
  let! h := set_prev h nn n in
  let! np := get_prev h n in
  set_next h np n.
(* list.h:448-456, 500-508; the inner [None] is the null pointer *)
Definition list_top (h : heap) (l : N) : option (option N) :=
  let! e := list_empty h l in if e then Some None else let! n := get_next h l in Some (Some n).
Definition list_tail (h : heap) (l : N) : option (option N) :=
  let! e := list_empty h l in if e then Some None else let! n := get_prev h l in Some (Some n).
(* list.h:472-485 *)
Definition list_pop (h : heap) (l : N) : option (option N * heap) :=
  let! e := list_empty h l in
  if e then Some (None, h)
  else let! n := get_next h l in let! h := list_del h n in Some (Some n, h).
(* list.h:834-841; list_next and list_prev, list.h:598-621 *)
Definition entry_or_null (l n : N) : option N := if n =? l then None else Some n.
Definition list_next (h : heap) (l i : N) : option (option N) := let! n := get_next h i in Some (entry_or_null l n).
Definition list_prev (h : heap) (l i : N) : option (option N) := let! n := get_prev h i in Some (entry_or_null l n).
(* list.h:638-657 *)
Definition list_append_list (h : heap) (to from : N) : option heap :=
  let! from_tail := get_prev h from in
  let! to_tail := get_prev h to in
  let! h := set_prev h to from_tail in
  let! h := set_next h from_tail to in
  let! h := set_next h to_tail from in
  let! h := set_prev h from to_tail in
  let! h := list_del h from in
  list_head_init h from.
(* list.h:671-688 *)
Definition list_prepend_list (h : heap) (to from : N) : option heap :=
  let! from_tail := get_prev h from in
  let! to_head := get_next h to in
  let! h := set_next h to from in
  let! h := set_prev h from to in
  let! h := set_prev h to_head from_tail in
  let! h := set_next h from_tail to_head in
  let! h := list_del h from in
  list_head_init h from.

(** The loops.  [body] is what the program does with a node: it changes memory
    and its own state.  At most [fuel] rounds; [None] also if they do not suffice. *)
Section Loops.
  Context {S : Type} (body : heap -> S -> N -> option (heap * S)).
  (* list.h:691-696 *)
  Fixpoint for_each_from (dir : heap -> N -> option N) (fuel : nat) (h : heap) (s : S) (l i : N) : option (heap * S) :=
    if i =? l then Some (h, s)
    else match fuel with
         | O => None
         | Datatypes.S f =>
             let! hs := body h s i in
             let! i := dir (fst hs) i in
             for_each_from dir f (fst hs) (snd hs) l i
         end.
  Definition for_each_dir (dir : heap -> N -> option N) (fuel : nat) (h : heap) (s : S) (l : N) : option (heap * S) :=
    let! i := dir h l in for_each_from dir fuel h s l i.
  (* list.h:698-706 *)
  Fixpoint for_each_safe_from (dir : heap -> N -> option N) (fuel : nat) (h : heap) (s : S) (l i nxt : N) : option (heap * S) :=
    if i =? l then Some (h, s)
    else match fuel with
         | O => None
         | Datatypes.S f =>
             let! hs := body h s i in
             let! nxt' := dir (fst hs) nxt in
             for_each_safe_from dir f (fst hs) (snd hs) l nxt nxt'
         end.
  Definition for_each_safe_dir (dir : heap -> N -> option N) (fuel : nat) (h : heap) (s : S) (l : N) : option (heap * S) :=
    let! i := dir h l in let! nxt := dir h i in for_each_safe_from dir fuel h s l i nxt.
End Loops.
(* list.h:523-524, 539-540, 561-562, 581-582, 737-787 *)
Definition list_for_each {S} (b : heap -> S -> N -> option (heap * S)) := for_each_dir b get_next.
Definition list_for_each_rev {S} (b : heap -> S -> N -> option (heap * S)) := for_each_dir b get_prev.
Definition list_for_each_safe {S} (b : heap -> S -> N -> option (heap * S)) := for_each_safe_dir b get_next.
Definition list_for_each_rev_safe {S} (b : heap -> S -> N -> option (heap * S)) := for_each_safe_dir b get_prev.

(* list.c:20-36: [CBad] stands for the call of corrupt *)
Inductive check := CGood | CBad | CFault.
Fixpoint check_from (fuel : nat) (h : heap) (node p n : N) : option check :=
  if n =? node then Some (match get_prev h node with None => CFault | Some q => if q =? p then CGood else CBad end)
  else match fuel with
       | O => None
       | S f =>
           match h n with
           | None => Some CFault
           | Some x => if prev x =? p then check_from f h node n (next x) else Some CBad
           end
       end.
Definition list_check (fuel : nat) (h : heap) (node : N) : option check :=
  match get_next h node with None => Some CFault | Some n => check_from fuel h node node n end.

(** ** htm/pwc.c: the list of partial walks *)
(** Memory with the walks of the nodes; [pc_head] is partial_cache.nodes, and the
    number of nodes is a 32-bit counter *)
Record pcache := mk_pcache { pc_heap : heap; pc_walk : N -> xlate; pc_n : N }.
Definition pc_put (w : N -> xlate) (p : N) (x : xlate) : N -> xlate := fun q => if q =? p then x else w q.
Inductive pres (A : Type) := PErr (e : xerr) | PFault | POk (a : A).
Arguments PErr {A}. Arguments PFault {A}. Arguments POk {A}.

Section Partial.
  Variable hd : N.
  (** The address calloc returns *)
  Variable fresh : heap -> N.

  (* htm/pwc.c:710-719, the lines about the list *)
  Definition pc_init (h : heap) (w : N -> xlate) : option pcache :=
    let! h := list_head_init h hd in Some (mk_pcache h w 0).
  (* htm/pwc.c:617-639 *)
  Fixpoint pc_insert_from (fuel : nat) (c : pcache) (x : xlate) (i : N) : pres pcache :=
    if i =? hd then
      let n := fresh (pc_heap c) in
      match (let! h := alloc (pc_heap c) n in list_add_tail h hd n) with
      | None => PFault
      | Some h => POk (mk_pcache h (pc_put (pc_walk c) n x) ((pc_n c + 1) mod 2 ^ 32))
      end
    else match fuel with
         | O => PFault
         | S f =>
             if xlate_match (pc_walk c i) x then
               match xlate_merge (pc_walk c i) x with
               | XErr e => PErr e
               | XOk m => POk (mk_pcache (pc_heap c) (pc_put (pc_walk c) i m) (pc_n c))
               end
             else match get_next (pc_heap c) i with
                  | None => PFault
                  | Some i' => pc_insert_from f c x i'
                  end
         end.
  Definition pc_insert (fuel : nat) (c : pcache) (x : xlate) : pres pcache :=
    match get_next (pc_heap c) hd with None => PFault | Some i => pc_insert_from fuel c x i end.
  (** list_del, nnodes--, free *)
  Definition pc_drop (c : pcache) (n : N) : option pcache :=
    let! h := list_del (pc_heap c) n in
    let! h := release h n in
    Some (mk_pcache h (pc_walk c) ((pc_n c + 2 ^ 32 - 1) mod 2 ^ 32)).
  (* htm/pwc.c:645-660 *)
  Fixpoint pc_lookup_from (fuel : nat) (c : pcache) (x : xlate) (i : N) : pres (option xlate * pcache) :=
    if i =? hd then POk (None, c)
    else match fuel with
         | O => PFault
         | S f =>
             if xlate_match (pc_walk c i) x then
               match xlate_merge (pc_walk c i) x with
               | XErr e => PErr e
               | XOk m => match pc_drop c i with None => PFault | Some c' => POk (Some m, c') end
               end
             else match get_next (pc_heap c) i with
                  | None => PFault
                  | Some i' => pc_lookup_from f c x i'
                  end
         end.
  Definition pc_lookup (fuel : nat) (c : pcache) (x : xlate) : pres (option xlate * pcache) :=
    match get_next (pc_heap c) hd with None => PFault | Some i => pc_lookup_from fuel c x i end.
  (* htm/pwc.c:691-706 *)
  Fixpoint pc_address_from (fuel : nat) (c : pcache) (a r i : N) : pres (option xlate * pcache) :=
    if i =? hd then POk (None, c)
    else match fuel with
         | O => PFault
         | S f =>
             if match_address (pc_walk c i) a r then
               match pc_drop c i with None => PFault | Some c' => POk (Some (pc_walk c i), c') end
             else match get_next (pc_heap c) i with
                  | None => PFault
                  | Some i' => pc_address_from f c a r i'
                  end
         end.
  Definition pc_address (fuel : nat) (c : pcache) (a r : N) : pres (option xlate * pcache) :=
    match get_next (pc_heap c) hd with None => PFault | Some i => pc_address_from fuel c a r i end.
End Partial.
