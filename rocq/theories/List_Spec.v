(** What the lists in memory are to be. *)
Require Import NArith List Bool.
Require Import Verif.Xlate_Model Verif.List_Model.
Import ListNotations.
Local Open Scope N_scope.

(** From node [a] through the nodes [l] to node [b] *)
Definition linked (h : heap) (a b : N) : Prop := get_next h a = Some b /\ get_prev h b = Some a.
Fixpoint chain (h : heap) (a : N) (l : list N) (b : N) : Prop :=
  match l with [] => linked h a b | x :: l' => linked h a x /\ chain h x l' b end.
(** The list with head [hd] has the nodes [l] *)
Definition has_nodes (h : heap) (hd : N) (l : list N) : Prop := NoDup (hd :: l) /\ chain h hd l hd.
(** Only the nodes [s] may have changed. *)
Definition only (s : list N) (h h' : heap) : Prop := forall q, ~ In q s -> h' q = h q.

(** ** Programs with any number of lists *)
(** The lists (head and nodes), and nodes that are allocated but in no list *)
Record world := mk_world { w_lists : list (N * list N); w_loose : list N }.
Definition w_nodes (w : world) : list N := flat_map (fun x => fst x :: snd x) (w_lists w) ++ w_loose w.
Definition models (h : heap) (w : world) : Prop :=
  NoDup (w_nodes w)
  /\ Forall (fun x => chain h (fst x) (snd x) (fst x)) (w_lists w)
  /\ forall q, h q <> None <-> In q (w_nodes w).

Inductive op :=
| OAlloc (n : N) | OFree (n : N) | OHead (n : N)
| OAddAfter (p n : N) | OAddBefore (p n : N) | ODel (n : N) | ODelInit (n : N) | OSwap (o n : N)
| OAppend (to from : N) | OPrepend (to from : N).
Definition run_op (h : heap) (o : op) : option heap :=
  match o with
  | OAlloc n => alloc h n | OFree n => release h n | OHead n => list_head_init h n
  | OAddAfter p n => list_add_after h p n | OAddBefore p n => list_add_before h p n
  | ODel n => list_del h n | ODelInit n => list_del_init h n | OSwap o n => list_swap h o n
  | OAppend t f => list_append_list h t f | OPrepend t f => list_prepend_list h t f
  end.
Fixpoint run_ops (h : heap) (l : list op) : option heap :=
  match l with [] => Some h | o :: l' => match run_op h o with Some h' => run_ops h' l' | None => None end end.

(** What the operations are to do: of the lists, the loose nodes, and when they
    may be used.  Lists and loose nodes are kept in any order. *)
Inductive step : world -> op -> world -> Prop :=
| SAlloc ls fr n : ~ In n (w_nodes (mk_world ls fr)) -> step (mk_world ls fr) (OAlloc n) (mk_world ls (n :: fr))
| SFree ls f1 n f2 : step (mk_world ls (f1 ++ n :: f2)) (OFree n) (mk_world ls (f1 ++ f2))
| SHead ls f1 n f2 : step (mk_world ls (f1 ++ n :: f2)) (OHead n) (mk_world ((n, []) :: ls) (f1 ++ f2))
| SAfterHead k1 hd l k2 f1 n f2 :
    step (mk_world (k1 ++ (hd, l) :: k2) (f1 ++ n :: f2)) (OAddAfter hd n)
         (mk_world (k1 ++ (hd, n :: l) :: k2) (f1 ++ f2))
| SAfter k1 hd l1 p l2 k2 f1 n f2 :
    step (mk_world (k1 ++ (hd, l1 ++ p :: l2) :: k2) (f1 ++ n :: f2)) (OAddAfter p n)
         (mk_world (k1 ++ (hd, l1 ++ p :: n :: l2) :: k2) (f1 ++ f2))
| SBeforeHead k1 hd l k2 f1 n f2 :
    step (mk_world (k1 ++ (hd, l) :: k2) (f1 ++ n :: f2)) (OAddBefore hd n)
         (mk_world (k1 ++ (hd, l ++ [n]) :: k2) (f1 ++ f2))
| SBefore k1 hd l1 p l2 k2 f1 n f2 :
    step (mk_world (k1 ++ (hd, l1 ++ p :: l2) :: k2) (f1 ++ n :: f2)) (OAddBefore p n)
         (mk_world (k1 ++ (hd, l1 ++ n :: p :: l2) :: k2) (f1 ++ f2))
| SDel k1 hd l1 n l2 k2 fr :
    step (mk_world (k1 ++ (hd, l1 ++ n :: l2) :: k2) fr) (ODel n)
         (mk_world (k1 ++ (hd, l1 ++ l2) :: k2) (n :: fr))
| SDelInit k1 hd l1 n l2 k2 fr :
    step (mk_world (k1 ++ (hd, l1 ++ n :: l2) :: k2) fr) (ODelInit n)
         (mk_world ((n, []) :: k1 ++ (hd, l1 ++ l2) :: k2) fr)
| SSwap k1 hd l1 o l2 k2 f1 n f2 :
    step (mk_world (k1 ++ (hd, l1 ++ o :: l2) :: k2) (f1 ++ n :: f2)) (OSwap o n)
         (mk_world (k1 ++ (hd, l1 ++ n :: l2) :: k2) (o :: f1 ++ f2))
| SAppend k1 to l k2 from m k3 fr :
    step (mk_world (k1 ++ (to, l) :: k2 ++ (from, m) :: k3) fr) (OAppend to from)
         (mk_world (k1 ++ (to, l ++ m) :: k2 ++ (from, []) :: k3) fr)
| SAppend' k1 from m k2 to l k3 fr :
    step (mk_world (k1 ++ (from, m) :: k2 ++ (to, l) :: k3) fr) (OAppend to from)
         (mk_world (k1 ++ (from, []) :: k2 ++ (to, l ++ m) :: k3) fr)
| SPrepend k1 to l k2 from m k3 fr :
    step (mk_world (k1 ++ (to, l) :: k2 ++ (from, m) :: k3) fr) (OPrepend to from)
         (mk_world (k1 ++ (to, m ++ l) :: k2 ++ (from, []) :: k3) fr)
| SPrepend' k1 from m k2 to l k3 fr :
    step (mk_world (k1 ++ (from, m) :: k2 ++ (to, l) :: k3) fr) (OPrepend to from)
         (mk_world (k1 ++ (from, []) :: k2 ++ (to, m ++ l) :: k3) fr).
Inductive steps : world -> list op -> world -> Prop :=
| Steps0 w : steps w [] w
| Steps1 w o w1 os w2 : step w o w1 -> steps w1 os w2 -> steps w (o :: os) w2
(** The node of an empty list may be used for something else. *)
| StepsForget k1 n k2 fr os w : steps (mk_world (k1 ++ k2) (n :: fr)) os w -> steps (mk_world (k1 ++ (n, []) :: k2) fr) os w.

(** ** The list of partial walks *)
(** The nodes [ns] have the walks [l]; all other memory is as in [h0]. *)
Definition holds (hd : N) (h0 : heap) (c : pcache) (l : list xlate) : Prop :=
  exists ns, has_nodes (pc_heap c) hd ns /\ List.map (pc_walk c) ns = l
    /\ pc_n c = N.of_nat (length l) mod 2 ^ 32
    /\ (forall q, q <> hd -> h0 q <> None -> ~ In q ns)
    /\ (forall q, q <> hd -> ~ In q ns -> pc_heap c q = h0 q).
(** Programs *)
Inductive pop := PInsert (x : xlate) | PLookup (x : xlate) | PAddress (a r : N).
(** What they return, as for lists in Xlate_Model *)
Definition spec_pop (l : list xlate) (o : pop) : xres (option xlate * list xlate) :=
  match o with
  | PInsert x => match partial_insert l x with XErr e => XErr e | XOk l' => XOk (None, l') end
  | PLookup x => partial_lookup l x
  | PAddress a r => XOk (address_lookup l a r)
  end.
Definition run_pop (hd : N) (fresh : heap -> N) (fuel : nat) (c : pcache) (o : pop) : pres (option xlate * pcache) :=
  match o with
  | PInsert x => match pc_insert hd fresh fuel c x with PErr e => PErr e | PFault => PFault | POk c' => POk (None, c') end
  | PLookup x => pc_lookup hd fuel c x
  | PAddress a r => pc_address hd fuel c a r
  end.
Fixpoint spec_pops (l : list xlate) (os : list pop) : xres (list (option xlate) * list xlate) :=
  match os with
  | [] => XOk ([], l)
  | o :: os' =>
      match spec_pop l o with
      | XErr e => XErr e
      | XOk (r, l1) => match spec_pops l1 os' with XErr e => XErr e | XOk (rs, l2) => XOk (r :: rs, l2) end
      end
  end.
Fixpoint run_pops (hd : N) (fresh : heap -> N) (fuel : nat) (c : pcache) (os : list pop) : pres (list (option xlate) * pcache) :=
  match os with
  | [] => POk ([], c)
  | o :: os' =>
      match run_pop hd fresh fuel c o with
      | PErr e => PErr e
      | PFault => PFault
      | POk (r, c1) =>
          match run_pops hd fresh fuel c1 os' with
          | PErr e => PErr e | PFault => PFault | POk (rs, c2) => POk (r :: rs, c2)
          end
      end
  end.
(** In the course of a program calloc returns only addresses that are free. *)
Fixpoint callocs_ok (hd : N) (fresh : heap -> N) (fuel : nat) (c : pcache) (os : list pop) : Prop :=
  match os with
  | [] => True
  | o :: os' =>
      pc_heap c (fresh (pc_heap c)) = None
      /\ match run_pop hd fresh fuel c o with POk (_, c1) => callocs_ok hd fresh fuel c1 os' | _ => True end
  end.
