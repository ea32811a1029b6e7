(** What a hash table promises: it holds a multiset of pointers. *)
Require Import NArith List Bool Permutation.
Require Import Verif.Word Verif.Htable_Model.
Import ListNotations.
Local Open Scope N_scope.

Inductive hop :=
| OpAdd (ok : bool) (p : N)      (** [ok]: a needed allocation succeeds *)
| OpDel (p : N).

Section OPS.
  Variable rehash : N -> N.

  (** The typed wrappers (htable_type.h) pass the hash of the element. *)
  Definition run_op (o : hop) (h : ht) : htres (ht * bool) :=
    match o with
    | OpAdd ok p => ht_add rehash ok h (rh rehash p) p
    | OpDel p => ht_del h (rh rehash p) p
    end.
  Fixpoint run_ops (os : list hop) (h : ht) : htres (ht * list bool) :=
    match os with
    | [] => HtOk (h, [])
    | o :: os' =>
        match run_op o h with
        | HtErr e => HtErr e
        | HtOk (h1, r) =>
            match run_ops os' h1 with
            | HtErr e => HtErr e
            | HtOk (h2, rs) => HtOk (h2, r :: rs)
            end
        end
    end.
End OPS.

(** The contents explain the results of a history: an addition succeeds
    unless an allocation fails, a removal succeeds if and only if the pointer
    is present, and takes away one occurrence. *)
Inductive explains : list hop -> list bool -> list N -> list N -> Prop :=
| ex_nil : forall c, explains [] [] c c
| ex_add : forall ok p os rs c c', explains os rs (p :: c) c' ->
    explains (OpAdd ok p :: os) (true :: rs) c c'
| ex_full : forall p os rs c c', explains os rs c c' ->
    explains (OpAdd false p :: os) (false :: rs) c c'
| ex_del : forall p os rs c1 c2 c', Permutation c1 (p :: c2) -> explains os rs c2 c' ->
    explains (OpDel p :: os) (true :: rs) c1 c'
| ex_absent : forall p os rs c c', ~ In p c -> explains os rs c c' ->
    explains (OpDel p :: os) (false :: rs) c c'.

(** What can be observed of a table that holds [c]. *)
Definition shows (rehash : N -> N) (h : ht) (c : list N) : Prop :=
  h_elems h = N.of_nat (length c) /\
  (exists l, iterate h = HtOk l /\ Permutation l c) /\
  (forall hash cmp, exists r, ht_get h hash cmp = HtOk r /\
     match r with
     | Some p => In p c /\ cmp p = true
     | None => forall p, In p c -> rh rehash p = hash -> cmp p = false
     end).

(** All pointers have bit [t] as their highest bit. *)
Definition top_is (t p : N) : Prop := 2 ^ t <= p < 2 ^ (t + 1).
Definition op_ptr (o : hop) : N := match o with OpAdd _ p => p | OpDel p => p end.
(** The additions of a history. *)
Fixpoint adds (os : list hop) : N :=
  match os with [] => 0 | OpAdd _ _ :: os' => 1 + adds os' | OpDel _ :: os' => adds os' end.
