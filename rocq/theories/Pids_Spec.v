(** The thread table as a sequence. *)
Require Import ZArith List Bool.
Require Import Verif.Pids_Model.
Import ListNotations.

Inductive op := Add (v : Z) | Find (v : Z) | Remove (v : Z).
(** What an operation returns: a slot or NULL; removal returns nothing. *)
Fixpoint index_of (v : Z) (l : list Z) : option nat :=
  match l with
  | [] => None
  | x :: l => if (x =? v)%Z then Some O else option_map S (index_of v l)
  end.
Fixpoint remove_first (v : Z) (l : list Z) : list Z :=
  match l with
  | [] => []
  | x :: l => if (x =? v)%Z then l else x :: remove_first v l
  end.
Definition spec_op (max : nat) (l : list Z) (o : op) : list Z * option nat :=
  match o with
  | Add v => if Nat.eqb (length l) max then (l, None) else (l ++ [v], Some (length l))
  | Find v => (l, index_of v l)
  | Remove v => (remove_first v l, None)
  end.
Fixpoint spec_run (max : nat) (l : list Z) (os : list op) : list Z * list (option nat) :=
  match os with
  | [] => (l, [])
  | o :: os => let (l', r) := spec_op max l o in
               let (l'', rs) := spec_run max l' os in (l'', r :: rs)
  end.

Definition do_op (max : nat) (t : table) (o : op) : option (table * option nat) :=
  match o with
  | Add v => add_pid max t v
  | Find v => option_map (fun r => (t, r)) (find_pid t v)
  | Remove v => option_map (fun t' => (t', None)) (remove_pid t v)
  end.
Fixpoint do_run (max : nat) (t : table) (os : list op) : option (table * list (option nat)) :=
  match os with
  | [] => Some (t, [])
  | o :: os =>
      match do_op max t o with
      | None => None
      | Some (t', r) =>
          match do_run max t' os with
          | None => None
          | Some (t'', rs) => Some (t'', r :: rs)
          end
      end
  end.

Definition live (t : table) : list pid := firstn (nr_pids t) (slots t).
Definition holds (max : nat) (t : table) (l : list Z) : Prop :=
  length (slots t) = max /\ nr_pids t = length l /\ map p_pid (live t) = l.
Definition zero_table (max : nat) : table := mk_table (repeat (mk_pid 0 0) max) 0.
(** The counter of a thread in the table *)
Definition fd_of (t : table) (v : Z) : option Z := option_map p_fd (find (fun p => (p_pid p =? v)%Z) (live t)).
