(** Model of ptracer/pids.c.  The array has MAX_PIDS slots; slots behind
    nr_pids keep old values.  An access outside of the array would be
    undefined and is an outcome. *)
Require Import NArith ZArith List Bool.
Import ListNotations.

(* pids.h:9-14; perf_fd belongs to the fast-forward code *)
Record pid := mk_pid { p_pid : Z; p_fd : Z }.
Section PIDS.
  (* pids.h:7: 30000 *)
  Variable MAX_PIDS : nat.
  (** The array and nr_pids *)
  Record table := mk_table { slots : list pid; nr_pids : nat }.

  Definition set_nth (l : list pid) (i : nat) (v : pid) : list pid :=
    firstn i l ++ v :: skipn (S i) l.

  (** Result of add_pid: NULL, or the slot; out of bounds is [None]. *)
  (* pids.c:20-33; p->pid is assigned, perf_fd keeps its value *)
  Definition add_pid (t : table) (v : Z) : option (table * option nat) :=
    if Nat.eqb (nr_pids t) MAX_PIDS then Some (t, None)
    else
      match nth_error (slots t) (nr_pids t) with
      | None => None
      | Some old =>
          Some (mk_table (set_nth (slots t) (nr_pids t) (mk_pid v (p_fd old))) (S (nr_pids t)),
                Some (nr_pids t))
      end.
  (* pids.c:39-42, 56-59 *)
  Fixpoint search (l : list pid) (n i : nat) (v : Z) : option nat :=
    match n with
    | O => Some i
    | S n =>
        match nth_error l i with
        | None => None
        | Some p => if (p_pid p =? v)%Z then Some i else search l n (S i) v
        end
    end.
  (* pids.c:35-50 *)
  Definition find_pid (t : table) (v : Z) : option (option nat) :=
    match search (slots t) (nr_pids t) 0 v with
    | None => None
    | Some i => Some (if Nat.eqb i (nr_pids t) then None else Some i)
    end.
  (* pids.c:66-67 *)
  Fixpoint shift (l : list pid) (n i : nat) : option (list pid) :=
    match n with
    | O => Some l
    | S n =>
        match nth_error l (S i) with
        | None => None
        | Some p => shift (set_nth l i p) n (S i)
        end
    end.
  (* pids.c:52-70 *)
  Definition remove_pid (t : table) (v : Z) : option table :=
    match search (slots t) (nr_pids t) 0 v with
    | None => None
    | Some i =>
        if Nat.eqb i (nr_pids t) then Some t
        else
          match shift (slots t) (nr_pids t - 1 - i) i with
          | None => None
          | Some l => Some (mk_table l (nr_pids t - 1))
          end
    end.
  (* ptrace.c:183-187, the table as filled from /proc: adding first, then
     failing when the table has become full *)
  Definition capture_pid (t : table) (v : Z) : option (table * bool) :=
    match nth_error (slots t) (nr_pids t) with
    | None => None
    | Some old =>
        let t' := mk_table (set_nth (slots t) (nr_pids t) (mk_pid v (p_fd old))) (S (nr_pids t)) in
        Some (t', Nat.ltb (nr_pids t') MAX_PIDS)
    end.
End PIDS.
