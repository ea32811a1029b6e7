(** Threads and their counters while a program is fast-forwarded. *)
Require Import NArith ZArith List Bool.
Require Import Verif.Word Verif.Pids_Spec Verif.Tracer_Model Verif.Forward_Model.
Import ListNotations.
Local Open Scope N_scope.

(** Threads with the descriptors of their counters *)
Definition counters := list (Z * Z).
Fixpoint without (v : Z) (l : counters) : counters :=
  match l with [] => [] | x :: l => if (fst x =? v)%Z then l else x :: without v l end.
Fixpoint counter_of (v : Z) (l : counters) : option Z :=
  match l with [] => None | x :: l => if (fst x =? v)%Z then Some (snd x) else counter_of v l end.

Definition fbirth (e : fevent) : bool := existsb (N.eqb (f_event e)) [1; 2; 3].
Definition fdeath (e : fevent) : bool := f_event e =? 6.
(** The signal of a counter *)
Definition overflow (e : fevent) : bool := negb (fbirth e) && negb (fdeath e) && (f_sig e =? 16).

(** Events that the tracer can handle: there is room for a new thread, and an
    ending thread is known. *)
Definition event_ok (max : nat) (l : counters) (e : fevent) : Prop :=
  f_stopped e = true /\ f_going e = true /\ overflow e = false
  /\ (fbirth e = true -> (length l < max)%nat /\ f_fd e <> None)
  /\ (fbirth e = false -> fdeath e = true -> counter_of (f_pid e) l <> None).
Definition after (l : counters) (e : fevent) : counters :=
  if fbirth e then match f_fd e with Some fd => l ++ [(f_msg e, fd)] | None => l end
  else if fdeath e then without (f_pid e) l
  else l.
Definition actions (period : N) (l : counters) (e : fevent) : list action :=
  if fbirth e then match f_fd e with Some fd => [Open (f_msg e) period fd; Go (f_pid e) 0] | None => [] end
  else if fdeath e then match counter_of (f_pid e) l with Some fd => [Close fd; Leave (f_pid e)] | None => [] end
  else [Go (f_pid e) (if f_sig e =? 5 then 0 else f_sig e)].
Fixpoint events_ok (max : nat) (l : counters) (evs : list fevent) : Prop :=
  match evs with [] => True | e :: evs => event_ok max l e /\ events_ok max (after l e) evs end.
Fixpoint all_actions (period : N) (l : counters) (evs : list fevent) : list action :=
  match evs with [] => [] | e :: evs => actions period l e ++ all_actions period (after l e) evs end.
Definition at_end (l : counters) (evs : list fevent) : counters := fold_left after evs l.

(** The threads there are at the start with their counters *)
Definition given (ids : list Z) (fds : nat -> option Z) : counters :=
  combine ids (map (fun i => match fds i with Some fd => fd | None => 0%Z end) (seq 0 (length ids))).

Definition opened (a : list action) : list Z :=
  flat_map (fun x => match x with Open _ _ fd => [fd] | _ => [] end) a.
Definition closed (a : list action) : list Z :=
  flat_map (fun x => match x with Close fd => [fd] | _ => [] end) a.
Definition periods (a : list action) : list N :=
  flat_map (fun x => match x with Open _ p _ => [p] | _ => [] end) a.
