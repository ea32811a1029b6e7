(** Model of ptracer/perf_events.c: fast_forward. *)
Require Import NArith ZArith List Bool.
Require Import Verif.Word Verif.Pids_Model Verif.Tracer_Model.
Import ListNotations.
Local Open Scope N_scope.

(* perf_events.c:114 *)
Definition SLACK : N := 200.

(** What waitpid returns. *)
Record fevent := mk_fe {
  f_pid : Z;
  f_stopped : bool;
  f_event : N;
  f_sig : N;
  f_msg : Z;          (** PTRACE_GETEVENTMSG; a failure is not noticed *)
  f_fd : option Z;    (** the counter for a new thread, if it can be made *)
  f_going : bool      (** PTRACE_CONT or PTRACE_DETACH succeeds *)
}.

(** Counters made and closed; threads continued and detached. *)
Inductive action := Open (pid : Z) (period : N) (fd : Z) | Close (fd : Z) | Go (pid : Z) (sig : N) | Leave (pid : Z).

(** exit(1); a null pointer is used; outside of the array; still waiting; or
    returned the thread and the number of instructions left to skip. *)
Inductive fres :=
| FDied | FNull | FBounds | FWaits (t : table) (a : list action)
| FDone (t : table) (a : list action) (pid : Z) (skip : N).

Section FORWARD.
  Variable max : nat.

  (* perf_events.c:63-98: the descriptor is stored in the slot.  The calls that
     set the counter up do not fail once it is open. *)
  Definition setup_insn_counter (t : table) (i : nat) (period : N) (fd : option Z) : option (option (table * action)) :=
    match nth_error (slots t) i with
    | None => None
    | Some p =>
        Some (match fd with
              | None => None
              | Some fd => Some (mk_table (set_nth (slots t) i (mk_pid (p_pid p) fd)) (nr_pids t),
                                 Open (p_pid p) period fd)
              end)
    end.
  (* perf_events.c:128-129 *)
  Fixpoint setup_all (t : table) (i n : nat) (period : N) (fds : nat -> option Z) (a : list action) : fres :=
    match n with
    | O => FWaits t a
    | S n =>
        match setup_insn_counter t i period (fds i) with
        | None => FBounds
        | Some None => FDied
        | Some (Some (t, x)) => setup_all t (S i) n period fds (a ++ [x])
        end
    end.
  Definition live_of (t : table) : list pid := firstn (nr_pids t) (slots t).

  (* perf_events.c:151-208; perf_events.c:190 is never true: WSTOPSIG is
     applied to 0 or 1 *)
  Definition forward_event (period : N) (t : table) (a : list action) (e : fevent) : fres :=
    if negb (f_stopped e) then FDied
    else if (f_event e =? PTRACE_EVENT_CLONE) || (f_event e =? PTRACE_EVENT_VFORK)
            || (f_event e =? PTRACE_EVENT_FORK) then
      match add_pid max t (f_msg e) with
      | None => FBounds
      | Some (_, None) => FNull
      | Some (t, Some i) =>
          match setup_insn_counter t i period (f_fd e) with
          | None => FBounds
          | Some None => FDied
          | Some (Some (t, x)) =>
              if f_going e then FWaits t (a ++ [x; Go (f_pid e) 0]) else FDied
          end
      end
    else if f_event e =? PTRACE_EVENT_EXIT then
      match find_pid t (f_pid e) with
      | None => FBounds
      | Some None => FNull
      | Some (Some i) =>
          match nth_error (slots t) i, remove_pid t (f_pid e) with
          | Some p, Some t => if f_going e then FWaits t (a ++ [Close (p_fd p); Leave (f_pid e)]) else FDied
          | _, _ => FBounds
          end
      end
    else
      let sig := if f_sig e =? SIGTRAP then 0 else f_sig e in
      if f_going e then FWaits t (a ++ [Go (f_pid e) sig]) else FDied.
  Definition stray (e : fevent) : bool :=
    f_stopped e
    && negb ((f_event e =? PTRACE_EVENT_CLONE) || (f_event e =? PTRACE_EVENT_VFORK) || (f_event e =? PTRACE_EVENT_FORK))
    && negb (f_event e =? PTRACE_EVENT_EXIT) && (f_sig e =? SIGSTKFLT).

  (* perf_events.c:139-230; [count] is what reading the counter of the thread
     stores *)
  Fixpoint forward_loop (nr_insns count : N) (t : table) (a : list action) (evs : list fevent) : fres :=
    match evs with
    | [] => FWaits t a
    | e :: evs =>
        if stray e then
          match find_pid t (f_pid e) with
          | None => FBounds
          | Some None => FNull
          | Some (Some i) =>
              FDone t (a ++ map (fun p => Close (p_fd p)) (live_of t)) (f_pid e)
                (if nr_insns <? count then 0 else nr_insns - count)
          end
        else
          match forward_event (sub64 nr_insns SLACK) t a e with
          | FWaits t a => forward_loop nr_insns count t a evs
          | r => r
          end
    end.

  (* perf_events.c:120-231; continuing the threads at the start succeeds *)
  Definition fast_forward (nr_insns : N) (t : table) (fds : nat -> option Z) (count : N) (evs : list fevent) : fres :=
    match setup_all t 0 (nr_pids t) (sub64 nr_insns SLACK) fds [] with
    | FWaits t a => forward_loop nr_insns count t (a ++ map (fun p => Go (p_pid p) 0) (live_of t)) evs
    | r => r
    end.
End FORWARD.
