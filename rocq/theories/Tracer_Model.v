(** Model of ptracer/main.c: print_insn and the main loop.  Only the qtrace
    file is written; the ASCII log is not modelled. *)
Require Import NArith ZArith List Bool.
Require Import Verif.Word Verif.Codec_Types Verif.Branch_Model Verif.Writer_Model.
Require Import Verif.Step_Model Verif.Storage_Model.
Require Verif.Pagemap_Model Verif.Pids_Model.
Import ListNotations.
Local Open Scope N_scope.

(* Linux: include/uapi/linux/ptrace.h, arch/powerpc's asm/signal.h *)
Definition PTRACE_EVENT_FORK : N := 1.
Definition PTRACE_EVENT_VFORK : N := 2.
Definition PTRACE_EVENT_CLONE : N := 3.
Definition PTRACE_EVENT_EXIT : N := 6.
Definition SIGILL : N := 4.
Definition SIGTRAP : N := 5.
Definition SIGSTKFLT : N := 16.

(** What waitpid returns, and what the tracer finds when it looks at the
    thread before waiting again.  While the tracer looks no other thread
    changes what it reads. *)
Record event := mk_event {
  e_pid : Z;
  e_stopped : bool;           (** WIFSTOPPED *)
  e_event : N;                (** status >> 16 *)
  e_sig : N;                  (** WSTOPSIG *)
  e_msg : option Z;           (** PTRACE_GETEVENTMSG *)
  e_trace : option bool;      (** PTRACE_GETSIGINFO: whether si_code is TRAP_TRACE *)
  e_going : bool;             (** the thread can be set going again *)
  e_pc : N;
  e_mem : mem;
  e_poke : N -> bool;
  e_run : mem -> mem * stop;  (** what an atomic sequence does *)
  e_gprs : option (N -> N);   (** PTRACE_GETREGS: now, or behind the sequence *)
  e_kernel : N -> bool -> Pagemap_Model.kernel
    (** the kernel's page map when the instruction at an address is reported,
        and its data *)
}.

Inductive request := Cont (pid : Z) (sig : N) | Step (pid : Z) (sig : N) | Detach (pid : Z).

Record tstate := mk_t {
  t_skip : N; t_left : N; t_maps : Pagemap_Model.pstate; t_pids : Pids_Model.table;
  t_done : list request; t_out : list qrec }.
Definition set_skip (s : tstate) (v : N) : tstate := mk_t v (t_left s) (t_maps s) (t_pids s) (t_done s) (t_out s).
Definition set_left (s : tstate) (v : N) : tstate := mk_t (t_skip s) v (t_maps s) (t_pids s) (t_done s) (t_out s).
Definition set_maps (s : tstate) (v : Pagemap_Model.pstate) : tstate :=
  mk_t (t_skip s) (t_left s) v (t_pids s) (t_done s) (t_out s).
Definition set_pids (s : tstate) (v : Pids_Model.table) : tstate :=
  mk_t (t_skip s) (t_left s) (t_maps s) v (t_done s) (t_out s).
Definition asks (s : tstate) (v : list request) : tstate :=
  mk_t (t_skip s) (t_left s) (t_maps s) (t_pids s) (t_done s ++ v) (t_out s).
Definition writes (s : tstate) (q : qrec) : tstate :=
  mk_t (t_skip s) (t_left s) (t_maps s) (t_pids s) (t_done s) (t_out s ++ [q]).

(** How the loop ends: with exit(1) or a failed assertion, with exit(0) and the
    file closed, or it still waits after these events. *)
Inductive tres := TDied (s : tstate) | TClosed (s : tstate) | TWaits (s : tstate).

Section TRACER.
  Variable be : bool.
  Variable max : nat.
  Variable do_xlate : bool.

  (** The translation of an address; [None]: the tracer exits. *)
  Definition xlate (e : event) (s : tstate) (pc ea : N) (iside : bool) : option (tstate * option (N * N)) :=
    if do_xlate then
      match Pagemap_Model.ea_to_pa (e_kernel e pc iside) (t_maps s) ea iside with
      | Pagemap_Model.PExit => None
      | Pagemap_Model.PNone m => Some (set_maps s m, None)
      | Pagemap_Model.PAns m pa pshift => Some (set_maps s m, Some (pa, pshift))
      end
    else Some (s, None).

  Definition have {A} (o : option A) : bool := match o with Some _ => true | None => false end.
  (* ptracer/main.c:263-287: a zeroed record with what is known *)
  Definition fill (insn pc : N) (ira : option (N * N)) (dea : option N) (dra : option (N * N)) : qrec :=
        let f (o : option (N * N)) := match o with Some x => fst x | None => 0 end in
    let g (o : option (N * N)) := match o with Some x => snd x | None => 0 end in
    mk_qrec insn pc (have ira) (f ira) (have ira) (g ira)
      (have dea) (match dea with Some a => a | None => 0 end) (have dra) (f dra) (have dra) (g dra)
      (Branch_Model.is_branch insn) (is_conditional_branch insn)
      false 0 false 0 zero_radix zero_radix.

  (* ptracer/main.c:225-294 with -q; the instruction is read from memory [m].
     qtwriter_write_record is in [tracer] below *)
  Definition print_insn (e : event) (m : mem) (s : tstate) (pc : N) : option tstate :=
    if negb (t_skip s =? 0) then Some (set_skip s (t_skip s - 1))
    else
      match read_insn be m pc with
      | None => None
      | Some insn =>
          if t_left s =? 0 then Some s
          else
            let s := if t_left s =? MINUS1 then s else set_left s (t_left s - 1) in
            match e_gprs e with
            | None => None
            | Some gprs =>
                match xlate e s pc pc true with
                | None => None
                | Some (s, ira) =>
                    match is_storage_insn insn gprs with
                    | SAbort => None
                    | SNo => Some (writes s (fill insn pc ira None None))
                    | SYes addr _ =>
                        match xlate e s pc addr false with
                        | None => None
                        | Some (s, dra) => Some (writes s (fill insn pc ira (Some addr) dra))
                        end
                    end
                end
            end
      end.
  Fixpoint print_insns (e : event) (m : mem) (s : tstate) (l : list N) : option tstate :=
    match l with
    | [] => Some s
    | pc :: l =>
        match print_insn e m s pc with
        | None => None
        | Some s => print_insns e m s l
        end
    end.

  (* ptracer/ptrace.c:250-261 *)
  Definition detach_all_threads (s : tstate) : tstate :=
    asks s (map (fun p => Detach (Pids_Model.p_pid p))
              (firstn (Pids_Model.nr_pids (t_pids s)) (Pids_Model.slots (t_pids s)))).

  Section LOOP.
    Variable tracing_pid : Z.

    (** A request; the tracer exits if it fails. *)
    Definition ask (e : event) (s : tstate) (r : list request) : tres :=
      if e_going e then TWaits (asks s r) else TDied s.

    (* ptracer/main.c:520-563, single_step.c:261, 295 *)
    Definition traced_stop (e : event) (s : tstate) : tres :=
      let pid := e_pid e in
      if e_pc e =? MINUS1 then TDied s
      else
        match read_insn be (e_mem e) (e_pc e) with
        | None => TDied s
        | Some insn =>
            if is_larx insn then
              match step_over_atomic be (e_poke e) (e_run e) true (e_mem e) (e_pc e) with
              | Stepped m pc calls ret =>
                  match print_insns e m (asks s [Cont pid 0]) calls with
                  | None => TDied s
                  | Some s => ask e s [Step pid 0]
                  end
              | _ => TDied s
              end
            else
              match (if e_sig e =? SIGTRAP
                     then option_map (fun t : bool => if t then 0 else e_sig e) (e_trace e)
                     else Some (e_sig e)) with
              | None => TDied s
              | Some sig =>
                  match print_insn e (e_mem e) s (e_pc e) with
                  | None => TDied s
                  | Some s =>
                      if t_left s =? 0 then TClosed (detach_all_threads s)
                      else ask e s [Step pid sig]
                  end
              end
        end.

    (* ptracer/main.c:439-563: one iteration *)
    Definition handle (e : event) (s : tstate) : tres :=
      let pid := e_pid e in
      let go := if (pid =? tracing_pid)%Z then Step pid 0 else Cont pid 0 in
      if negb (e_stopped e) then TDied s
      else if (e_event e =? PTRACE_EVENT_CLONE) || (e_event e =? PTRACE_EVENT_VFORK)
              || (e_event e =? PTRACE_EVENT_FORK) then
        match e_msg e with
        | None => TDied s
        | Some data =>
            match Pids_Model.add_pid max (t_pids s) data with
            | None => TDied s
            | Some (t, _) => ask e (set_pids s t) [go]
            end
        end
      else if e_event e =? PTRACE_EVENT_EXIT then
        match Pids_Model.remove_pid (t_pids s) pid with
        | None => TDied s
        | Some t =>
            let s := set_pids s t in
            if (pid =? tracing_pid)%Z then TClosed s else ask e s [Detach pid]
        end
      else if e_sig e =? SIGSTKFLT then ask e s [go]
      else if negb (pid =? tracing_pid)%Z then
        ask e s [Cont pid (if e_sig e =? SIGILL then 0 else e_sig e)]
      else traced_stop e s.

    (* ptracer/main.c:424-564 *)
    Fixpoint main_loop (s : tstate) (evs : list event) : tres :=
      match evs with
      | [] => TWaits s
      | e :: evs =>
          match handle e s with
          | TWaits s => main_loop s evs
          | r => r
          end
      end.
  End LOOP.

  (** The state behind ptracer/main.c:419 *)
  Definition start (skip left : N) (t : Pids_Model.table) (tracing_pid : Z) : tstate :=
    mk_t skip left Pagemap_Model.init_state t [Step tracing_pid 0] [].

  (* ptracer/main.c:382, 289, 472, 555: opened with magic 0; the tracer writes
     record after record and closes the file.  The file can always be
     extended. *)
  Inductive file_res := FClosed (bytes : list N) | FFailed (e : werr) | FOpen.
  Definition ptracer_file (r : tres) : file_res :=
    match r with
    | TClosed s =>
        match write_trace 0 (t_out s) with
        | inl e => FFailed e
        | inr bytes => FClosed bytes
        end
    | _ => FOpen
    end.
End TRACER.
