(** Model of ptracer/main.c with any of -a, -q and -r: print_insn and the main
    loop writing both logs.  The loop is that of Tracer_Model. *)
Require Import NArith ZArith List Bool.
Require Import Verif.Word Verif.Codec_Types Verif.Branch_Model.
Require Import Verif.Step_Model Verif.Storage_Model Verif.Tracer_Model.
Require Verif.Pids_Model Verif.Regs_Model.
Import ListNotations.
Local Open Scope N_scope.

(** The tracer with the registers printed last and the ASCII log. *)
Record both := mk_both { b_t : tstate; b_prev : Regs_Model.state; b_log : list Regs_Model.item }.
Definition on (f : tstate -> tstate) (s : both) : both := mk_both (f (b_t s)) (b_prev s) (b_log s).
Inductive bres := BDied (s : both) | BClosed (s : both) | BWaits (s : both).

Section BOTH.
  Variable be : bool.
  Variable max : nat.
  Variable do_xlate : bool.
  Variable ascii qtrace dump : bool.     (* -a, -q, -r *)
  (** What the kernel answers to PTRACE_GETREGS, GETVRREGS and so on when an
      instruction is reported. *)
  Variable ans : event -> N -> option Regs_Model.answer.

  (* ptracer/main.c:252-292: the qtrace record *)
  Definition record (e : event) (s : tstate) (pc insn : N) : option tstate :=
    match e_gprs e with
    | None => None
    | Some gprs =>
        match xlate do_xlate e s pc pc true with
        | None => None
        | Some (s, ira) =>
            match is_storage_insn insn gprs with
            | SAbort => None
            | SNo => Some (writes s (fill insn pc ira None None))
            | SYes addr _ =>
                match xlate do_xlate e s pc addr false with
                | None => None
                | Some (s, dra) => Some (writes s (fill insn pc ira (Some addr) dra))
                end
            end
        end
    end.
  (* ptracer/main.c:245-250: registers that changed, and the instruction *)
  Definition describe (e : event) (pc insn : N) (prev : Regs_Model.state) (log : list Regs_Model.item)
      : option (Regs_Model.state * list Regs_Model.item) :=
    if dump then
      match ans e pc with
      | None => None
      | Some a =>
          let cur := Regs_Model.get_state (negb be) a in
          Some (cur, log ++ List.map Regs_Model.IReg (Regs_Model.print_state (negb be) prev cur)
                         ++ [Regs_Model.IInsn pc insn])
      end
    else Some (prev, log ++ [Regs_Model.IInsn pc insn]).
  (* ptracer/main.c:225-294 *)
  Definition print_both (e : event) (m : mem) (s : both) (pc : N) : option both :=
    let t := b_t s in
    if negb (t_skip t =? 0) then Some (on (fun t => set_skip t (t_skip t - 1)) s)
    else
      match read_insn be m pc with
      | None => None
      | Some insn =>
          if t_left t =? 0 then Some s
          else
            let t := if t_left t =? MINUS1 then t else set_left t (t_left t - 1) in
            match (if ascii then describe e pc insn (b_prev s) (b_log s) else Some (b_prev s, b_log s)) with
            | None => None
            | Some (prev, log) =>
                match (if qtrace then record e t pc insn else Some t) with
                | None => None
                | Some t => Some (mk_both t prev log)
                end
            end
      end.
  Fixpoint print_boths (e : event) (m : mem) (s : both) (l : list N) : option both :=
    match l with
    | [] => Some s
    | pc :: l =>
        match print_both e m s pc with
        | None => None
        | Some s => print_boths e m s l
        end
    end.

  Variable tracing_pid : Z.
  Definition bask (e : event) (s : both) (r : list request) : bres :=
    if e_going e then BWaits (on (fun t => asks t r) s) else BDied s.
  (* ptracer/main.c:520-563 *)
  Definition bstop (e : event) (s : both) : bres :=
    let pid := e_pid e in
    if e_pc e =? MINUS1 then BDied s
    else
      match read_insn be (e_mem e) (e_pc e) with
      | None => BDied s
      | Some insn =>
          if is_larx insn then
            match step_over_atomic be (e_poke e) (e_run e) true (e_mem e) (e_pc e) with
            | Stepped m pc calls ret =>
                match print_boths e m (on (fun t => asks t [Cont pid 0]) s) calls with
                | None => BDied s
                | Some s => bask e s [Step pid 0]
                end
            | _ => BDied s
            end
          else
            match (if e_sig e =? SIGTRAP
                   then option_map (fun t : bool => if t then 0 else e_sig e) (e_trace e)
                   else Some (e_sig e)) with
            | None => BDied s
            | Some sig =>
                match print_both e (e_mem e) s (e_pc e) with
                | None => BDied s
                | Some s =>
                    if t_left (b_t s) =? 0 then BClosed (on detach_all_threads s)
                    else bask e s [Step pid sig]
                end
            end
      end.
  (* ptracer/main.c:439-563: one iteration *)
  Definition bhandle (e : event) (s : both) : bres :=
    let pid := e_pid e in
    let go := if (pid =? tracing_pid)%Z then Step pid 0 else Cont pid 0 in
    if negb (e_stopped e) then BDied s
    else if (e_event e =? PTRACE_EVENT_CLONE) || (e_event e =? PTRACE_EVENT_VFORK)
            || (e_event e =? PTRACE_EVENT_FORK) then
      match e_msg e with
      | None => BDied s
      | Some data =>
          match Pids_Model.add_pid max (t_pids (b_t s)) data with
          | None => BDied s
          | Some (t, _) => bask e (on (fun s => set_pids s t) s) [go]
          end
      end
    else if e_event e =? PTRACE_EVENT_EXIT then
      match Pids_Model.remove_pid (t_pids (b_t s)) pid with
      | None => BDied s
      | Some t =>
          let s := on (fun s => set_pids s t) s in
          if (pid =? tracing_pid)%Z then BClosed s else bask e s [Detach pid]
      end
    else if e_sig e =? SIGSTKFLT then bask e s [go]
    else if negb (pid =? tracing_pid)%Z then
      bask e s [Cont pid (if e_sig e =? SIGILL then 0 else e_sig e)]
    else bstop e s.
  (* ptracer/main.c:424-564 *)
  Fixpoint bloop (s : both) (evs : list event) : bres :=
    match evs with
    | [] => BWaits s
    | e :: evs =>
        match bhandle e s with
        | BWaits s => bloop s evs
        | r => r
        end
    end.
  (** The state behind ptracer/main.c:419 *)
  Definition bstart (skip left : N) (t : Pids_Model.table) : both :=
    mk_both (start skip left t tracing_pid) Regs_Model.zero_state [].
End BOTH.
