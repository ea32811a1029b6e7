(** Model of ptracer/ptrace.c: taking hold of the threads of a process, starting a
    program, and access to instructions. *)
Require Import Arith NArith List Bool.
Import ListNotations.
Local Open Scope N_scope.

(** ** Calls to the system *)
(** What is asked for.  Process ids are their values as unsigned long. *)
Inductive call :=
| Fork | Seize (p : N) | Kill (p sig : N) | Wait (p : N) | Cont (p sig : N) | Interrupt (p : N) | OpenTasks (p : N).
(** What happens: success, the child's id, failure, a wait interrupted by a signal,
    the status of a wait, and the names in the directory.  waitpid's -1 with another
    errno is [Fail]. *)
Inductive resp := Ok | Child (p : N) | Fail | Intr | Status (s : N) | Names (l : list (list N)).
Definition event : Type := call * resp.
(** How a function ends: it returns with the system's further answers, the tracer
    exits with status 1, an array is written out of bounds, or it is still waiting
    for an answer. *)
Inductive res (A : Type) := Ret (a : A) (e : list resp) | Exit | Oob | Waiting.
Arguments Ret {A}. Arguments Exit {A}. Arguments Oob {A}. Arguments Waiting {A}.
Definition run (A : Type) : Type := list event * res A.
Definition prog (A : Type) : Type := list resp -> run A.
Definition ret {A} (a : A) : prog A := fun e => ([], Ret a e).
Definition exit1 {A} : prog A := fun _ => ([], Exit).
Definition oob {A} : prog A := fun _ => ([], Oob).
Definition bind {A B} (m : prog A) (f : A -> prog B) : prog B :=
  fun e => match m e with
           | (l, Ret a e') => let (l', r) := f a e' in (l ++ l', r)
           | (l, Exit) => (l, Exit) | (l, Oob) => (l, Oob) | (l, Waiting) => (l, Waiting)
           end.
Notation "'do' x '<-' m 'in' f" := (bind m (fun x => f)) (at level 200, x binder, m at level 100, f at level 200).
Definition sys (c : call) : prog resp :=
  fun e => match e with [] => ([], Waiting) | r :: e' => ([(c, r)], Ret r e') end.
(** A call whose failure ends the tracer *)
Definition must (c : call) : prog unit := do r <- sys c in match r with Fail => exit1 | _ => ret tt end.

(* sys/wait.h and linux/ptrace.h *)
Definition stopped (s : N) : bool := N.land s 0xff =? 0x7f.
Definition stopsig (s : N) : N := N.shiftr (N.land s 0xff00) 8.
Definition SIGKILL : N := 9.
Definition SIGTRAP : N := 5.
Definition SIGCONT : N := 18.
Definition SIGSTOP : N := 19.
Definition EVENT_EXEC : N := 4.
Definition EVENT_STOP : N := 128.
(** status >> 16 of an int; statuses with the sign set are no event either way *)
Definition event_of (s : N) : N := N.shiftr s 16.

(* ptrace.c:103-134.  The loop takes the answers one after another. *)
Fixpoint wait_for_group_stop (p : N) (e : list resp) : run unit :=
  match e with
  | [] => ([], Waiting)
  | r :: e1 =>
      match r with
      | Intr => let (l, x) := wait_for_group_stop p e1 in ((Wait p, r) :: l, x)
      | Status s =>
          if negb (stopped s) then let (l, x) := wait_for_group_stop p e1 in ((Wait p, r) :: l, x)
          else if event_of s =? EVENT_STOP then ([(Wait p, r)], Ret tt e1)
          else
            match e1 with
            | [] => ([(Wait p, r)], Waiting)
            | r2 :: e2 =>
                match r2 with
                | Fail => ([(Wait p, r); (Cont p (stopsig s), r2)], Exit)
                | _ => let (l, x) := wait_for_group_stop p e2 in ((Wait p, r) :: (Cont p (stopsig s), r2) :: l, x)
                end
            end
      | _ => ([(Wait p, r)], Exit)
      end
  end.

(** ** Thread ids from the names of a directory *)
Definition isdigit (c : N) : bool := (48 <=? c) && (c <=? 57).
(** strtoul(name, &end, 10) of a name beginning with a digit: value and rest; with
    ERANGE, [None] *)
Definition ULONG_MAX : N := 0xffffffffffffffff.
Fixpoint strtoul (acc : N) (s : list N) : N * list N :=
  match s with
  | [] => (acc, [])
  | c :: s' => if isdigit c then strtoul (acc * 10 + (c - 48)) s' else (acc, s)
  end.
(* ptrace.c:173-181: skipped, not a number, or a number *)
Inductive tname := Skip | Bad | Tid (p : N).
Definition task_name (s : list N) : tname :=
  match s with
  | [] => Skip
  | c :: _ =>
      if negb (isdigit c) then Skip
      else let (v, rest) := strtoul 0 s in
           if ULONG_MAX <? v then Bad else match rest with [] => Tid v | _ => Bad end
  end.

Section Capture.
  (* pids.h:7: 30000 *)
  Variable MAX_PIDS : nat.
  (* ptrace.c:169-188; pids[] is the list of its used entries *)
  Fixpoint add_tasks (pids : list N) (names : list (list N)) : prog (list N) :=
    match names with
    | [] => ret pids
    | s :: names' =>
        match task_name s with
        | Skip => add_tasks pids names'
        | Bad => exit1
        | Tid p =>
            if (MAX_PIDS <=? length pids)%nat then oob
            else let pids := pids ++ [p] in
                 if (MAX_PIDS <=? length pids)%nat then exit1 else add_tasks pids names'
        end
    end.
  Fixpoint for_all (f : N -> prog unit) (l : list N) : prog unit :=
    match l with [] => ret tt | p :: l' => do _ <- f p in for_all f l' end.
  (* ptrace.c:136-234; the result is pids[] *)
  Definition capture_all_threads (pids : list N) (pid : N) : prog (list N) :=
    do _ <- must (Seize pid) in
    do _ <- must (Kill pid SIGSTOP) in
    do _ <- wait_for_group_stop pid in
    do r <- sys (OpenTasks pid) in
    match r with
    | Names names =>
        do pids <- add_tasks pids names in
        do _ <- for_all (fun p => if p =? pid then ret tt else must (Seize p)) pids in
        do _ <- for_all (fun p => if p =? pid then ret tt else wait_for_group_stop p) pids in
        do _ <- for_all (fun p => must (Interrupt p)) pids in
        do _ <- must (Kill pid SIGCONT) in
        ret pids
    | _ => exit1
    end.
  (* ptrace.c:236-248 *)
  Definition release_all_non_tracing_threads (pids : list N) (tracing : N) : prog unit :=
    for_all (fun p => if p =? tracing then ret tt else do _ <- sys (Cont p 0) in ret tt) pids.

  (* ptrace.c:342-344 *)
  Definition err_parent {A} (c : N) : prog A := do _ <- sys (Kill c SIGKILL) in exit1.
  (* ptrace.c:288-293, 307-312, 324-329 *)
  Fixpoint wait_child (c : N) (e : list resp) : run N :=
    match e with
    | [] => ([], Waiting)
    | r :: e1 =>
        match r with
        | Intr => let (l, x) := wait_child c e1 in ((Wait c, r) :: l, x)
        | Status s => ([(Wait c, r)], Ret s e1)
        | _ => let (l, x) := err_parent c e1 in ((Wait c, r) :: l, x)
        end
    end.
  (* ptrace.c:263-345, the parent *)
  Definition do_exec (pids : list N) : prog (list N * N) :=
    do r <- sys Fork in
    match r with
    | Child c =>
        do s <- wait_child c in
        if negb (stopped s) || negb (stopsig s =? SIGSTOP) then err_parent c
        else
          do r <- sys (Seize c) in
          match r with
          | Fail => err_parent c
          | _ =>
              do s <- wait_child c in
              if (negb (stopped s) || negb (stopsig s =? SIGSTOP)) || negb (event_of s =? EVENT_STOP) then err_parent c
              else
                do _ <- sys (Cont c 0) in
                do s <- wait_child c in
                if (negb (stopped s) || negb (stopsig s =? SIGTRAP)) || negb (event_of s =? EVENT_EXEC) then err_parent c
                else if (MAX_PIDS <=? length pids)%nat then oob
                else ret (pids ++ [c], c)
          end
    | _ => exit1
    end.
End Capture.

(** ** Instructions in the memory of the process *)
(** Bytes at addresses; [None] is not mapped.  A word of eight bytes as long, in
    the byte order of the host. *)
Definition memory := N -> option N.
Definition offsets : list N := [0; 1; 2; 3; 4; 5; 6; 7].
Fixpoint collect (m : memory) (a : N) (os : list N) : option (list N) :=
  match os with
  | [] => Some []
  | o :: os' => match m (a + o), collect m a os' with Some b, Some l => Some (b :: l) | _, _ => None end
  end.
Fixpoint le_value (l : list N) : N := match l with [] => 0 | b :: l' => b + 256 * le_value l' end.
Definition value (big : bool) (l : list N) : N := le_value (if big then rev l else l).
Fixpoint le_bytes (n : nat) (v : N) : list N := match n with O => [] | S n' => v mod 256 :: le_bytes n' (v / 256) end.
Definition bytes (big : bool) (v : N) : list N := if big then rev (le_bytes 8 v) else le_bytes 8 v.
(** ptrace(PTRACE_PEEKDATA) and ptrace(PTRACE_POKEDATA); -1 stands for failure *)
Definition MINUS1 : N := 0xffffffffffffffff.
Definition peekdata (big : bool) (m : memory) (a : N) : N :=
  match collect m a offsets with Some l => value big l | None => MINUS1 end.
Fixpoint put (m : memory) (a : N) (l : list N) : memory :=
  match l with [] => m | b :: l' => put (fun q => if q =? a then Some b else m q) (a + 1) l' end.
Definition pokedata (big : bool) (m : memory) (a v : N) : option memory :=
  match collect m a offsets with Some _ => Some (put m a (bytes big v)) | None => None end.
(* ptrace.c:50-74; [None] is exit *)
Definition read_insn (big : bool) (m : memory) (pc : N) : option N :=
  let data := peekdata big m pc in
  if data =? MINUS1 then None
  else Some (if big then N.shiftr data 32 else N.land data 0xffffffff).
(* ptrace.c:76-101 *)
Definition write_insn (big : bool) (m : memory) (pc insn : N) : option memory :=
  let data := peekdata big m pc in
  if data =? MINUS1 then None
  else pokedata big m pc (if big then N.lor (N.land data 0xffffffff) (N.shiftl insn 32)
                          else N.lor (N.land data 0xffffffff00000000) insn).
(* ptrace.c:32-48: the register, or exit *)
Definition read_pc (nip : option N) : option N :=
  match nip with Some v => if v =? MINUS1 then None else Some v | None => None end.
