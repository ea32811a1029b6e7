(** Model of ptracer/single_step.c and of read_insn and write_insn in
    ptracer/ptrace.c.  The traced program's memory is a partial function from
    the address of an aligned word to its value; instruction addresses are
    aligned (the hardware guarantees it), and the kernel transfers the two
    words at an address and its successor. *)
Require Import NArith ZArith List Bool.
Require Import Verif.Word.
Import ListNotations.
Local Open Scope N_scope.

Definition mem := N -> option N.
Definition upd (m : mem) (a v : N) : mem := fun b => if b =? a then Some v else m b.
Definition MINUS1 : N := 18446744073709551615.

Section HOST.
  (** The tracer was built for a big-endian host. *)
  Variable be : bool.
  (** Which doublewords the kernel lets the tracer write *)
  Variable poke_ok : N -> bool.

  Definition peek (m : mem) (a : N) : option N :=
    match m a, m (a + 4) with
    | Some w0, Some w1 =>
        Some (if be then N.lor (N.shiftl w0 32) w1 else N.lor (N.shiftl w1 32) w0)
    | _, _ => None
    end.
  Definition poke (m : mem) (a d : N) : option mem :=
    if poke_ok a then
      let lo := N.land d 4294967295 in
      let hi := N.shiftr d 32 in
      Some (if be then upd (upd m a hi) (a + 4) lo else upd (upd m a lo) (a + 4) hi)
    else None.

  (** [None]: the tracer has printed an error and exits. *)
  (* ptrace.c:50-74; an error is told from a value by comparing with -1 *)
  Definition read_insn (m : mem) (a : N) : option N :=
    match peek m a with
    | None => None
    | Some d =>
        if d =? MINUS1 then None
        else Some (if be then N.shiftr d 32 else N.land d 4294967295)
    end.
  (* ptrace.c:76-103 *)
  Definition write_insn (m : mem) (a insn : N) : option mem :=
    match peek m a with
    | None => None
    | Some d =>
        if d =? MINUS1 then None
        else poke m a (if be then N.lor (N.land d 4294967295) (N.shiftl insn 32)
                       else N.lor (N.land d 18446744069414584320) insn)
    end.

  (* single_step.c:47-60 *)
  Definition is_larx (insn : N) : bool :=
    let b := N.land insn 0xfc0007fe in
    (b =? 0x7c000068) || (b =? 0x7c0000e8) || (b =? 0x7c000028) || (b =? 0x7c0000A8)
      || (b =? 0x7c000228).
  (* single_step.c:62-74 *)
  Definition is_stcx (insn : N) : bool :=
    let b := N.land insn 0xfc0007ff in
    (b =? 0x7c00056d) || (b =? 0x7c0005ad) || (b =? 0x7c00012d) || (b =? 0x7c0001ad)
      || (b =? 0x7c00016d).
  (* single_step.c:76-84 *)
  Definition is_branch (insn : N) : bool := N.land insn 0xfc000000 =? 0x40000000.
  (* single_step.c:86-98; [immediate] is an int, extended to 64 bits *)
  Definition branch_target (insn addr : N) : N :=
    let immediate := s32 (u32 (N.lxor (N.land insn 0xfffc) 0x8000 + w32 - 0x8000)) in
    if negb (N.land insn 2 =? 0) then z64 immediate
    else add64 addr (z64 immediate).

  (* single_step.c:101-102 *)
  Definition MAX_BREAKPOINTS : nat := 8.
  Definition MAX_LARX_STCX_GAP : nat := 32.
  Definition BREAKPOINT_INSN : N := 0x00b00b00.

  (* single_step.c:205-222: addresses collected so far in order, [None] exits *)
  Fixpoint scan (m : mem) (gap : nat) (p : N) (insn : N) (bs : list N)
    : option (N * N * list N) :=
    match gap with
    | O => Some (p, insn, bs)
    | S gap =>
        match read_insn m p with
        | None => None
        | Some insn =>
            if is_stcx insn then Some (p, insn, bs)
            else if is_branch insn then
              if Nat.eqb (length bs) (MAX_BREAKPOINTS - 1) then None
              else scan m gap (add64 p 4) insn (bs ++ [branch_target insn p])
            else scan m gap (add64 p 4) insn bs
        end
    end.

  (* single_step.c:240-252 *)
  Fixpoint prune (start stop : N) (bs : list N) : list N :=
    match bs with
    | [] => []
    | a :: r =>
        (if (start <=? a) && (a <? stop) then MINUS1
         else fold_left (fun a b => if a =? b then MINUS1 else a) r a) :: prune start stop r
    end.

  (** Breakpoint with the saved instruction, or the memory left when exiting *)
  Inductive ins := InsOk (m : mem) (saved : list (N * N)) | InsExit (m : mem).
  (* single_step.c:109-118, 134-152: insertion of one never reports failure *)
  Fixpoint insert_breakpoints (m : mem) (bs : list N) : ins :=
    match bs with
    | [] => InsOk m []
    | a :: r =>
        if a =? MINUS1 then
          match insert_breakpoints m r with
          | InsOk m' s => InsOk m' ((a, 0) :: s)
          | InsExit m' => InsExit m'
          end
        else
          match read_insn m a with
          | None => InsExit m
          | Some v =>
              match write_insn m a BREAKPOINT_INSN with
              | None => InsExit m
              | Some m1 =>
                  match insert_breakpoints m1 r with
                  | InsOk m' s => InsOk m' ((a, v) :: s)
                  | InsExit m' => InsExit m'
                  end
              end
          end
    end.
  (* single_step.c:120-132, 154-170; [inr]: exited leaving this memory *)
  Fixpoint remove_breakpoints (m : mem) (s : list (N * N)) : mem + mem :=
    match s with
    | [] => inl m
    | (a, v) :: r =>
        if a =? MINUS1 then remove_breakpoints m r
        else
          match read_insn m a with
          | None => inr m
          | Some w =>
              if negb (w =? BREAKPOINT_INSN) then remove_breakpoints m r
              else
                match write_insn m a v with
                | None => inr m
                | Some m' => remove_breakpoints m' r
                end
          end
    end.

  (** What happened to the thread after PTRACE_CONT: stopped by an illegal
      instruction at an address, or anything else. *)
  Inductive stop := Illegal (pc : N) | Other.
  (** How step_over_atomic ends: returned 0 at once; exited before touching
      the program, while inserting, while removing, or after that; or stepped,
      with the addresses given to the callback and the returned value.  The
      memory is what the traced program is left with. *)
  Inductive outcome :=
  | NotLarx (m : mem)
  | ExitEarly (m : mem)
  | ExitInserting (m : mem)
  | ExitRemoving (m : mem)
  | ExitAfter (m : mem)
  | Stepped (m : mem) (pc : N) (calls : list N) (ret : N).

  (* single_step.c:282-288 *)
  Definition calls (start pc : N) : list N :=
    if start <=? pc then
      map (fun k => start + 4 * N.of_nat k) (seq 0 (S (N.to_nat ((pc - start) / 4))))
    else [].
  (** Pointer difference converted to unsigned long *)
  Definition pdiff (a b : N) : N := z64 ((Z.of_N a - Z.of_N b) / 4).

  (* single_step.c:189-305 *)
  Definition step_over_atomic (run : mem -> mem * stop) (fn : bool) (m : mem) (p : N) : outcome :=
    match read_insn m p with
    | None => ExitEarly m
    | Some insn =>
        if negb (is_larx insn) then NotLarx m
        else
          match scan m MAX_LARX_STCX_GAP p insn [] with
          | None => ExitEarly m
          | Some (q, insn, bs) =>
              if negb (is_stcx insn) then ExitEarly m
              else
                let stop := add64 q 4 in
                let bs := prune p stop (bs ++ [stop]) in
                match insert_breakpoints m bs with
                | InsExit m' => ExitInserting m'
                | InsOk m1 saved =>
                    let (m2, st) := run m1 in
                    match remove_breakpoints m2 saved with
                    | inr m' => ExitRemoving m'
                    | inl m' =>
                        match st with
                        | Other => ExitAfter m'
                        | Illegal pc =>
                            if pc =? MINUS1 then ExitAfter m'
                            else if fn then
                              let cs := calls p pc in
                              Stepped m' pc cs (pdiff (p + 4 * N.of_nat (length cs)) pc)
                            else Stepped m' pc [] (pdiff p pc)
                        end
                    end
                end
          end
    end.
End HOST.
