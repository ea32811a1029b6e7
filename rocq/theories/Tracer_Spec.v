(** What a traced thread does, what is recorded of it and how threads are set
    going again. *)
Require Import NArith ZArith List Bool.
Require Import Verif.Branch_Spec Verif.Storage_Model Verif.Storage_Spec Verif.Step_Model Verif.Step_Spec.
Require Import Verif.Pagemap_Model Verif.Pagemap_Spec Verif.Pids_Spec Verif.Convert_Spec Verif.Tracer_Model.
Import ListNotations.
Local Open Scope N_scope.

(** ** Events *)
(** A thread was born; a thread ended; a thread got the signal of the counters;
    a signal for another thread; the traced thread stopped, and goes on with
    this signal; it stopped at an atomic sequence, which it left for this
    address. *)
Inductive kind :=
| Born (child : Z) | Gone | Stray | Signal | Single (sig : N) | Atomic (to : N).

Definition birth (e : event) : Prop := In (e_event e) [1; 2; 3].
Definition plain (e : event) : Prop := ~ birth e /\ e_event e <> 6.
Definition halts (tp : Z) (e : event) : Prop := plain e /\ e_sig e <> 16 /\ e_pid e = tp.

(** The tracer can read the instruction at an address, the registers, and the
    page maps for the instruction and its data.  The instruction is not one of
    those it gives up on. *)
Definition page_readable (k : kernel) (ea : N) : Prop :=
  exists v, pagemap_at k (ea / 2 ^ 16) = Some v
    /\ (bit v 63 = true -> kpageflags_at k (v mod 2 ^ 48) <> None).
Definition word_at (e : event) (a : N) : N := match e_mem e a with Some w => w | None => 0 end.
Definition regs_of (e : event) : N -> N := match e_gprs e with Some g => g | None => fun _ => 0 end.
Definition data_of (w : N) (g : N -> N) : option N :=
  match isa_answer w g with SYes a _ => Some a | _ => None end.
Definition reportable (xl : bool) (e : event) (a : N) : Prop :=
  a < 2 ^ 64 /\ fetchable (e_mem e) a
  /\ isa_answer (word_at e a) (regs_of e) <> SAbort
  /\ (xl = true -> page_readable (e_kernel e a true) a)
  /\ forall d, xl = true -> data_of (word_at e a) (regs_of e) = Some d -> page_readable (e_kernel e a false) d.
Definition registers (e : event) : Prop := exists g, e_gprs e = Some g /\ forall r, g r < 2 ^ 64.

(** Every word from [p] to [to] *)
Definition spanned (p to : N) : list N :=
  if to <? p then []
  else List.map (fun k => p + 4 * N.of_nat k) (List.seq 0 (S (N.to_nat ((to - p) / 4)))).

(** The thread executes the sequence at its address and meets the breakpoint at
    [to]; nobody else hits or removes one, and the words reported stay. *)
Definition leaves_for (e : event) (to : N) : Prop :=
  let m := e_mem e in let p := e_pc e in
  exists n, sequence m p n /\ (n < 32)%nat /\ (count_bform m p n <= 7)%nat
  /\ (forall k, (k <= n)%nat -> fetchable m (p + 4 * N.of_nat k))
  /\ (forall x, exit_point m p n x -> fetchable m x /\ e_poke e x = true)
  /\ (forall m1, words m1 -> words (fst (e_run e m1)))
  /\ forall m1, with_breakpoints m (exit_point m p n) m1 ->
       snd (e_run e m1) = Illegal to
       /\ (forall x, exit_point m p n x ->
             fst (e_run e m1) x = Some BREAKPOINT_INSN /\ fst (e_run e m1) (x + 4) <> None)
       /\ forall a, p <= a <= to + 4 -> fst (e_run e m1) a = m1 a.

Definition is_kind (xl : bool) (tp : Z) (e : event) (k : kind) : Prop :=
  e_stopped e = true /\ e_going e = true /\
  match k with
  | Born c => birth e /\ e_msg e = Some c
  | Gone => e_event e = 6
  | Stray => plain e /\ e_sig e = 16
  | Signal => plain e /\ e_sig e <> 16 /\ e_pid e <> tp
  | Single sig =>
      halts tp e /\ words (e_mem e) /\ registers e /\ reportable xl e (e_pc e) /\ e_pc e <> MINUS1
      /\ ~ larx (word_at e (e_pc e))
      /\ (if e_sig e =? 5 then exists t : bool, e_trace e = Some t /\ sig = (if t then 0 else 5)
          else sig = e_sig e)
  | Atomic to =>
      halts tp e /\ words (e_mem e) /\ registers e /\ leaves_for e to
      /\ e_pc e mod 4 = 0 /\ e_pc e < MAXP /\ to < 2 ^ 64 - 4
      /\ Forall (reportable xl e) (spanned (e_pc e) to)
  end.

(** ** What is recorded *)
Record seen := mk_seen { s_addr : N; s_word : N; s_gprs : N -> N; s_kernel : bool -> kernel }.
Definition reports (x : event * kind) : list N :=
  match snd x with Single _ => [e_pc (fst x)] | Atomic to => spanned (e_pc (fst x)) to | _ => [] end.
Definition saw (x : event * kind) : list seen :=
  List.map (fun a => mk_seen a (word_at (fst x) a) (regs_of (fst x)) (e_kernel (fst x) a)) (reports x).

(** -n left instructions behind -s skip; no limit is 2^64-1. *)
Definition unlimited (left : N) : bool := left =? 18446744073709551615.
Definition wanted {A} (skip left : N) (l : list A) : list A :=
  let l' := skipn (N.to_nat skip) l in
  if unlimited left then l' else firstn (N.to_nat left) l'.
(** Enough is recorded. *)
Definition full (skip left n : N) : bool :=
  negb (unlimited left) && ((left =? 0) || (skip + left <=? n)).
(** The events up to the one at which the tracer ends, if it does: the end of
    the traced thread, or a stop outside of an atomic sequence with enough
    recorded. *)
Definition over (tp : Z) (skip left n : N) (x : event * kind) : bool :=
  match snd x with
  | Gone => (e_pid (fst x) =? tp)%Z
  | Single _ => full skip left n
  | _ => false
  end.
Fixpoint session (tp : Z) (skip left n : N) (l : list (event * kind)) : list (event * kind) * bool :=
  match l with
  | [] => ([], false)
  | x :: l =>
      let n := n + N.of_nat (length (reports x)) in
      if over tp skip left n x then ([x], true)
      else let (p, c) := session tp skip left n l in (x :: p, c)
  end.

(** A translation: what the kernel says now, or less than the interval ago; see
    C45. *)
Definition answered (h : list acc) (a : acc) (o : option (N * N)) : Prop :=
  match o with
  | Some (pa, sh) =>
      asked (a_kernel a) (a_ea a) = Some (pa, sh)
      \/ recent h (interval a) (a_ea a) pa sh
      \/ (a_ea a < 2 ^ sh /\ pa = 0 /\ N.of_nat (S (length h)) < interval a)
  | None => asked (a_kernel a) (a_ea a) = None
  end.
(** What is known of an instruction, behind a history of translations. *)
Definition says (xl : bool) (h : list acc) (s : seen) (g : given) (h' : list acc) : Prop :=
  let d := data_of (s_word s) (s_gprs s) in
  g_insn g = s_word s /\ g_addr g = s_addr s /\ g_dea g = d
  /\ g_branch g = Some (isa_bo_branch (s_word s) \/ isa_always_branch (s_word s))
  /\ g_gips g = None /\ g_gdps g = None /\ g_iwalk g = None /\ g_dwalk g = None
  /\ if xl then
       let i := mk_acc (s_addr s) true (s_kernel s true) in
       answered h i (g_ira g)
       /\ match d with
          | Some a =>
              let j := mk_acc a false (s_kernel s false) in
              answered (h ++ [i]) j (g_dra g) /\ h' = (h ++ [i]) ++ [j]
          | None => g_dra g = None /\ h' = h ++ [i]
          end
     else g_ira g = None /\ g_dra g = None /\ h' = h.
Inductive told (xl : bool) : list acc -> list seen -> list given -> list acc -> Prop :=
| told_nil : forall h, told xl h [] [] h
| told_cons : forall h s g h1 l gs h2, says xl h s g h1 -> told xl h1 l gs h2 ->
    told xl h (s :: l) (g :: gs) h2.

(** ** What the threads are told *)
Definition response (tp : Z) (x : event * kind) : list request :=
  let pid := e_pid (fst x) in
  let go := if (pid =? tp)%Z then Step pid 0 else Cont pid 0 in
  match snd x with
  | Born _ | Stray => [go]
  | Gone => [Detach pid]
  | Signal => [Cont pid (if e_sig (fst x) =? 4 then 0 else e_sig (fst x))]
  | Single sig => [Step pid sig]
  | Atomic _ => [Cont pid 0; Step pid 0]
  end.
(** Threads known, with room for [max]. *)
Definition change (x : event * kind) : list op :=
  match snd x with Born c => [Add c] | Gone => [Remove (e_pid (fst x))] | _ => [] end.
Definition threads (max : nat) (l : list Z) (p : list (event * kind)) : list Z :=
  fst (spec_run max l (flat_map change p)).
(** At the end all known threads are let go, or none if the traced thread
    ended. *)
Definition farewell (max : nat) (l : list Z) (p : list (event * kind)) : list request :=
  match rev p with
  | (_, Single _) :: _ => List.map Detach (threads max l p)
  | _ => []
  end.
(** All events but the last of an ended session have a response. *)
Definition responses (max : nat) (tp : Z) (l : list Z) (s : list (event * kind) * bool) : list request :=
  if snd s then flat_map (response tp) (removelast (fst s)) ++ farewell max l (fst s)
  else flat_map (response tp) (fst s).
