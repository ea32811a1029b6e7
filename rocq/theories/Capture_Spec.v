(** What taking hold of a process means, as logs of calls and answers. *)
Require Import NArith List Bool.
From Verif Require Import Capture_Model.
Import ListNotations.
Local Open Scope N_scope.

(** A thread is waited for: interrupted waits and reports other than stops are
    passed over, each other stop is answered by continuing the thread with the very
    signal it stopped for, and the last report is that of the stop. *)
Inductive awaited (p : N) : list event -> Prop :=
| aw_stop s : s mod 256 = 127 -> s / 65536 = 128 -> awaited p [(Wait p, Status s)]
| aw_intr l : awaited p l -> awaited p ((Wait p, Intr) :: l)
| aw_other s l : s mod 256 <> 127 -> awaited p l -> awaited p ((Wait p, Status s) :: l)
| aw_signal s r l : s mod 256 = 127 -> s / 65536 <> 128 -> r <> Fail -> awaited p l ->
    awaited p ((Wait p, Status s) :: (Cont p (s / 256 mod 256), r) :: l).

(** A log of calls none of which failed *)
Definition succeeded (cs : list call) (l : list event) : Prop :=
  List.map fst l = cs /\ Forall (fun x => snd x <> Fail) l.

(** Thread ids listed by names: names that begin with something other than a digit
    do not count, the others are decimal numbers. *)
Definition digit (c : N) : Prop := 48 <= c <= 57.
Definition decimal (s : list N) : N := fold_left (fun v c => 10 * v + (c - 48)) s 0.
Inductive listed : list (list N) -> list N -> Prop :=
| li_nil : listed [] []
| li_skip s names ids : (forall c s', s = c :: s' -> ~ digit c) -> listed names ids -> listed (s :: names) ids
| li_tid s names ids : s <> [] -> Forall digit s -> decimal s < 2 ^ 64 -> listed names ids ->
    listed (s :: names) (decimal s :: ids).

Definition others (pid : N) (ps : list N) : list N := filter (fun p => negb (p =? pid)) ps.
(** Taking hold of the process [pid], with room for fewer than [max] threads *)
Definition captured (max : nat) (before : list N) (pid : N) (after : list N) (l : list event) : Prop :=
  exists r1 r2 w names ids seizes waits interrupts r3,
    l = [(Seize pid, r1); (Kill pid 19, r2)] ++ w ++ [(OpenTasks pid, Names names)] ++ seizes
        ++ concat waits ++ interrupts ++ [(Kill pid 18, r3)]
    /\ r1 <> Fail /\ r2 <> Fail /\ r3 <> Fail
    /\ awaited pid w /\ listed names ids /\ after = before ++ ids
    /\ (ids = [] \/ (length after < max)%nat)
    /\ succeeded (List.map Seize (others pid after)) seizes
    /\ Forall2 awaited (others pid after) waits
    /\ succeeded (List.map Interrupt after) interrupts.

(** The child's status, after interrupted waits *)
Inductive reported (p : N) : N -> list event -> Prop :=
| re_status s : reported p s [(Wait p, Status s)]
| re_intr s l : reported p s l -> reported p s ((Wait p, Intr) :: l).
(** The child stopped itself, is seized and stops, runs, and reaches its program. *)
Definition started (c : N) (l : list event) : Prop :=
  exists w1 r1 w2 r2 w3 s1 s2 s3,
    l = [(Fork, Child c)] ++ w1 ++ [(Seize c, r1)] ++ w2 ++ [(Cont c 0, r2)] ++ w3
    /\ r1 <> Fail
    /\ reported c s1 w1 /\ s1 mod 65536 = 19 * 256 + 127
    /\ reported c s2 w2 /\ s2 = 128 * 65536 + 19 * 256 + 127
    /\ reported c s3 w3 /\ s3 = 4 * 65536 + 5 * 256 + 127.

(** What the calls are about *)
Definition target (c : call) : option N :=
  match c with
  | Fork => None
  | Seize p | Kill p _ | Wait p | Cont p _ | Interrupt p | OpenTasks p => Some p
  end.

(** Instructions in memory *)
Definition insn_bytes (big : bool) (i : N) : list N :=
  let b := [i mod 256; i / 256 mod 256; i / 65536 mod 256; i / 16777216] in if big then rev b else b.
Definition holds (m : memory) (a : N) (l : list N) : Prop :=
  forall k, (k < length l)%nat -> m (a + N.of_nat k) = nth_error l k.
Definition is_bytes (m : memory) : Prop := forall a b, m a = Some b -> b < 256.
Definition mapped (m : memory) (a n : N) : Prop := forall k, k < n -> m (a + k) <> None.
Definition all_ones (m : memory) (a : N) : Prop := forall k, k < 8 -> m (a + k) = Some 255.
