(** Larx/stcx sequences, their exits, and memory with breakpoints in place. *)
Require Import NArith ZArith List Bool.
Require Import Verif.Storage_Spec Verif.Step_Model.
Import ListNotations.
Local Open Scope N_scope.

(** Load-and-reserve and store-conditional instructions *)
Definition larx (w : N) : Prop :=
  bits w 0 6 = 31 /\ In (bits w 21 10) [52; 116; 20; 84; 276].
Definition stcx (w : N) : Prop :=
  bits w 0 6 = 31 /\ In (bits w 21 10) [694; 726; 150; 214; 182] /\ bits w 31 1 = 1.
(** Conditional B-form branches and their target *)
Definition bform (w : N) : Prop := bits w 0 6 = 16.
Definition target (w a : N) : N :=
  word64 ((if bits w 30 1 =? 1 then 0 else Z.of_N a) + 4 * exts (bits w 16 14) 14).
(** The other instructions that may continue elsewhere: system calls, I-form
    branches, and branches to registers and returns from interrupts. *)
Definition transfers (w : N) : Prop :=
  bits w 0 6 = 17 \/ bits w 0 6 = 18 \/
  (bits w 0 6 = 19 /\ In (bits w 21 10) [16; 528; 560; 18; 50; 82; 146; 274]).

(** The sequence from [p] to the first stcx, [n] words later. *)
Definition sequence (m : mem) (p : N) (n : nat) : Prop :=
  (forall k, (k <= n)%nat -> m (p + 4 * N.of_nat k) <> None) /\
  (forall w, m p = Some w -> larx w) /\
  (forall k w, (k < n)%nat -> m (p + 4 * N.of_nat k) = Some w -> ~ stcx w) /\
  (forall w, m (p + 4 * N.of_nat n) = Some w -> stcx w).
Definition region_end (p : N) (n : nat) : N := p + 4 * N.of_nat (S n).
Definition inside (p : N) (n : nat) (a : N) : Prop := p <= a /\ a < region_end p n.
Definition at_word (p : N) (n : nat) (a : N) : Prop :=
  exists k, (k <= n)%nat /\ a = p + 4 * N.of_nat k.

(** Where a breakpoint belongs: behind the sequence and at every target of a
    conditional branch outside of it. *)
Definition exit_point (m : mem) (p : N) (n : nat) (x : N) : Prop :=
  x = region_end p n \/
  (~ inside p n x /\
   exists k w, (k < n)%nat /\ m (p + 4 * N.of_nat k) = Some w /\ bform w /\
     x = target w (p + 4 * N.of_nat k)).

(** [m1] is [m] with breakpoints at exactly these places. *)
Definition with_breakpoints (m : mem) (at_ : N -> Prop) (m1 : mem) : Prop :=
  forall a, (at_ a -> m1 a = Some BREAKPOINT_INSN) /\ (~ at_ a -> m1 a = m a).
(** [m'] is what the run left, [m2], with every breakpoint still there
    replaced by the instruction it stood for. *)
Definition restored (m : mem) (at_ : N -> Prop) (m2 m' : mem) : Prop :=
  forall a, (at_ a /\ m2 a = Some BREAKPOINT_INSN -> m' a = m a) /\
            (~ (at_ a /\ m2 a = Some BREAKPOINT_INSN) -> m' a = m2 a).

(** Where the instruction at [a] may continue *)
Definition next (m : mem) (a b : N) : Prop :=
  exists w, m a = Some w /\
    (b = word64 (Z.of_N a + 4) \/ (bform w /\ b = target w a) \/ transfers w).
(** Executions that start at [p] and stay inside until the last step *)
Inductive run_to (m : mem) (p : N) (n : nat) : list N -> N -> Prop :=
| run_start : run_to m p n [] p
| run_step : forall l a b, run_to m p n l a -> at_word p n a -> next m a b ->
    run_to m p n (l ++ [a]) b.

(** Number of conditional branches among the first [n] words *)
Fixpoint count_bform (m : mem) (p : N) (n : nat) : nat :=
  match n with
  | O => 0
  | S n => count_bform m p n +
      match m (p + 4 * N.of_nat n)%N with
      | Some w => if (bits w 0 6 =? 16)%N then 1 else 0
      | None => 0
      end
  end.
(** The tracer reads two words at a time and takes all ones for an error. *)
Definition fetchable (m : mem) (a : N) : Prop :=
  exists w0 w1, m a = Some w0 /\ m (a + 4) = Some w1 /\
    ~ (w0 = 4294967295 /\ w1 = 4294967295).
(** Words have 32 bits. *)
Definition words (m : mem) : Prop := forall a w, m a = Some w -> w < 2 ^ 32.

(** Start addresses: the sequence does not run off the end of memory. *)
Definition MAXP : N := 18446744073709551616 - 132.
(** What the program is left with, whatever happens *)
Definition left_with (run : mem -> mem * stop) (m : mem) (p : N) (o : outcome) : Prop :=
  match o with
  | NotLarx m' => m' = m
  | ExitEarly m' => m' = m
  | ExitInserting m' => exists n, (n < 32)%nat /\ sequence m p n /\
      forall a, m' a = m a \/ (exit_point m p n a /\ m' a = Some BREAKPOINT_INSN)
  | ExitRemoving m' => exists n m1, (n < 32)%nat /\ sequence m p n /\
      with_breakpoints m (exit_point m p n) m1 /\
      forall a, m' a = fst (run m1) a \/ (exit_point m p n a /\ m' a = m a)
  | ExitAfter m' | Stepped m' _ _ _ => exists n m1, (n < 32)%nat /\ sequence m p n /\
      with_breakpoints m (exit_point m p n) m1 /\
      restored m (exit_point m p n) (fst (run m1)) m'
  end.

(** A concrete memory: words from an address on *)
Definition mem_of (base : N) (l : list N) : mem :=
  fun a => if (base <=? a) && (a mod 4 =? 0) && ((a - base) / 4 <? N.of_nat (length l))
           then nth_error l (N.to_nat ((a - base) / 4)) else None.
