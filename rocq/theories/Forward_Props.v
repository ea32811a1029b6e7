(** C60: fast-forwarding a program. *)
Require Import NArith ZArith List Bool Lia Permutation.
Require Import Verif.Word Verif.Pids_Model Verif.Pids_Spec Verif.Tracer_Model Verif.Forward_Model Verif.Forward_Spec Verif.Forward_Proofs.
Import ListNotations.
Local Open Scope N_scope.

(** For every table and every sequence of events [evs] as in [events_ok],
    followed by the signal of a counter: fast_forward returns that thread and
    what is missing to [nr_insns]; it has made exactly these requests; the table
    holds the threads there are. *)
Theorem C60_forward : forall max nr_insns count fds t ids evs e rest,
  holds max t ids -> (length ids <= max)%nat -> (forall i, fds i <> None) ->
  events_ok max (given ids fds) evs -> f_stopped e = true -> overflow e = true ->
  counter_of (f_pid e) (at_end (given ids fds) evs) <> None ->
  exists t', fast_forward max nr_insns t fds count (evs ++ e :: rest)
      = FDone t' (map (fun x => Open (fst x) (sub64 nr_insns SLACK) (snd x)) (given ids fds)
                  ++ map (fun x => Go (fst x) 0) (given ids fds)
                  ++ all_actions (sub64 nr_insns SLACK) (given ids fds) evs
                  ++ map (fun x => Close (snd x)) (at_end (given ids fds) evs))
         (f_pid e) (if nr_insns <? count then 0 else nr_insns - count)
    /\ holds max t' (map fst (at_end (given ids fds) evs)).
Proof. exact forward_ok. Qed.
Print Assumptions C60_forward.

(** Every counter that is made is closed exactly once, all fire 200
    instructions early, and what was counted and what is left to skip add up. *)
Theorem C60_counters : forall max nr_insns count fds t ids evs e rest,
  holds max t ids -> (length ids <= max)%nat -> (forall i, fds i <> None) ->
  events_ok max (given ids fds) evs -> f_stopped e = true -> overflow e = true ->
  counter_of (f_pid e) (at_end (given ids fds) evs) <> None ->
  200 <= nr_insns < 2 ^ 64 ->
  exists t' acts skip, fast_forward max nr_insns t fds count (evs ++ e :: rest) = FDone t' acts (f_pid e) skip
    /\ Permutation (opened acts) (closed acts)
    /\ (forall q, In q (periods acts) -> q = nr_insns - 200)
    /\ (count <= nr_insns -> count + skip = nr_insns).
Proof. exact forward_counters. Qed.
Print Assumptions C60_counters.

(** Two threads; the first makes a third, the second gets a SIGUSR1 and ends,
    and the counter of the third fires after 4810 instructions. *)
Definition ex_table : table := mk_table [mk_pid 100 (-1); mk_pid 101 (-1); mk_pid 0 0; mk_pid 0 0] 2.
Definition ex_fds (i : nat) : option Z := nth_error [7%Z; 8%Z] i.
Definition ex_events : list fevent :=
  [mk_fe 100 true 3 5 102 (Some 9%Z) true; mk_fe 102 true 0 19 0 None true; mk_fe 101 true 0 10 0 None true;
   mk_fe 101 true 6 5 0 None true; mk_fe 102 true 0 16 0 None true].
Example C60_ex : fast_forward 4 5000 ex_table ex_fds 4810 ex_events
  = FDone (mk_table [mk_pid 100 7; mk_pid 102 9; mk_pid 102 9; mk_pid 0 0] 2)
      [Open 100 4800 7; Open 101 4800 8; Go 100 0; Go 101 0;
       Open 102 4800 9; Go 100 0; Go 102 19; Go 101 10; Close 8; Leave 101; Close 7; Close 9]
      102 190.
Proof. vm_compute. reflexivity. Qed.
Example C60_ex_ok : events_ok 4 (given [100%Z; 101%Z] ex_fds) (firstn 4 ex_events)
  /\ at_end (given [100%Z; 101%Z] ex_fds) (firstn 4 ex_events) = [(100, 7); (102, 9)]%Z.
Proof.
  split; [|reflexivity]. repeat split; try (cbn; lia); try discriminate; try (intros; discriminate); vm_compute; intros; discriminate.
Qed.

(** An unsigned difference: with -s 100 the counters would have to count nearly
    2^64 instructions; a counter with this period is refused by the kernel. *)
Theorem C60_period_refuted : ~ (forall max nr_insns t fds count evs t' acts pid skip,
  fast_forward max nr_insns t fds count evs = FDone t' acts pid skip ->
  forall q, In q (periods acts) -> q <= nr_insns).
Proof.
  intros H. specialize (H 4%nat 100 ex_table ex_fds 100 ex_events).
  assert (E : exists t' acts pid skip, fast_forward 4 100 ex_table ex_fds 100 ex_events = FDone t' acts pid skip
    /\ In 18446744073709551516 (periods acts)).
  { vm_compute. eexists. eexists. eexists. eexists. split; [reflexivity|]. left. reflexivity. }
  destruct E as (t' & acts & pid & skip & E & I). apply (H _ _ _ _ E) in I. revert I. vm_compute. auto.
Qed.
Print Assumptions C60_period_refuted.

(** No room for another thread, and the end of a thread that is not known, are
    not handled: a null pointer is used. *)
Theorem C60_null_refuted : ~ (forall max nr_insns t fds count evs, fast_forward max nr_insns t fds count evs <> FNull).
Proof.
  intros H. apply (H 2%nat 5000 (mk_table [mk_pid 100 (-1); mk_pid 101 (-1)] 2) ex_fds 4810 ex_events). vm_compute. reflexivity.
Qed.
Print Assumptions C60_null_refuted.
