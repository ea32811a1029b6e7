Require Import ZArith List Bool Arith.
Require Import Verif.Pids_Model Verif.Pids_Spec Verif.Pids_Proofs.
Import ListNotations.

(** Any history of operations on the empty table stays inside of the array,
    returns what the sequence says and leaves the threads of the sequence. *)
Theorem C47_history : forall max os,
  exists t, do_run max (zero_table max) os = Some (t, snd (spec_run max [] os)) /\
    holds max t (fst (spec_run max [] os)).
Proof. exact history_ok. Qed.
Print Assumptions C47_history.

(** The same from any table that holds a sequence. *)
Theorem C47_from : forall max os t l, holds max t l -> length l <= max ->
  exists t', do_run max t os = Some (t', snd (spec_run max l os)) /\
    holds max t' (fst (spec_run max l os)).
Proof. exact do_run_ok. Qed.
Print Assumptions C47_from.

(** Removing a thread moves the counters of the others with them. *)
Theorem C47_counters : forall max t l v t' u, holds max t l -> length l <= max ->
  remove_pid t v = Some t' -> u <> v -> fd_of t' u = fd_of t u.
Proof. exact remove_keeps_fd. Qed.
Print Assumptions C47_counters.

(** Filling the table from /proc appends while there is room for one more. *)
Theorem C47_capture : forall max t l v, holds max t l -> length l < max ->
  exists t', capture_pid max t v = Some (t', negb (S (length l) =? max)%nat) /\ holds max t' (l ++ [v]).
Proof. exact capture_ok. Qed.
Print Assumptions C47_capture.

(** A process with exactly as many threads as the table has slots is refused
    when it is captured, while add_pid would have taken the last thread. *)
Theorem C47_capacity_refuted : ~ (forall max t l v, holds max t l -> length l < max ->
  forall t' ok, capture_pid max t v = Some (t', ok) -> ok = true).
Proof. exact capacity_refuted. Qed.
Print Assumptions C47_capacity_refuted.

(** A new thread does not get a fresh record: its counter is the one a removed
    thread left in the slot. *)
Theorem C47_fresh_refuted : ~ (forall max t l v t' i, holds max t l -> ~ In v l ->
  add_pid max t v = Some (t', Some i) -> fd_of t' v = Some 0%Z).
Proof. exact fresh_refuted. Qed.
Print Assumptions C47_fresh_refuted.

Example C47_ex :
  spec_run 3 [] [Add 5; Add 7; Add 5; Add 9; Find 7; Remove 5; Find 7; Find 5; Remove 4; Add 9]%Z =
    ([7; 5; 9]%Z, [Some 0; Some 1; Some 2; None; Some 1; None; Some 0; Some 1; None; Some 2]).
Proof. reflexivity. Qed.
Example C47_ex_run : exists t,
  do_run 3 (zero_table 3) [Add 5; Add 7; Add 5; Add 9; Find 7; Remove 5; Find 7; Find 5; Remove 4; Add 9]%Z =
    Some (t, [Some 0; Some 1; Some 2; None; Some 1; None; Some 0; Some 1; None; Some 2]) /\
  map p_pid (slots t) = [7; 5; 9]%Z.
Proof. eexists. split; reflexivity. Qed.
Example C47_counters_ex :
  exists t', remove_pid (mk_table [mk_pid 5 1; mk_pid 7 2; mk_pid 9 3] 3) 5 = Some t' /\
  fd_of t' 9 = Some 3%Z /\ fd_of t' 7 = Some 2%Z /\ fd_of t' 5 = None /\ slots t' = [mk_pid 7 2; mk_pid 9 3; mk_pid 9 3].
Proof. eexists. repeat split; reflexivity. Qed.
