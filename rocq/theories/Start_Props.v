(** C72: the limit of open files, and the process that is checkpointed. *)
Require Import Arith ZArith NArith List Bool.
Require Import Verif.Args_Model Verif.Start_Model Verif.Start_Proofs.
Import ListNotations.
Local Open Scope N_scope.

(** The limit is set to something the system allows, within a factor of two of
    what could be had; if the hard limit allows 16384 files it is not lowered. *)
Theorem C72_limit : forall s, max s <= nr_open s -> cur s <= max s ->
  exists s', setrlimit_open_files s = Done s' /\ max s' = max s /\ nr_open s' = nr_open s /\ cur s' <= max s
    /\ (16384 <= max s -> cur s <= cur s' /\ 16384 <= cur s')
    /\ N.min (max s) 16384 <= 2 * cur s'.
Proof. exact limit_raised. Qed.
Print Assumptions C72_limit.
(** With a smaller hard limit it can be lowered. *)
Theorem C72_lowered_refuted : exists s s', cur s <= max s <= nr_open s /\
  setrlimit_open_files s = Done s' /\ cur s' < cur s.
Proof.
  exists (mk_limits 10000 10000 1048576), (mk_limits 8192 10000 1048576).
  split; [split; intros H; discriminate H|]. split; [vm_compute; reflexivity|reflexivity].
Qed.
Print Assumptions C72_lowered_refuted.
(** With a hard limit above fs.nr_open ptracer never gets to its work. *)
Theorem C72_hangs_refuted : forall s, cur s <= 16384 -> nr_open s < max s -> setrlimit_open_files s = Forever.
Proof. exact limit_hangs. Qed.
Print Assumptions C72_hangs_refuted.

(** The process dumped is the one traced if its number has at most six digits,
    and another one otherwise. *)
Theorem C72_checkpoint : forall pid, pid < 10 ^ 6 -> dumped pid = Z.of_N pid.
Proof. exact dumps_right. Qed.
Print Assumptions C72_checkpoint.
Theorem C72_checkpoint_refuted : forall pid, 10 ^ 6 <= pid -> dumped pid <> Z.of_N pid.
Proof. exact dumps_wrong. Qed.
Print Assumptions C72_checkpoint_refuted.

Example C72_ex : setrlimit_open_files (mk_limits 1024 4096 1048576) = Done (mk_limits 4096 4096 1048576).
Proof. vm_compute. reflexivity. Qed.
Example C72_ex_pid : dumped 123456 = 123456%Z /\ dumped 1234567 = 123456%Z.
Proof. vm_compute. split; reflexivity. Qed.
