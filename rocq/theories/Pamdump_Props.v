(** C88: the places and coordinates that pam.c prints. *)
Require Import NArith PeanoNat String List Bool Lia.
Require Import Verif.Matrix_Model Verif.Matrix_Spec Verif.Pam_Model Verif.Pam_Spec Verif.Vtext_Model
  Verif.Pamdump_Model Verif.Pamdump_Spec Verif.Pamdump_Proofs.
Import ListNotations.
Local Open Scope N_scope.
Local Open Scope list_scope.

(** For each point in turn, dump_pam prints the first of the nearest medoids. *)
Theorem C88_dump : forall m rows cols f, holds m rows cols f -> no_undef f rows cols ->
  forall medoids, Forall (fun a => a < rows) medoids -> N.of_nat (length medoids) <= 2 ^ 64 ->
  exists t, dump_pam m medoids = POk t /\ length (numbers t) = N.to_nat rows
  /\ forall p, p < rows -> belongs (D f cols) medoids p (nth (N.to_nat p) (numbers t) 0).
Proof. exact dump. Qed.
Print Assumptions C88_dump.

(** The weights of print_medoids count the points in the output of dump_pam. *)
Theorem C88_counts : forall m medoids period out, print_medoids m medoids period = POk out -> N.of_nat (length medoids) <= 2 ^ 64 ->
  exists t, dump_pam m medoids = POk t /\ length (numbers t) = N.to_nat (m_rows m)
  /\ map snd out = map (fun j => N.of_nat (count_occ N.eq_dec (numbers t) (N.of_nat j)) mod 2 ^ 64) (seq 0 (length medoids)).
Proof. exact counts. Qed.
Print Assumptions C88_counts.

(** print_raw_medoids prints the rows of the medoids. *)
Theorem C88_raw : forall m rows cols f, holds m rows cols f ->
  forall medoids, Forall (fun a => a < rows) medoids -> exists t, print_raw_medoids m medoids = POk t
  /\ table t = map (fun a => map (fun c => f a (N.of_nat c) mod 2 ^ 64) (seq 0 (N.to_nat cols))) medoids.
Proof. exact raw. Qed.
Print Assumptions C88_raw.

(** Six intervals, two medoids *)
Definition ex6 := mk_matrix 6 2 [0; 0;  1; 0;  9; 9;  0; 1;  8; 9;  9; 9].
Example C88_ex : dump_pam ex6 [2; 0] = POk (chars "1 1 0 1 0 0 "%string) /\
  print_medoids ex6 [2; 0] 100 = POk [(200, 299, 3); (0, 99, 3)] /\
  print_raw_medoids ex6 [2; 0] = POk (chars "9 9 "%string ++ [10] ++ chars "0 0 "%string ++ [10])%list.
Proof. vm_compute. repeat split. Qed.
(** A point at distance 2^64-1 belongs to no medoid: -1. *)
Example C88_ex_far : dump_pam (mk_matrix 2 3 [0; 0; 0; 9223372036854775807; 9223372036854775807; 1]) [0] = POk (chars "0 -1 "%string).
Proof. vm_compute. reflexivity. Qed.
(** Of two medoids at the same distance it is the first. *)
Example C88_ex_tie : dump_pam (mk_matrix 3 1 [0; 2; 1]) [1; 0] = POk (chars "1 0 0 "%string).
Proof. vm_compute. reflexivity. Qed.
