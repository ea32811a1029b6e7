(** C81: the numbers in the report of the software TLB. *)
Require Import NArith PeanoNat List Bool Lia.
Require Import Verif.Vtext_Spec Verif.Tlbdump_Model Verif.Tlbtext_Proofs.
Import ListNotations.
Local Open Scope N_scope.

(** Decimal numbers without leading zeros, rows with two digits at least,
    hexadecimal numbers of fixed width. *)
Theorem C81_numbers :
  (forall n, n < 10 ^ 20 -> decimal (dec n) = n /\ n < 10 ^ N.of_nat (length (dec n)) /\
     (length (dec n) = 1%nat \/ 10 ^ N.of_nat (length (dec n) - 1) <= n)) /\
  (forall n, n < 10 ^ 20 -> decimal (dec02 n) = n /\ length (dec02 n) = Nat.max 2 (length (dec n))) /\
  (forall n, n < 2 ^ 64 -> hexadecimal (hex16 n) = n /\ length (hex16 n) = 16%nat) /\
  (forall n, n < 2 ^ 32 -> hexadecimal (hex8 n) = n /\ length (hex8 n) = 8%nat).
Proof. exact numbers. Qed.
Print Assumptions C81_numbers.
Example C81_numbers_ex : map dec02 [7; 10; 123] = [[48; 55]; [49; 48]; [49; 50; 51]].
Proof. vm_compute. reflexivity. Qed.
