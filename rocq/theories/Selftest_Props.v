(** C86: the algebra of the matrix code, and its tests. *)
Require Import NArith List Bool.
Require Import Verif.Word Verif.Matrix_Model Verif.Matrix_Spec Verif.Matrix_Proofs Verif.Selftest_Model Verif.Selftest_Proofs.
Import ListNotations.
Local Open Scope N_scope.

(** The matrix of ones on the diagonal is neutral on both sides. *)
Theorem C86_neutral : forall a i b c n f h h',
  holds a n n f -> holds i n n (fun r c => if r =? c then 1 else 0) -> holds b n n h -> holds c n n h' ->
  (forall r c, r < n -> c < n -> f r c < 2 ^ 64) ->
  exists b' c', m_multiply false b a i = MOk (b', true) /\ m_multiply false c i a = MOk (c', true) /\
    m_compare b' a = MOk true /\ m_compare c' a = MOk true /\ m_compare b' c' = MOk true.
Proof. exact neutral. Qed.
Print Assumptions C86_neutral.

(** Products of any three matrices that fit, both ways: the same, although sums
    and products wrap. *)
Theorem C86_associative : forall a b c r1a r1 r2a r2 n1 n2 n3 n4 f g h h1 h2 h3 h4,
  holds a n1 n2 f -> holds b n2 n3 g -> holds c n3 n4 h ->
  holds r1a n1 n3 h1 -> holds r1 n1 n4 h2 -> holds r2a n2 n4 h3 -> holds r2 n1 n4 h4 ->
  exists x1 x2 y1 y2, m_multiply false r1a a b = MOk (x1, true) /\ m_multiply false r1 x1 c = MOk (x2, true) /\
    m_multiply false r2a b c = MOk (y1, true) /\ m_multiply false r2 a y1 = MOk (y2, true) /\ m_compare x2 y2 = MOk true.
Proof. exact associative. Qed.
Print Assumptions C86_associative.

(** The test program passes for all values of random(), all memory and all
    sizes that it could be compiled with. *)
Theorem C86_tests : forall junk rowa cola colb random ra rb rc,
  rowa <> 0 -> cola <> 0 -> cola <> colb -> (rowa + 2000) * (cola + 2000) < 2 ^ 61 -> cola * colb < 2 ^ 61 -> rowa * colb < 2 ^ 61 -> rowa * rowa < 2 ^ 61 ->
  main junk rowa cola colb random ra rb rc = MOk true.
Proof. exact main_passes. Qed.
Print Assumptions C86_tests.
(** ... and would with the comparison that is missing at its end. *)
Theorem C86_full : forall junk n full ra rb rc, n * n < 2 ^ 61 -> associative_multiplication junk n full ra rb rc = MOk true.
Proof. exact associative_passes. Qed.
Print Assumptions C86_full.

Example C86_ex_sizes : forall junk random ra rb rc, main junk 128 32 8 random ra rb rc = MOk true.
Proof. intros. apply main_passes; (discriminate || reflexivity). Qed.
(** With wrapping: (2^63 * 2) * 3 = 2^63 * (2 * 3) = 0. *)
Definition cell (v : N) : matrix := mk_matrix 1 1 [v].
Example C86_ex_wrap : m_multiply false (cell 7) (cell (2 ^ 63)) (cell 2) = MOk (cell 0, true)
  /\ m_multiply false (cell 7) (cell (2 ^ 63)) (cell 6) = MOk (cell 0, true) /\ m_multiply false (cell 7) (cell (2 ^ 63)) (cell 3) = MOk (cell (2 ^ 63), true).
Proof. repeat split; vm_compute; reflexivity. Qed.
(** The sizes matter: with COLA = COLB = ROWA the program would stop at its
    second assertion. *)
Example C86_ex_square : main (fun _ => 7) 2 2 2 (fun _ _ => 5) (fun _ _ => 5) (fun _ _ => 5) (fun _ _ => 5) = MOk false.
Proof. lazy. reflexivity. Qed.
Example C86_ex_identity : identity_multiplication (fun _ => 7) 3 (fun r c => 10 * r + c) = MOk true.
Proof. vm_compute. reflexivity. Qed.
