(** Model of the tests at the end of qtrace-bbv/matrix.c (MATRIX_TEST). *)
Require Import NArith List Bool.
Require Import Verif.Word Verif.Matrix_Model.
Import ListNotations.
Local Open Scope N_scope.

(** assert(): the test goes on, or ends with false *)
Definition asserted (b : bool) (k : mres bool) : mres bool := if b then k else MOk false.

(* matrix.c:165-174, 276-280: an entry after the other is stored; [g] are the
   values of random() *)
Definition m_fill (g : N -> N -> N) (m : matrix) : mres matrix :=
  m_for (N.to_nat (m_rows m)) 0 (fun row m =>
    m_for (N.to_nat (m_cols m)) 0 (fun col m => m_set m row col (u64 (g row col))) m) m.

Section TESTS.
  (** Unwritten memory, ROWA, COLA and COLB *)
  Variables (junk : nat -> N) (rowa cola colb : N).

  (* matrix.c:216-237 *)
  Definition identity_multiplication (random : N -> N -> N) : mres bool :=
    a <~~ m_create junk rowa rowa ;;
    b <~~ m_create junk rowa rowa ;;
    c <~~ m_create junk rowa rowa ;;
    i <~~ m_create junk rowa rowa ;;
    i <~~ m_for (N.to_nat rowa) 0 (fun row i => m_set i row row 1) i ;;
    a <~~ m_fill random a ;;
    r1 <~~ m_multiply false b a i ;;
    asserted (snd r1) (
    r2 <~~ m_multiply false c i a ;;
    asserted (snd r2) (
    e <~~ m_compare (fst r1) (fst r2) ;;
    asserted e (MOk true))).

  (* matrix.c:239-261, with the comparison that the test leaves out if [full] *)
  Definition associative_multiplication (full : bool) (ra rb rc : N -> N -> N) : mres bool :=
    a <~~ m_create junk rowa rowa ;;
    b <~~ m_create junk rowa rowa ;;
    c <~~ m_create junk rowa rowa ;;
    r1a <~~ m_create junk rowa rowa ;;
    r2a <~~ m_create junk rowa rowa ;;
    r1 <~~ m_create junk rowa rowa ;;
    r2 <~~ m_create junk rowa rowa ;;
    a <~~ m_fill ra a ;;
    b <~~ m_fill rb b ;;
    c <~~ m_fill rc c ;;
    x1 <~~ m_multiply false r1a a b ;;
    asserted (snd x1) (
    x2 <~~ m_multiply false r1 (fst x1) c ;;
    asserted (snd x2) (
    y1 <~~ m_multiply false r2a b c ;;
    asserted (snd y1) (
    y2 <~~ m_multiply false r2 a (fst y1) ;;
    asserted (snd y2) (
    if full then m_compare (fst x2) (fst y2) else MOk true)))).

  Definition shaped (m : matrix) (rows cols : N) : bool := (m_rows m =? rows) && (m_cols m =? cols).
  (* matrix.c:263-309 *)
  Definition main (random ra rb rc : N -> N -> N) : mres bool :=
    a <~~ m_create junk rowa cola ;;
    aa <~~ m_create junk rowa cola ;;
    b <~~ m_create junk cola colb ;;
    c <~~ m_create junk rowa colb ;;
    a <~~ m_fill (fun row col => N.shiftl row 16 + col) a ;;
    x <~~ m_multiply false c a b ;;
    asserted (snd x) (
    y <~~ m_multiply false (fst x) a a ;;
    asserted (negb (snd y)) (
    z <~~ m_copy aa a ;;
    asserted (snd z) (
    a <~~ m_resize junk a (rowa + 1000) cola ;;
    asserted (shaped a (rowa + 1000) cola) (
    a <~~ m_resize junk a (rowa + 1000) (cola + 1000) ;;
    asserted (shaped a (rowa + 1000) (cola + 1000)) (
    a <~~ m_resize junk a (rowa + 2000) (cola + 2000) ;;
    asserted (shaped a (rowa + 2000) (cola + 2000)) (
    a <~~ m_resize junk a rowa cola ;;
    e <~~ m_compare a (fst z) ;;
    asserted e (
    w <~~ m_copy a (fst y) ;;
    asserted (negb (snd w)) (
    i <~~ identity_multiplication random ;;
    asserted i (associative_multiplication false ra rb rc))))))))).
End TESTS.
