(** Clustering: distances, cost, optimum. *)
Require Import NArith ZArith List Bool.
Require Import Verif.Word Verif.Matrix_Model Verif.Matrix_Spec Verif.Pam_Model.
Import ListNotations.
Local Open Scope N_scope.

(** The distance the program computes: differences are signed words, the sum
    is taken modulo 2^64. *)
Definition gap (x y : N) : N := Z.abs_N (s64 (sub64 x y)).
Definition D (f : N -> N -> N) (cols a b : N) : N :=
  sum_to (N.to_nat cols) (fun c => gap (f a c) (f b c)) mod 2 ^ 64.
(** No difference of two coordinates is LLONG_MIN. *)
Definition no_undef (f : N -> N -> N) (rows cols : N) : Prop :=
  forall a b c, a < rows -> b < rows -> c < cols -> sub64 (f a c) (f b c) <> 9223372036854775808.
(** No distance is the largest word. *)
Definition not_far (f : N -> N -> N) (rows cols : N) : Prop :=
  forall a b, a < rows -> b < rows -> D f cols a b <> UMAX.

Section DIST.
  Variable d : N -> N -> N.
  Variable rows : N.
  Definition dmin (medoids : list N) (p : N) : N := fold_right N.min UMAX (map (d p) medoids).
  Definition total (medoids : list N) : N := sum_to (N.to_nat rows) (dmin medoids) mod 2 ^ 64.
  Definition distinct (medoids : list N) : Prop :=
    Forall (fun a => a < rows) medoids /\
    forall i j a b, nth_error medoids i = Some a -> nth_error medoids j = Some b -> i <> j -> d a b <> 0.
  (** Exchanging one medoid for another point does not lower the cost. *)
  Definition local_optimum (medoids : list N) (cost : N) : Prop :=
    forall j p, (j < length medoids)%nat -> p < rows -> Forall (fun a => d p a <> 0) medoids ->
      cost <= total (m_replace j medoids p).
  (** [near] assigns to every point the first nearest medoid. *)
  Definition assigns (medoids : list N) (near : N -> nat) : Prop :=
    forall p, p < rows -> exists a, nth_error medoids (near p) = Some a /\ d p a = dmin medoids p /\
      forall j b, (j < near p)%nat -> nth_error medoids j = Some b -> d p a < d p b.
  Definition members (near : N -> nat) (j : nat) : N :=
    sum_to (N.to_nat rows) (fun p => if Nat.eqb (near p) j then 1 else 0).
End DIST.

Section RESULT.
  Variable d : N -> N -> N.
  Variable rows : N.
  (** The printed lines: for every medoid the first and last instruction of an
      interval that is the medoid, and the number of intervals assigned. *)
  Definition reports (medoids : list N) (near : N -> nat) (period : N) (out : list (N * N * N)) : Prop :=
    length out = length medoids /\
    forall j a, nth_error medoids j = Some a ->
      exists o, o < rows /\ near o = j /\ d o a = 0 /\
        (forall q, q < o -> near q = j -> d q a <> 0) /\
        nth_error out j = Some (o * period mod 2 ^ 64, sub64 ((o + 1) * period mod 2 ^ 64) 1,
                                members rows near j).
  (** What one run with [k] medoids prints. *)
  Definition clustering (k period : N) (r : N * list (N * N * N)) : Prop :=
    exists medoids near,
      distinct d rows medoids /\ N.of_nat (length medoids) = k /\
      fst r = total d rows medoids /\
      (fst r = 0 \/ local_optimum d rows medoids (fst r)) /\
      assigns d rows medoids near /\ reports medoids near period (snd r) /\
      fold_right N.add 0 (map snd (snd r)) = rows.
End RESULT.

(** The distance of two rows when nothing wraps. *)
Definition manhattan (f : N -> N -> N) (cols a b : N) : N :=
  sum_to (N.to_nat cols) (fun c => (f a c - f b c) + (f b c - f a c)).
