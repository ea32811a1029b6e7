(** Which medoid a point belongs to, and how lists of numbers are read. *)
Require Import NArith List Bool.
Require Import Verif.Vtext_Spec Verif.Bbvtext_Spec.
Import ListNotations.
Local Open Scope N_scope.

(** the numbers in front of spaces; the numbers of each line *)
Definition numbers (t : list N) : list N := List.map number (removelast (split 32 t)).
Definition table (t : list N) : list (list N) := List.map numbers (removelast (split 10 t)).

(** [v] is the place of the first of the nearest medoids, or -1 if all are at
    distance 2^64-1 or more. *)
Definition belongs (d : N -> N -> N) (medoids : list N) (p v : N) : Prop :=
  (v = 2 ^ 64 - 1 /\ Forall (fun a => 2 ^ 64 - 1 <= d p a) medoids) \/
  exists j a, nth_error medoids j = Some a /\ v = N.of_nat j /\
    Forall (fun b => d p a <= d p b) medoids /\
    forall j' b, (j' < j)%nat -> nth_error medoids j' = Some b -> d p a < d p b.
