(** What a profile is. *)
Require Import NArith ZArith List Bool Permutation.
Require Import Verif.Word Verif.Bb_Model.
Import ListNotations.
Local Open Scope N_scope.

(** Number of occurrences. *)
Definition occ (a : N) (log : list N) : N := N.of_nat (count_occ N.eq_dec log a).
(** Distinct addresses in order of first occurrence. *)
Fixpoint firsts (log : list N) : list N :=
  match log with
  | [] => []
  | a :: log' => a :: filter (fun x => negb (x =? a)) (firsts log')
  end.
Definition profile (log : list N) : list bbe :=
  map (fun a => mk_bbe a 1 (occ a log mod 2 ^ 64) true) (firsts log).
Definition sumN (l : list N) : N := fold_right N.add 0 l.

(** qsort(3) for consistent comparison functions: a sorted permutation. *)
Definition consistent {A} (cmp : A -> A -> Z) : Prop :=
  (forall a b, Z.sgn (cmp a b) = - Z.sgn (cmp b a))%Z /\
  (forall a b c, cmp a b <= 0 -> cmp b c <= 0 -> cmp a c <= 0)%Z.
Fixpoint ordered {A} (R : A -> A -> Prop) (l : list A) : Prop :=
  match l with
  | [] => True
  | a :: l' => Forall (R a) l' /\ ordered R l'
  end.
Definition sorter (qs : qsort) : Prop := forall cmp l, consistent cmp ->
  Permutation l (qs cmp l) /\ ordered (fun a b => (cmp a b <= 0)%Z) (qs cmp l).

(** Addresses of a block. *)
Fixpoint span (ea : N) (n : nat) : list N :=
  match n with O => [] | S n' => ea :: span (ea + 4) n' end.
Definition block_addrs (b : bbe) : list N := span (b_ea b) (N.to_nat (b_size b)).

(** Hit counts differ by at most three. *)
Definition near (a b : N) : Prop := a <= b + 3 /\ b <= a + 3.
(** Same modulo 2^32: what the code really tests. *)
Definition near32 (a b : N) : Prop :=
  exists d, (-3 <= d <= 3)%Z /\ ((Z.of_N a - Z.of_N b - d) mod 2 ^ 32 = 0)%Z.
