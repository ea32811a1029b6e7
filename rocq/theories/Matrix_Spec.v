(** Matrices as functions. *)
Require Import NArith List.
Require Import Verif.Word Verif.Matrix_Model.
Import ListNotations.
Local Open Scope N_scope.

(** The object holds [rows] by [cols] entries [f], row by row. *)
Definition holds (m : matrix) (rows cols : N) (f : N -> N -> N) : Prop :=
  m_rows m = rows /\ m_cols m = cols /\ rows * cols < 2 ^ 61 /\
  N.of_nat (length (m_data m)) = rows * cols /\
  forall r c, r < rows -> c < cols -> nth_error (m_data m) (N.to_nat (r * cols + c)) = Some (f r c).

Fixpoint sum_to (n : nat) (g : N -> N) : N :=
  match n with O => 0 | S n' => sum_to n' g + g (N.of_nat n') end.
Definition product (k : N) (f g : N -> N -> N) (r c : N) : N :=
  sum_to (N.to_nat k) (fun x => f r x * g x c) mod 2 ^ 64.
