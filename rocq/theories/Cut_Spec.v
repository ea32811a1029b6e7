(** Specification for C79: beginnings of lists. *)
Require Import List.
Import ListNotations.
Definition starts {A} (l l' : list A) : Prop := exists rest, l' = l ++ rest.
