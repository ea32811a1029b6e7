(** C37 and C38: matrices. *)
Require Import NArith List Bool Lia.
Require Import Verif.Word Verif.Matrix_Model Verif.Matrix_Spec Verif.Matrix_Proofs.
Import ListNotations.
Local Open Scope N_scope.

Theorem C37_create : forall junk rows cols, rows * cols < 2 ^ 61 ->
  exists m, m_create junk rows cols = MOk m /\ holds m rows cols (fun _ _ => 0).
Proof. exact create_ok. Qed.
Print Assumptions C37_create.

(** Entries inside both shapes are kept, the others are zero, whatever the
    new memory contained. *)
Theorem C37_resize : forall junk m rows0 cols0 f rows cols, holds m rows0 cols0 f -> rows * cols < 2 ^ 61 ->
  (cols = cols0 -> rows * cols <> 0) ->
  exists m', m_resize junk m rows cols = MOk m' /\
    holds m' rows cols (fun r c => if (r <? rows0) && (c <? cols0) then f r c else 0).
Proof. exact resize_ok. Qed.
Print Assumptions C37_resize.

Definition ex23 := mk_matrix 2 3 [11; 12; 13; 21; 22; 23].
Example C37_ex : let j := fun i => 7777 + N.of_nat i in
  m_resize j ex23 3 3 = MOk (mk_matrix 3 3 [11; 12; 13; 21; 22; 23; 0; 0; 0]) /\
  m_resize j ex23 1 3 = MOk (mk_matrix 1 3 [11; 12; 13]) /\
  m_resize j ex23 3 2 = MOk (mk_matrix 3 2 [11; 12; 21; 22; 0; 0]) /\
  m_resize j ex23 1 5 = MOk (mk_matrix 1 5 [11; 12; 13; 0; 0]).
Proof. vm_compute. repeat split. Qed.
Example C37_ex_holds : holds ex23 2 3 (fun r c => 10 * (r + 1) + (c + 1)).
Proof.
  repeat split; try reflexivity. intros r c Hr Hc.
  assert (R : r = 0 \/ r = 1) by lia. assert (C : c = 0 \/ c = 1 \/ c = 2) by lia.
  destruct R as [-> | ->]; destruct C as [-> | [-> | ->]]; reflexivity.
Qed.

(** Removing all rows ends the program (with glibc). *)
Theorem C37_no_rows_refuted : ~ forall junk m rows0 cols0 f rows cols, holds m rows0 cols0 f ->
  rows * cols < 2 ^ 61 -> exists m', m_resize junk m rows cols = MOk m'.
Proof.
  intro H. destruct (H (fun _ => 0) ex23 2 3 _ 0 3 C37_ex_holds eq_refl) as (m & E). discriminate E.
Qed.
Print Assumptions C37_no_rows_refuted.
(** The size in bytes wraps: a shape is recorded that is not allocated. *)
Theorem C37_size_wraps_refuted : ~ forall junk m rows0 cols0 f rows cols m', holds m rows0 cols0 f ->
  rows < 2 ^ 64 -> cols < 2 ^ 64 -> m_resize junk m rows cols = MOk m' ->
  forall r c, r < m_rows m' -> c < m_cols m' -> exists v, m_get m' r c = MOk v.
Proof.
  intro H.
  assert (H0 : holds (mk_matrix 1 1 [5]) 1 1 (fun _ _ => 5)).
  { repeat split; try reflexivity. intros r c Hr Hc. assert (r = 0) by lia. assert (c = 0) by lia. subst. reflexivity. }
  destruct (H (fun _ => 0) _ 1 1 _ 2305843009213693953 1 (mk_matrix 2305843009213693953 1 [5]) H0
    eq_refl eq_refl ltac:(vm_compute; reflexivity) 1 0 eq_refl eq_refl) as (v & E).
  vm_compute in E. discriminate E.
Qed.
Print Assumptions C37_size_wraps_refuted.

Theorem C38_multiply : forall c a b rows k cols f g h,
  holds a rows k f -> holds b k cols g -> holds c rows cols h ->
  exists c', m_multiply false c a b = MOk (c', true) /\ holds c' rows cols (product k f g).
Proof. exact multiply_ok. Qed.
Print Assumptions C38_multiply.
Theorem C38_multiply_refuses : forall alias c a b ra ka f kb cb g rc cc h,
  holds a ra ka f -> holds b kb cb g -> holds c rc cc h ->
  alias = true \/ ~ (ka = kb /\ ra = rc /\ cb = cc) -> m_multiply alias c a b = MOk (c, false).
Proof. exact multiply_refuses. Qed.
Print Assumptions C38_multiply_refuses.
Theorem C38_copy : forall a b rows cols f g, holds a rows cols f -> holds b rows cols g ->
  exists a', m_copy a b = MOk (a', true) /\ holds a' rows cols g.
Proof. exact copy_ok. Qed.
Print Assumptions C38_copy.
Theorem C38_compare : forall a b rows cols f g, holds a rows cols f -> holds b rows cols g ->
  exists e, m_compare a b = MOk e /\ (e = true <-> forall r c, r < rows -> c < cols -> f r c = g r c).
Proof. exact compare_ok. Qed.
Print Assumptions C38_compare.
Theorem C38_other_shape : forall a b ra ca f rb cb g, holds a ra ca f -> holds b rb cb g ->
  ~ (ra = rb /\ ca = cb) -> m_copy a b = MOk (a, false) /\ m_compare a b = MOk false.
Proof. exact copy_refuses. Qed.
Print Assumptions C38_other_shape.
(** The projection is the product with a matrix of ones and minus ones. *)
Theorem C38_projection : forall junk coin a rows cols dims f, holds a rows cols f ->
  rows * dims < 2 ^ 61 -> cols * dims < 2 ^ 61 ->
  exists c, m_projection junk coin a dims = MOk c /\
    holds c rows dims (product cols f (fun r c => if coin r c then 18446744073709551615 else 1)).
Proof. exact projection_ok. Qed.
Print Assumptions C38_projection.

Example C38_ex : let b := mk_matrix 3 2 [1; 18446744073709551615; 0; 2; 5; 1] in
  m_multiply false (mk_matrix 2 2 [9; 9; 9; 9]) ex23 b = MOk (mk_matrix 2 2 [76; 26; 136; 46], true) /\
  m_multiply false ex23 ex23 b = MOk (ex23, false) /\
  m_copy b (mk_matrix 3 2 [1; 2; 3; 4; 5; 6]) = MOk (mk_matrix 3 2 [1; 2; 3; 4; 5; 6], true) /\
  m_compare b (mk_matrix 3 2 [1; 18446744073709551615; 0; 2; 5; 0]) = MOk false /\
  m_compare b b = MOk true /\
  m_projection (fun _ => 3) (fun r c => N.odd (r + c)) ex23 2 = MOk (mk_matrix 2 2 [12; 18446744073709551604; 22; 18446744073709551594]).
Proof. vm_compute. repeat split. Qed.
