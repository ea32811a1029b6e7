(** Hexadecimal and base32 strings (RFC 4648), and counting. *)
Require Import NArith List Bool.
Import ListNotations.
Local Open Scope N_scope.

Definition byte (b : N) : Prop := b < 256.

(** ** Hexadecimal *)
(** The character is a digit with the value. *)
Definition digit (c v : N) : Prop :=
  (v < 10 /\ c = 48 + v) \/ (10 <= v < 16 /\ (c = 97 + (v - 10) \/ c = 65 + (v - 10))).
Definition lower_digit (c v : N) : Prop := (v < 10 /\ c = 48 + v) \/ (10 <= v < 16 /\ c = 97 + (v - 10)).
Inductive spells (D : N -> N -> Prop) : list N -> list N -> Prop :=
| spells_nil : spells D [] []
| spells_cons : forall a b h l str w, D a h -> D b l -> spells D str w ->
    spells D (a :: b :: str) (16 * h + l :: w).

(** ** base32 *)
(** A to Z and 2 to 7 *)
Definition letter (d : N) : N := if d <? 26 then 65 + d else 50 + (d - 26).
Definition equals : N := 61.
(** A number from its digits, the most significant first *)
Definition value (base : N) (ds : list N) : N := fold_left (fun a d => a * base + d) ds 0.

(** RFC 4648, section 6: the bits of the bytes with less than five zeros behind
    them, five to a letter, filled up with "=" to eight characters. *)
Definition is_base32 (s buf : list N) : Prop :=
  exists ds p k, s = List.map letter ds ++ repeat equals p /\ Forall (fun d => d < 32) ds
    /\ N.of_nat (5 * length ds) = N.of_nat (8 * length buf) + k /\ k < 5
    /\ value 32 ds = value 256 buf * 2 ^ k
    /\ (exists m, (length ds + p = 8 * m)%nat) /\ (p < 8)%nat.

(** What is accepted: groups of eight characters, each filled up, from which
    the full bytes are taken. *)
Inductive reads : list N -> list N -> Prop :=
| reads_nil : reads [] []
| reads_group : forall ds p b str w,
    Forall (fun d => d < 32) ds -> (length ds + p = 8)%nat -> p <> 2%nat -> p <> 5%nat ->
    Forall byte b -> length b = Nat.div (5 * length ds) 8 ->
    value 256 b = value 32 ds / 2 ^ N.of_nat (5 * length ds - 8 * length b) ->
    reads str w -> reads (List.map letter ds ++ repeat equals p ++ str) (b ++ w).

(** ** Counting *)
Definition occurs_at (needle s : list N) (i : nat) : Prop :=
  firstn (length needle) (skipn i s) = needle.
(** Places apart by at least the length of the needle *)
Fixpoint apart (n from : nat) (l : list nat) : Prop :=
  match l with
  | [] => True
  | i :: r => (from <= i)%nat /\ apart n (i + n) r
  end.
