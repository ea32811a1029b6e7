(** Model of qtrace-bbv/matrix.c. *)
Require Import NArith List Bool.
Require Import Verif.Word.
Import ListNotations.
Local Open Scope N_scope.

(* qtrace-bbv/matrix.h:7-11; [m_data] are the words of the allocation *)
Record matrix := mk_matrix { m_rows : N; m_cols : N; m_data : list N }.

Inductive merr :=
| MOob    (** access outside the allocation *)
| MExit.  (** exit(1) *)
Inductive mres (A : Type) := MOk (a : A) | MErr (e : merr).
Arguments MOk {A}. Arguments MErr {A}.
Definition m_bind {A B} (x : mres A) (k : A -> mres B) : mres B :=
  match x with MOk a => k a | MErr e => MErr e end.
Notation "x <~~ m ;; k" := (m_bind m (fun x => k)) (at level 61, m at next level, right associativity).

(** Contents of memory that has not been written yet: the word at [i] of a
    new allocation, the words added by realloc().  A size is a number of
    bytes modulo 2^64; it is a multiple of 8.  malloc() succeeds, also for
    size 0; realloc() to size 0 returns NULL, as in glibc. *)
Section JUNK.
  Variable junk : nat -> N.

  Definition bytes (rows cols : N) : N := u64 (u64 (rows * cols) * 8).
  Definition words (size : N) : nat := N.to_nat (size / 8).
  Definition m_malloc (size : N) : list N := map junk (seq 0 (words size)).
  Definition m_realloc (old : list N) (size : N) : option (list N) :=
    if size =? 0 then None
    else Some (firstn (words size) old
               ++ map junk (seq 0 (words size - length old))).
  (** memset(data + from, 0, len) in words *)
  Fixpoint m_zero (data : list N) (from len : nat) : mres (list N) :=
    match from, data with
    | O, _ =>
        match len, data with
        | O, _ => MOk data
        | S len', _ :: data' => r <~~ m_zero data' 0 len' ;; MOk (0 :: r)
        | S _, [] => MErr MOob
        end
    | S from', x :: data' => r <~~ m_zero data' from' len ;; MOk (x :: r)
    | S _, [] => match len with O => MOk [] | S _ => MErr MOob end
    end.

  (* matrix.c:15-18: the index *)
  Definition m_index (m : matrix) (row col : N) : N := add64 (u64 (row * m_cols m)) col.
  Definition m_get (m : matrix) (row col : N) : mres N :=
    match nth_error (m_data m) (N.to_nat (m_index m row col)) with
    | Some v => MOk v
    | None => MErr MOob
    end.
  Fixpoint m_replace (n : nat) (l : list N) (v : N) : list N :=
    match l, n with
    | [], _ => []
    | _ :: l', O => v :: l'
    | x :: l', S n' => x :: m_replace n' l' v
    end.
  Definition m_set (m : matrix) (row col v : N) : mres matrix :=
    let i := m_index m row col in
    if i <? N.of_nat (length (m_data m))
    then MOk (mk_matrix (m_rows m) (m_cols m) (m_replace (N.to_nat i) (m_data m) v))
    else MErr MOob.

  (** for (i = from; i < from + n; i++) *)
  Fixpoint m_for {A} (n : nat) (from : N) (body : N -> A -> mres A) (a : A) : mres A :=
    match n with
    | O => MOk a
    | S n' => a' <~~ body from a ;; m_for n' (from + 1) body a'
    end.

  (* matrix.c:75-99 *)
  Definition m_create (rows cols : N) : mres matrix :=
    let size := bytes rows cols in
    d <~~ m_zero (m_malloc size) 0 (words size) ;;
    MOk (mk_matrix rows cols d).

  (* matrix.c:20-73 *)
  Definition m_resize (m : matrix) (rows cols : N) : mres matrix :=
    if cols =? m_cols m then
      let old_size := bytes (m_rows m) (m_cols m) in
      let new_size := bytes rows cols in
      match m_realloc (m_data m) new_size with
      | None => MErr MExit
      | Some d =>
          d' <~~ (if old_size <? new_size then m_zero d (words old_size) (words (new_size - old_size))
                  else MOk d) ;;
          MOk (mk_matrix rows cols d')
      end
    else
      let size := bytes rows cols in
      d <~~ m_zero (m_malloc size) 0 (words size) ;;
      m_for (N.to_nat (N.min (m_rows m) rows)) 0 (fun row n =>
        m_for (N.to_nat (N.min (m_cols m) cols)) 0 (fun col n =>
          v <~~ m_get m row col ;; m_set n row col v) n)
        (mk_matrix rows cols d).
End JUNK.

(* matrix.c:101-116 *)
Definition m_compare (a b : matrix) : mres bool :=
  if negb (m_rows a =? m_rows b) || negb (m_cols a =? m_cols b) then MOk false
  else
    m_for (N.to_nat (m_rows a)) 0 (fun row eq =>
      m_for (N.to_nat (m_cols a)) 0 (fun col (eq : bool) =>
        if eq then
          x <~~ m_get a row col ;; y <~~ m_get b row col ;; MOk (x =? y)
        else MOk false) eq) true.

(* matrix.c:118-131: a = b *)
Definition m_copy (a b : matrix) : mres (matrix * bool) :=
  if negb (m_rows a =? m_rows b) || negb (m_cols a =? m_cols b) then MOk (a, false)
  else
    a' <~~ m_for (N.to_nat (m_rows a)) 0 (fun row a =>
      m_for (N.to_nat (m_cols a)) 0 (fun col a =>
        v <~~ m_get b row col ;; m_set a row col v) a) a ;;
    MOk (a', true).

(* matrix.c:151-163; [coin]: the outcome of rand_r() > RAND_MAX/2 at each entry *)
Definition m_random_ones (coin : N -> N -> bool) (m : matrix) : mres matrix :=
  m_for (N.to_nat (m_rows m)) 0 (fun row m =>
    m_for (N.to_nat (m_cols m)) 0 (fun col m =>
      m' <~~ m_set m row col 1 ;;
      if coin row col then m_set m' row col 18446744073709551615 else MOk m') m) m.

(* matrix.c:176-208: c = a * b; [alias]: c is a or b *)
Definition m_multiply (alias : bool) (c a b : matrix) : mres (matrix * bool) :=
  if negb (m_cols a =? m_rows b) then MOk (c, false)
  else if negb (m_rows a =? m_rows c) then MOk (c, false)
  else if negb (m_cols b =? m_cols c) then MOk (c, false)
  else if alias then MOk (c, false)
  else
    c' <~~ m_for (N.to_nat (m_rows a)) 0 (fun row c =>
      m_for (N.to_nat (m_cols b)) 0 (fun col c =>
        c0 <~~ m_set c row col 0 ;;
        m_for (N.to_nat (m_cols a)) 0 (fun x c =>
          s <~~ m_get c row col ;; u <~~ m_get a row x ;; v <~~ m_get b x col ;;
          m_set c row col (add64 s (u64 (u * v)))) c0) c) c ;;
    MOk (c', true).

(* pam.c:199-214 *)
Definition m_projection (junk : nat -> N) (coin : N -> N -> bool) (a : matrix) (dims : N) : mres matrix :=
  b <~~ m_create junk (m_cols a) dims ;;
  c <~~ m_create junk (m_rows a) dims ;;
  b' <~~ m_random_ones coin b ;;
  r <~~ m_multiply false c a b' ;;
  MOk (fst r).
