(** Model of the rest of qtrace-bbv/ccan/htable/htable.c: htable_clear,
    htable_copy, and the iterator with htable_prev. *)
Require Import NArith List Bool.
Require Import Verif.Word Verif.Htable_Model.
Import ListNotations.
Local Open Scope N_scope.

(* htable.c:84-89; rehash and priv stay *)
Definition ht_clear (h : ht) : ht := ht_init.
(* htable.c:91-102; [ok]: malloc succeeds.  memcpy reads 2^bits words at the
   table pointer, which may be the word in the structure. *)
Definition ht_copy (ok : bool) (h : ht) : htres (option ht) :=
  if negb ok then HtOk None
  else if N.of_nat (length (slots h)) <? size h then HtErr HtOob
  else HtOk (Some (mk_ht (h_bits h) (h_elems h) (h_deleted h) (h_max h) (h_maxd h) (h_cmask h) (h_cbits h)
                         (h_pbit h) false (firstn (N.to_nat (size h)) (slots h)))).

(** The iterator: the offset, and what the call returned *)
(* the loops of htable.c:141-146, 151-156 *)
Fixpoint up (fuel : nat) (h : ht) (i : N) : htres (N * option N) :=
  if i <? size h then
    match fuel with
    | O => HtErr HtFuel
    | S fuel' => e <~ load h i ;; if valid e then HtOk (i, Some (raw h e)) else up fuel' h (i + 1)
    end
  else HtOk (i, None).
(* htable.c:139-147, 149-157 *)
Definition it_first (h : ht) : htres (N * option N) := up (N.to_nat (size h)) h 0.
Definition it_next (h : ht) (off : N) : htres (N * option N) := up (N.to_nat (size h)) h (off + 1).
(* htable.c:159-168 *)
Fixpoint down (fuel : nat) (h : ht) (off : N) : htres (N * option N) :=
  if off =? 0 then HtOk (0, None)
  else
    match fuel with
    | O => HtErr HtFuel
    | S fuel' => e <~ load h (off - 1) ;; if valid e then HtOk (off - 1, Some (raw h e)) else down fuel' h (off - 1)
    end.
Definition it_prev (h : ht) (off : N) : htres (N * option N) := down (N.to_nat off) h off.

(** What a program sees that calls htable_next, or htable_prev, [n] times *)
Fixpoint nexts (n : nat) (h : ht) (off : N) : htres (N * list (option N)) :=
  match n with
  | O => HtOk (off, [])
  | S n' => r <~ it_next h off ;; s <~ nexts n' h (fst r) ;; HtOk (fst s, snd r :: snd s)
  end.
Fixpoint prevs (n : nat) (h : ht) (off : N) : htres (N * list (option N)) :=
  match n with
  | O => HtOk (off, [])
  | S n' => r <~ it_prev h off ;; s <~ prevs n' h (fst r) ;; HtOk (fst s, snd r :: snd s)
  end.
(** htable_first, then htable_next [n] times *)
Definition firsts (n : nat) (h : ht) : htres (N * list (option N)) :=
  r <~ it_first h ;; s <~ nexts n h (fst r) ;; HtOk (fst s, snd r :: snd s).
