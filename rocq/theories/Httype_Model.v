(** Model of qtrace-bbv/ccan/htable/htable_type.h: the elements of a key. *)
Require Import NArith List Bool.
Require Import Verif.Word Verif.Htable_Model.
Import ListNotations.
Local Open Scope N_scope.

Section KEYS.
  (** A key type with keyof, hashfn (its result is a size_t) and eqfn *)
  Variable K : Type.
  Variable keyof : N -> K.
  Variable hashfn : K -> N.
  Variable eqfn : N -> K -> bool.

  (* htable_type.h:58-62 *)
  Definition elem_hash (p : N) : N := hashfn (keyof p).
  Definition key_hash (k : K) : N := u64 (hashfn k).
  (* htable_type.h:105-117: the loop of htable_get (htable.h:167-180) *)
  Definition getmatch (h : ht) (k : K) (c : option (N * N)) : htres (option (N * N)) :=
    find_loop (fuel_of h) h (key_hash k) (fun p => eqfn p k) c.
  (* htable_type.h:118-133; an iterator is an offset, the result comes with it *)
  Definition getfirst (h : ht) (k : K) : htres (option (N * N)) :=
    c <~ firstval h (key_hash k) ;; getmatch h k c.
  Definition getnext (h : ht) (k : K) (off : N) : htres (option (N * N)) :=
    c <~ nextval h off (key_hash k) ;; getmatch h k c.
  (** for (v = name_getfirst(ht, k, &i); v; v = name_getnext(ht, k, &i)) *)
  Fixpoint get_rest (fuel : nat) (h : ht) (k : K) (c : option (N * N)) : htres (list N) :=
    match c with
    | None => HtOk []
    | Some (off, p) =>
        match fuel with
        | O => HtErr HtFuel
        | S fuel' =>
            c' <~ getnext h k off ;;
            l <~ get_rest fuel' h k c' ;;
            HtOk (p :: l)
        end
    end.
  Definition get_all (h : ht) (k : K) : htres (list N) := c <~ getfirst h k ;; get_rest (fuel_of h) h k c.
  (* htable_type.h:90-104 *)
  Definition get_key (h : ht) (k : K) : htres (option N) := ht_get h (key_hash k) (fun p => eqfn p k).
  (* htable_type.h:134-141, 85-89 *)
  Definition delkey (h : ht) (k : K) : htres (ht * bool) :=
    e <~ get_key h k ;;
    match e with
    | Some p => ht_del h (rh elem_hash p) p
    | None => HtOk (h, false)
    end.
End KEYS.
