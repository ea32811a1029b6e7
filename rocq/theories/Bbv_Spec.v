(** Basic-block vectors of a trace. *)
Require Import NArith List Bool.
Require Import Verif.Bbv_Model.
Import ListNotations.
Local Open Scope N_scope.

(** A trace is a sequence of blocks, each ending with its only branch,
    followed by instructions of a block that has not ended. *)
Definition is_block (b : list rec) : Prop :=
  exists body last, b = body ++ [last] /\ Forall (fun r => snd r = false) body /\ snd last = true.
Definition trace (recs : list rec) (bs : list (list rec)) (rest : list rec) : Prop :=
  recs = concat bs ++ rest /\ Forall is_block bs /\ Forall (fun r => snd r = false) rest.

(** A block: the position of its last instruction in the trace, the address
    of its first instruction, its length. *)
Record block := mk_block { k_end : N; k_addr : N; k_len : N }.
Definition start (b : list rec) : N := match b with [] => 0 | r :: _ => fst r end.
Fixpoint timed (t : N) (bs : list (list rec)) : list block :=
  match bs with
  | [] => []
  | b :: bs' =>
      let t' := t + N.of_nat (length b) in
      mk_block (t' - 1) (start b) (N.of_nat (length b)) :: timed t' bs'
  end.

(** Different addresses in order of first occurrence *)
Definition firsts (l : list N) : list N :=
  fold_left (fun acc a => if existsb (N.eqb a) acc then acc else acc ++ [a]) l [].

Section INTERVALS.
  Variable P : N.   (** instructions per interval *)
  (** Instructions of the blocks at [a] that ended in interval [i]; a block
      longer than 2^32 counts modulo 2^32. *)
  Definition weight (ks : list block) (i a : N) : N :=
    fold_right (fun k s => (if (k_end k / P =? i) && (k_addr k =? a) then k_len k mod 2 ^ 32 else 0) + s) 0 ks
    mod 2 ^ 64.
  (** The number of different blocks that ended before interval [i] *)
  Definition seen (ks : list block) (i : N) : N :=
    N.of_nat (length (firsts (map k_addr (filter (fun k => k_end k / P <? i) ks)))).
  (** The vector of interval [i] *)
  Definition vector (ks : list block) (i c : N) : N :=
    match nth_error (firsts (map k_addr ks)) (N.to_nat c) with
    | Some a => weight ks i a
    | None => 0
    end.
  (** No interval makes the number of blocks more than twice as large. *)
  Definition grows_slowly (cols0 : N) (ks : list block) (intervals : N) : Prop :=
    forall i, i < intervals -> seen ks (i + 1) <= 2 * N.max cols0 (seen ks i).
  (** The matrix fits in memory and block numbers in 32 bits. *)
  Definition fits (rows0 cols0 : N) (ks : list block) (intervals : N) : Prop :=
    N.max rows0 (2 * intervals) * N.max cols0 (2 * N.of_nat (length (firsts (map k_addr ks)))) < 2 ^ 61 /\
    N.of_nat (length (firsts (map k_addr ks))) + 1 < 2 ^ 32.
End INTERVALS.
