(** Model of qtlib/bb.c.  The hash table (ccan htable keyed by address) is
    abstracted to a finite map, see [Htable_Model] for the table itself. *)
Require Import NArith ZArith List Bool.
Require Import Verif.Word.
Import ListNotations.
Local Open Scope N_scope.

(* qtlib/bb.c:47-52 *)
Record bbe := mk_bbe { b_ea : N; b_size : N; b_hit : N; b_valid : bool }.
Definition zero_bbe : bbe := mk_bbe 0 0 0 false.

Inductive bberr :=
| BOob        (** access outside bb.bb *)
| BOverflow   (** int overflow of bb.size * 2 *)
| BAbs.       (** abs(INT_MIN) *)
Inductive bres (A : Type) := BOk (a : A) | BErr (e : bberr).
Arguments BOk {A} a. Arguments BErr {A} e.

(* qtlib/bb.c:53-59; [bb_arr] has bb.size elements, [None] is the null
   pointer; [bb_ht] holds (obj->ea, obj->index), newest first. *)
Record bbs := mk_bbs {
  bb_arr : option (list bbe);
  bb_next : N;
  bb_num : N;
  bb_ht : list (N * N)
}.
Definition bb_zero : bbs := mk_bbs None 0 0 [].
Definition arr (s : bbs) : list bbe := match bb_arr s with Some l => l | None => [] end.
Definition bb_size (s : bbs) : N := N.of_nat (length (arr s)).

(* qtlib/bb.c:118-149; allocation failure aborts and is not modelled *)
Definition bb_allocate (s : bbs) : bres bbs :=
  match bb_arr s with
  | None => BOk (mk_bbs (Some [zero_bbe]) (bb_next s) (bb_num s) [])
  | Some l =>
      let size_new := bb_size s * 2 in
      if size_new <? 2147483648
      then BOk (mk_bbs (Some (l ++ repeat zero_bbe (length l))) (bb_next s) (bb_num s) (bb_ht s))
      else BErr BOverflow
  end.
(* qtlib/bb.c:151-154 *)
Definition bb_init : bres bbs := bb_allocate bb_zero.

(** htable_obj_get / htable_obj_add: keys are unique *)
Definition ht_get (h : list (N * N)) (ea : N) : option N :=
  option_map snd (find (fun o => fst o =? ea) h).

(** bb.bb[i] = f(bb.bb[i]) *)
Definition bb_update (l : list bbe) (i : N) (f : bbe -> bbe) : bres (list bbe) :=
  match nth_error l (N.to_nat i) with
  | Some t => BOk (firstn (N.to_nat i) l ++ f t :: skipn (S (N.to_nat i)) l)
  | None => BErr BOob
  end.

(* qtlib/bb.c:206-239 *)
Definition bb_ea_log (s : bbs) (ea : N) : bres bbs :=
  let num := add64 (bb_num s) 1 in
  match ht_get (bb_ht s) ea with
  | Some i =>
      match bb_update (arr s) i
              (fun t => mk_bbe (b_ea t) (b_size t) (add64 (b_hit t) 1) (b_valid t)) with
      | BOk l => BOk (mk_bbs (Some l) (bb_next s) num (bb_ht s))
      | BErr e => BErr e
      end
  | None =>
      match (if bb_size s =? bb_next s then bb_allocate s else BOk s) with
      | BErr e => BErr e
      | BOk s1 =>
          match bb_update (arr s1) (bb_next s1) (fun _ => mk_bbe ea 1 1 true) with
          | BOk l => BOk (mk_bbs (Some l) (bb_next s1 + 1) num ((ea, bb_next s1) :: bb_ht s1))
          | BErr e => BErr e
          end
      end
  end.

Fixpoint bb_log_all (s : bbs) (log : list N) : bres bbs :=
  match log with
  | [] => BOk s
  | ea :: log' => match bb_ea_log s ea with BOk s' => bb_log_all s' log' | BErr e => BErr e end
  end.
(** bb_init() and one bb_ea_log() per instruction (qtrace/htm tools) *)
Definition bb_run (log : list N) : bres bbs :=
  match bb_init with BOk s => bb_log_all s log | BErr e => BErr e end.

(* qtlib/bb.c:64-67 *)
Definition bb_instruction_num (t : bbe) : N := u64 (b_size t * b_hit t).

(* qtlib/bb.c:78-94 *)
Definition bb_compare_ea (a b : bbe) : Z :=
  if b_ea a <? b_ea b then (-1)%Z
  else if b_ea b <? b_ea a then 1%Z
  else if b_size a <? b_size b then (-1)%Z
  else if b_size b <? b_size a then 1%Z
  else 0%Z.
(* qtlib/bb.c:96-116 *)
Definition bb_compare_num (a b : bbe) : Z :=
  let an := bb_instruction_num a in
  let bn := bb_instruction_num b in
  if b_valid a && negb (b_valid b) then (-1)%Z
  else if negb (b_valid a) && b_valid b then 1%Z
  else if bn <? an then (-1)%Z
  else if an <? bn then 1%Z
  else 0%Z.

(** qtlib/bb.c:169: abs(t->hit_count - ttest->hit_count) < 4; the difference is
    taken modulo 2^64 and converted to int.  [None]: abs(INT_MIN). *)
Definition hits_close (h lead : N) : option bool :=
  let d := s32 (sub64 h lead) in
  if Z.eqb d (-2147483648) then None else Some (Z.ltb (Z.abs d) 4).

(** qtlib/bb.c:167-177 with [lead] = *ttest; result: *ttest and the entries
    after it, at the end of the loop. *)
Fixpoint coalesce_loop (lead : bbe) (ea : N) (l : list bbe) : bres (bbe * list bbe) :=
  match l with
  | [] => BOk (lead, [])
  | t :: l' =>
      let go_on :=
        match coalesce_loop t (b_ea t) l' with
        | BOk (t', os) => BOk (lead, t' :: os)
        | BErr e => BErr e
        end in
      if b_ea t =? add64 ea 4 then
        match hits_close (b_hit t) (b_hit lead) with
        | None => BErr BAbs
        | Some true =>
            match coalesce_loop (mk_bbe (b_ea lead) (u64 (b_size lead + 1)) (b_hit lead)
                                        (b_valid lead)) (b_ea t) l' with
            | BOk (lead', os) =>
                BOk (lead', mk_bbe (b_ea t) (b_size t) (b_hit t) false :: os)
            | BErr e => BErr e
            end
        | Some false => go_on
        end
      else go_on
  end.

(** qsort(3): any function [qs cmp l]; see [Bb_Spec.sorter]. *)
Definition qsort := (bbe -> bbe -> Z) -> list bbe -> list bbe.

(** qtlib/bb.c:180-182 *)
Fixpoint count_valid (l : list bbe) : nat :=
  match l with
  | [] => O
  | t :: l' => if b_valid t then S (count_valid l') else O
  end.

(* qtlib/bb.c:157-183, on the first bb.next entries; bb.bb[0] is read (and
   unused) even if there are none *)
Definition bb_coalesce (qs : qsort) (l : list bbe) : bres (list bbe) :=
  match l with
  | [] => BOk (qs bb_compare_num [])
  | t :: l' =>
      match coalesce_loop t (b_ea t) l' with
      | BOk (t', os) =>
          let l2 := qs bb_compare_num (t' :: os) in
          BOk (firstn (count_valid l2) l2)
      | BErr e => BErr e
      end
  end.

(* qtlib/bb.c:186-204: the entries printed, in order *)
Definition bb_dump (qs : qsort) (s : bbs) : bres (list bbe) :=
  match bb_coalesce qs (qs bb_compare_ea (firstn (N.to_nat (bb_next s)) (arr s))) with
  | BOk l => BOk (qs bb_compare_num l)
  | BErr e => BErr e
  end.
