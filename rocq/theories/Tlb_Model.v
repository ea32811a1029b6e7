(** Model of htm/tlb.c. *)
Require Import NArith ZArith List Bool.
Require Import Verif.Word.
Import ListNotations.
Local Open Scope N_scope.

(* htm/tlb.h:17, htm/tlb.c:22 *)
Definition TLB_FLAGS_RELOC : N := 1.

(* htm/tlb.c:23-30 *)
Record tlbe := mk_tlbe {
  t_ea : N; t_ra : N; t_size : N; t_hit : N; t_miss : N; t_valid : bool }.
Definition zero_tlbe : tlbe := mk_tlbe 0 0 0 0 0 false.

(* htm/tlb.c:31-38; [tlb_arr] has tlb.size elements, [None] is the null
   pointer.  The three event counters are kept as unbounded numbers: their
   signed overflow after 2^31 events is not modelled. *)
Record tlbs := mk_tlbs {
  tlb_arr : option (list tlbe);
  tlb_next : N;
  tlb_translations : N;
  tlb_no_translation : N;
  tlb_changes : N
}.
Definition tlb_zero : tlbs := mk_tlbs None 0 0 0 0.
Definition arr (s : tlbs) : list tlbe := match tlb_arr s with Some l => l | None => [] end.
Definition tlb_size (s : tlbs) : N := N.of_nat (length (arr s)).
Definition set_arr (s : tlbs) (l : list tlbe) : tlbs :=
  mk_tlbs (match tlb_arr s with Some _ => Some l | None => None end) (tlb_next s)
          (tlb_translations s) (tlb_no_translation s) (tlb_changes s).

Inductive tlberr :=
| TAssert     (** assert() fails *)
| TOob        (** access outside tlb.tlb *)
| TOverflow   (** int overflow of tlb.size * 2 *)
| TFuel.      (** artefact of the model's fuel; proved unreachable *)
Inductive tres (A : Type) := TOk (a : A) | TErr (e : tlberr).
Arguments TOk {A} a. Arguments TErr {A} e.
Definition tbind {A B} (x : tres A) (k : A -> tres B) : tres B :=
  match x with TOk a => k a | TErr e => TErr e end.
Notation "x <~ p ;; k" := (tbind p (fun x => k)) (at level 61, p at next level, right associativity).
Definition tassert (b : bool) : tres unit := if b then TOk tt else TErr TAssert.

(* htm/tlb.c:43-51 *)
Definition mask_offset (size : N) : N := sub64 size 1.
Definition mask_rpn (size : N) : N := N.lxor (mask_offset size) (w64 - 1).
(* htm/tlb.c:53-56 *)
Definition pagesize_ok (size : N) : bool :=
  (size =? 4096) || (size =? 65536) || (size =? 16777216).
(* htm/tlb.c:58-61 *)
Definition flags_ok (flags : N) : bool := N.ldiff flags TLB_FLAGS_RELOC =? 0.
(* htm/tlb.c:63-76 *)
Definition tlb_equal (a b : tlbe) : bool :=
  (t_ea a =? t_ea b) && (t_ra a =? t_ra b) && (t_size a =? t_size b)
  && Bool.eqb (t_valid a) (t_valid b).
(* htm/tlb.c:78-87 *)
Definition entry_ok (t : tlbe) : bool :=
  t_valid t && pagesize_ok (t_size t)
  && (N.land (t_ea t) (mask_offset (t_size t)) =? 0)
  && (N.land (t_ra t) (mask_offset (t_size t)) =? 0).
(* htm/tlb.c:96-106 *)
Definition tlb_compare (ea : N) (t : tlbe) : tres Z :=
  _ <~ tassert (entry_ok t) ;;
  TOk (if ea <? t_ea t then (-1)%Z
       else if sub64 (add64 (t_ea t) (t_size t)) 1 <? ea then 1%Z else 0%Z).

Definition get_entry (l : list tlbe) (i : Z) : tres tlbe :=
  if Z.ltb i 0 then TErr TOob
  else match nth_error l (Z.to_nat i) with Some t => TOk t | None => TErr TOob end.

(* htm/tlb.c:117-138; [None] is the result -1 *)
Fixpoint search (fuel : nat) (l : list tlbe) (ea : N) (first last : Z) : tres (option nat) :=
  if Z.leb first last then
    match fuel with
    | O => TErr TFuel
    | S fuel' =>
        let middle := Z.div (first + last) 2 in
        t <~ get_entry l middle ;;
        r <~ tlb_compare ea t ;;
        if Z.ltb r 0 then
          if Z.eqb first last then TOk None else search fuel' l ea first (middle - 1)%Z
        else if Z.ltb 0 r then
          if Z.eqb first last then TOk None else search fuel' l ea (middle + 1)%Z last
        else TOk (Some (Z.to_nat middle))
    end
  else TOk None.

Definition replace (l : list tlbe) (i : nat) (t : tlbe) : list tlbe :=
  firstn i l ++ t :: skipn (S i) l.
Definition hit (t : tlbe) : tlbe :=
  mk_tlbe (t_ea t) (t_ra t) (t_size t) (add64 (t_hit t) 1) (t_miss t) (t_valid t).

(* htm/tlb.c:108-141 *)
Definition tlb_get_index (s : tlbs) (ea : N) (start : Z) : tres (option nat * tlbs) :=
  let l := arr s in
  r <~ search (S (length l)) l ea start (Z.of_N (tlb_next s) - 1)%Z ;;
  match r with
  | None => TOk (None, s)
  | Some i =>
      match nth_error l i with
      | Some t => TOk (Some i, set_arr s (replace l i (hit t)))
      | None => TErr TOob
      end
  end.

(* htm/tlb.c:157-164.  A successful search fails the assert, so the hit count
   it bumps does not matter. *)
Definition no_match (s : tlbs) (ea : N) (start : Z) : tres unit :=
  r <~ tlb_get_index s ea start ;;
  tassert (match fst r with None => true | Some _ => false end).
Fixpoint check_overlaps (s : tlbs) (i : nat) (n : nat) : tres unit :=
  match n with
  | O => TOk tt
  | S n' =>
      t <~ get_entry (arr s) (Z.of_nat i) ;;
      _ <~ no_match s (t_ea t) (Z.of_nat i + 1)%Z ;;
      _ <~ no_match s (sub64 (add64 (t_ea t) (t_size t)) 1) (Z.of_nat i + 1)%Z ;;
      check_overlaps s (S i) n'
  end.
(* htm/tlb.c:166-172 *)
Fixpoint no_holes (last : bool) (l : list tlbe) : bool :=
  match l with
  | [] => true
  | t :: l' => (negb (t_valid t) || last) && no_holes (t_valid t) l'
  end.
(* htm/tlb.c:148-173 *)
Definition tlb_validate (s : tlbs) : tres unit :=
  _ <~ tassert (tlb_next s <=? tlb_size s) ;;
  _ <~ check_overlaps s 0 (N.to_nat (tlb_next s)) ;;
  tassert (no_holes true (arr s)).

(* htm/tlb.c:175-192 *)
Definition tlb_translate (ea flags : N) (t : tlbe) : tres N :=
  _ <~ tassert (t_ea t <=? ea) ;;
  _ <~ tassert (ea <? add64 (t_ea t) (t_size t)) ;;
  _ <~ tassert (flags_ok flags) ;;
  _ <~ tassert (entry_ok t) ;;
  TOk (N.lor (N.land ea (mask_offset (t_size t))) (N.land (t_ra t) (mask_rpn (t_size t)))).

(* htm/tlb.c:204-235: result (ra, pagesize), [None] when it returns false *)
Definition tlb_ra_get (s : tlbs) (ea flags : N) : tres (option (N * N) * tlbs) :=
  if N.land flags TLB_FLAGS_RELOC =? 0
  then TOk (Some (N.land ea 0x3fffffffffffffff, 0x1000), s)
  else
    let s1 := mk_tlbs (tlb_arr s) (tlb_next s) (tlb_translations s + 1)
                      (tlb_no_translation s) (tlb_changes s) in
    x <~ tlb_get_index s1 ea 0 ;;
    let '(r, s2) := x in
    match r with
    | None => TOk (None, mk_tlbs (tlb_arr s2) (tlb_next s2) (tlb_translations s2)
                                 (tlb_no_translation s2 + 1) (tlb_changes s2))
    | Some i =>
        t <~ get_entry (arr s2) (Z.of_nat i) ;;
        ra <~ tlb_translate ea flags t ;;
        TOk (Some (ra, t_size t), s2)
    end.

(* htm/tlb.c:237-249 *)
Definition tlb_compare_ea (a b : tlbe) : Z :=
  if t_ea a <? t_ea b then (-1)%Z else if t_ea b <? t_ea a then 1%Z else 0%Z.
(** qsort(3): see [Tlb_Spec.sorter]. *)
Definition qsort := (tlbe -> tlbe -> Z) -> list tlbe -> list tlbe.

(* htm/tlb.c:251-278 *)
Definition tlb_allocate (s : tlbs) : tres tlbs :=
  match tlb_arr s with
  | None => TOk (mk_tlbs (Some [zero_tlbe]) (tlb_next s) (tlb_translations s)
                         (tlb_no_translation s) (tlb_changes s))
  | Some l =>
      if tlb_size s * 2 <? 2147483648 then
        let s' := mk_tlbs (Some (l ++ repeat zero_tlbe (length l))) (tlb_next s)
                          (tlb_translations s) (tlb_no_translation s) (tlb_changes s) in
        _ <~ tlb_validate s' ;; TOk s'
      else TErr TOverflow
  end.

(* htm/tlb.c:298-353 *)
Definition tlb_ra_set (qs : qsort) (s : tlbs) (ea flags ra pagesize : N) : tres tlbs :=
  if N.land flags TLB_FLAGS_RELOC =? 0 then TOk s
  else
    _ <~ tassert (pagesize_ok pagesize) ;;
    _ <~ tassert (flags_ok flags) ;;
    x <~ tlb_get_index s ea 0 ;;
    y <~ (match x with
          | (Some i, s1) => TOk (i, s1)
          | (None, s1) =>
              s2 <~ (if tlb_size s1 =? tlb_next s1 then tlb_allocate s1 else TOk s1) ;;
              TOk (N.to_nat (tlb_next s1),
                   mk_tlbs (tlb_arr s2) (tlb_next s2 + 1) (tlb_translations s2)
                           (tlb_no_translation s2) (tlb_changes s2))
          end) ;;
    let '(index, s3) := y in
    t <~ get_entry (arr s3) (Z.of_nat index) ;;
    let tnew := mk_tlbe (N.land ea (mask_rpn pagesize)) (N.land ra (mask_rpn pagesize))
                        pagesize 0 0 true in
    if tlb_equal tnew t then
      TOk (set_arr s3 (replace (arr s3) index
             (mk_tlbe (t_ea t) (t_ra t) (t_size t) (t_hit t) (add64 (t_miss t) 1) (t_valid t))))
    else
      let l := replace (arr s3) index tnew in
      let n := N.to_nat (tlb_next s3) in
      let s4 := mk_tlbs (match tlb_arr s3 with
                         | Some _ => Some (qs tlb_compare_ea (firstn n l) ++ skipn n l)
                         | None => None end)
                        (tlb_next s3) (tlb_translations s3) (tlb_no_translation s3)
                        (if t_valid t then tlb_changes s3 + 1 else tlb_changes s3) in
      _ <~ tlb_validate s4 ;; TOk s4.

(** A history of calls, and the results of its lookups. *)
Inductive op := OSet (ea flags ra pagesize : N) | OGet (ea flags : N).
Fixpoint tlb_run (qs : qsort) (s : tlbs) (h : list op) : tres (tlbs * list (option (N * N))) :=
  match h with
  | [] => TOk (s, [])
  | OSet ea flags ra size :: h' =>
      s' <~ tlb_ra_set qs s ea flags ra size ;; tlb_run qs s' h'
  | OGet ea flags :: h' =>
      x <~ tlb_ra_get s ea flags ;;
      y <~ tlb_run qs (snd x) h' ;;
      TOk (fst y, fst x :: snd y)
  end.
(* htm/tlb.c:194-197 *)
Definition tlb_init : tres tlbs := _ <~ tlb_validate tlb_zero ;; TOk tlb_zero.
