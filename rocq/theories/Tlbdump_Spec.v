(** What the report of the software TLB should say, from the calls alone. *)
Require Import NArith ZArith List Bool String Ascii.
Require Import Verif.Tlb_Model Verif.Tlb_Spec.
Import ListNotations.
Local Open Scope N_scope.

(** The line of one page, given by its first address and size: the real page
    address, the count called misses and the count called hits.  The first set
    opens it; a set with the same real address counts as a miss and a hit, one
    with another real address starts afresh; a lookup counts as a hit. *)
Definition note (b size : N) (x : option (N * N * N)) (o : op) : option (N * N * N) :=
  match o with
  | OSet a f r s =>
      if N.odd f && (s =? size) && (a / s * s =? b)
      then match x with
           | Some (r0, m, n) => if r0 =? r / s * s then Some (r0, m + 1, n + 1)
                                else Some (r / s * s, 0, 0)
           | None => Some (r / s * s, 0, 0)
           end
      else x
  | OGet ea f =>
      if N.odd f && (b <=? ea) && (ea <? b + size)
      then match x with Some (r, m, n) => Some (r, m, n + 1) | None => None end
      else x
  end.
Definition account (h : list op) (b size : N) : option (N * N * N) :=
  fold_left (note b size) h None.

(** Sets that replace the real address of a page. *)
Fixpoint replaced (pre h : list op) : N :=
  match h with
  | [] => 0
  | o :: h' =>
      (match o with
       | OSet a f r s =>
           match account pre (a / s * s) s with
           | Some (r0, _, _) => if N.odd f && negb (r0 =? r / s * s) then 1 else 0
           | None => 0
           end
       | OGet _ _ => 0
       end) + replaced (pre ++ [o]) h'
  end.
(** Lookups with relocation on, and those without an answer. *)
Definition lookups (h : list op) : N :=
  N.of_nat (List.length (filter (fun o => match o with OGet _ f => N.odd f | _ => false end) h)).
Definition unanswered (h : list op) : N :=
  N.of_nat (List.length (filter (fun a => match a with None => true | _ => false end) (answers [] h))).

(** A row: address, real address, size, misses, hits. *)
Record row := mk_row { r_ea : N; r_ra : N; r_size : N; r_miss : N; r_hit : N }.
(** The rows of a history: every page once, in ascending order. *)
Definition table (h : list op) (rows : list row) : Prop :=
  Bb_Spec.ordered (fun a b => r_ea a + r_size a <= r_ea b) rows /\
  forall x, In x rows <-> account h (r_ea x) (r_size x) = Some (r_ra x, r_miss x, r_hit x).

Fixpoint codes (s : string) : list N :=
  match s with EmptyString => [] | String c s' => N_of_ascii c :: codes s' end.
Definition newline : list N := [10].
(** The text, for given printers of numbers. *)
Section text.
Variables (dec dec02 hex8 hex16 : N -> list N).
Fixpoint rows_text (i : N) (rows : list row) : list N :=
  match rows with
  | [] => []
  | x :: rows' =>
      codes "TLBDUMP " ++ dec02 i ++ codes ": ea:" ++ hex16 (r_ea x) ++ codes " ra:" ++ hex16 (r_ra x)
      ++ codes " size:" ++ hex8 (r_size x) ++ codes " miss:" ++ dec (r_miss x)
      ++ codes " hit:" ++ dec (r_hit x) ++ newline ++ rows_text (i + 1) rows'
  end.
Definition report (rows : list row) (none all changed : N) : list N :=
  rows_text 0 rows
  ++ codes "TLBDUMP no translation: " ++ dec none ++ codes " of " ++ dec all ++ newline
  ++ codes "TLBDUMP replaced translations: " ++ dec changed ++ newline.
End text.
