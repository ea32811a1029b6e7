(** What a translation cache should answer. *)
Require Import NArith ZArith List Bool Permutation.
Require Import Verif.Word Verif.Tlb_Model Verif.Bb_Spec.
Import ListNotations.
Local Open Scope N_scope.

Definition sorter (qs : qsort) : Prop := forall cmp l, consistent cmp ->
  Permutation l (qs cmp l) /\ ordered (fun a b => (cmp a b <= 0)%Z) (qs cmp l).

(** The last page set that contains [ea]: its real page address and size. *)
Fixpoint latest (h : list op) (ea : N) : option (N * N) :=
  match h with
  | [] => None
  | OSet a flags ra size :: h' =>
      match latest h' ea with
      | Some x => Some x
      | None => if N.odd flags && (a / size =? ea / size) then Some (ra / size * size, size)
                else None
      end
  | OGet _ _ :: h' => latest h' ea
  end.
(** Relocation off: the address without its two top bits, 4K page. *)
Definition answer (pre : list op) (ea flags : N) : option (N * N) :=
  if N.odd flags
  then match latest pre ea with
       | Some (page, size) => Some (page + ea mod size, size)
       | None => None
       end
  else Some (ea mod 2 ^ 62, 4096).
Fixpoint answers (pre h : list op) : list (option (N * N)) :=
  match h with
  | [] => []
  | OGet ea flags :: h' => answer pre ea flags :: answers (pre ++ [OGet ea flags]) h'
  | o :: h' => answers (pre ++ [o]) h'
  end.

(** Arguments the functions accept. *)
Definition op_ok (o : op) : Prop :=
  match o with
  | OSet ea flags ra size => N.odd flags = true ->
      flags = 1 /\ ea < 2 ^ 64 /\ ra < 2 ^ 64 /\
      (size = 4096 \/ size = 65536 \/ size = 16777216)
  | OGet ea flags => ea < 2 ^ 64 /\ (N.odd flags = true -> flags = 1)
  end.
(** Pages of different sizes do not overlap. *)
Definition no_mixed_overlap (h : list op) : Prop :=
  forall a1 f1 r1 s1 a2 f2 r2 s2,
    In (OSet a1 f1 r1 s1) h -> N.odd f1 = true ->
    In (OSet a2 f2 r2 s2) h -> N.odd f2 = true ->
    s1 = s2 \/ (a1 / s1 + 1) * s1 <= a2 / s2 * s2 \/ (a2 / s2 + 1) * s2 <= a1 / s1 * s1.
(** No lookup hits a page ending at 2^64. *)
Fixpoint top_unused (pre h : list op) : Prop :=
  match h with
  | [] => True
  | OGet ea flags :: h' =>
      (N.odd flags = true -> forall page size, latest pre ea = Some (page, size) ->
         (ea / size + 1) * size < 2 ^ 64) /\
      top_unused (pre ++ [OGet ea flags]) h'
  | o :: h' => top_unused (pre ++ [o]) h'
  end.
