(** Correct programs for the checking lists. *)
Require Import NArith List Bool.
Require Import Verif.List_Model Verif.List_Spec.
Import ListNotations.
Local Open Scope N_scope.

(** The head given to an addition is the head of a list. *)
Definition heads (w : world) (o : op) (l : N) : Prop :=
  match o with OAddAfter _ _ | OAddBefore _ _ => In l (map fst (w_lists w)) | _ => True end.
Inductive dsteps : world -> list (op * N) -> world -> Prop :=
| D0 w : dsteps w [] w
| D1 w o l w1 os w2 : heads w o l -> step w o w1 -> dsteps w1 os w2 -> dsteps w ((o, l) :: os) w2
| DForget k1 n k2 fr os w : dsteps (mk_world (k1 ++ k2) (n :: fr)) os w -> dsteps (mk_world (k1 ++ (n, []) :: k2) fr) os w.
