(** Model of dump_pam() and print_raw_medoids() of qtrace-bbv/pam.c. *)
Require Import NArith List Bool.
Require Import Verif.Word Verif.Matrix_Model Verif.Pam_Model Verif.Bbvtext_Model.
Import ListNotations.
Local Open Scope N_scope.
Local Open Scope list_scope.

Section MATRIX.
  Variable m : matrix.

  (* pam.c:268-279 *)
  Fixpoint nearest_loop (medoids : list N) (i p nearest cost : N) : pres N :=
    match medoids with
    | [] => POk nearest
    | md :: medoids' =>
        s <~. dist m p md ;;
        if s <? cost then nearest_loop medoids' (i + 1) p i s else nearest_loop medoids' (i + 1) p nearest cost
    end.
  (* pam.c:261-283: "%ld " for each point.  Nothing is said of the text before
     undefined behaviour. *)
  Fixpoint dump_loop (n : nat) (p : N) (medoids : list N) : pres (list N) :=
    match n with
    | O => POk []
    | S n' =>
        i <~. nearest_loop medoids 0 p UMAX UMAX ;;
        t <~. dump_loop n' (p + 1) medoids ;;
        POk (ld i ++ [32] ++ t)
    end.
  Definition dump_pam (medoids : list N) : pres (list N) := dump_loop (N.to_nat (m_rows m)) 0 medoids.

  (* pam.c:181-189: "%ld " for each coordinate *)
  Fixpoint point_loop (n : nat) (i row : N) : pres (list N) :=
    match n with
    | O => POk []
    | S n' =>
        v <~. coord m row i ;;
        t <~. point_loop n' (i + 1) row ;;
        POk (ld v ++ [32] ++ t)
    end.
  Definition print_point (row : N) : pres (list N) :=
    t <~. point_loop (N.to_nat (m_cols m)) 0 row ;; POk (t ++ [10]).
  (* pam.c:191-197 *)
  Fixpoint print_raw_medoids (medoids : list N) : pres (list N) :=
    match medoids with
    | [] => POk []
    | md :: medoids' => t <~. print_point md ;; t' <~. print_raw_medoids medoids' ;; POk (t ++ t')
    end.
End MATRIX.
