(** Model of the text that qtrace-bbv prints, with and without -v. *)
Require Import NArith List Bool String.
Require Import Verif.Word Verif.Matrix_Model Verif.Pam_Model Verif.Bbv_Model Verif.Vtext_Model.
Require Verif.Table_Model.
Import ListNotations.
Local Open Scope N_scope.
Local Open Scope list_scope.
Local Notation "' x" := (chars x%string) (at level 0, x at level 0).

(** %ld of a uint64_t *)
Definition ld (n : N) : list N := Table_Model.li (u64 n).

(* matrix.c:139-149: "%ld\t" for each entry, an end of line for each row.  An
   entry outside the allocation is an error. *)
Definition print_row (m : matrix) (row : N) : mres (list N) :=
  t <~~ m_for (N.to_nat (m_cols m)) 0 (fun col t => v <~~ m_get m row col ;; MOk (t ++ ld v ++ [9])) [] ;;
  MOk (t ++ [10]).
Definition matrix_print (m : matrix) : mres (list N) :=
  m_for (N.to_nat (m_rows m)) 0 (fun row t => r <~~ print_row m row ;; MOk (t ++ r)) [].

Section RUN.
  Variables (m : matrix) (verbose : bool) (period : N).

  (* qtrace-bbv.c:145-148: the costs shown with -v *)
  Fixpoint log_loop (fuel : nat) (s : pam) : list N * pres pam :=
    match fuel with
    | O => ([], PErr PFuel)
    | S fuel' =>
        match pam_iteration m s with
        | PErr e => ([], PErr e)
        | POk (s', go) =>
            if go : bool then let (l, r) := log_loop fuel' s' in (p_cost s' :: l, r) else ([], POk s')
        end
    end.
  (* pam.c:254-255: "%ld-%ld\t%ld\n" *)
  Definition print_medoid (x : N * N * N) : list N :=
    ld (fst (fst x)) ++ [45] ++ ld (snd (fst x)) ++ [9] ++ ld (snd x) ++ [10].

  (* qtrace-bbv.c:132-162: what is printed, and the cost or how the program ended *)
  Definition one_text (fuel : nat) (k : N) : list N * pres N :=
    let t0 := '"Testing K=" ++ ld k ++ [10] in
    match pam_initialise m k with
    | PErr e => (t0, PErr e)
    | POk None => (t0, PErr PExit)
    | POk (Some s) =>
        let (log, r) := log_loop fuel s in
        let t1 := t0 ++ (if verbose then flat_map (fun c => ld c ++ [10]) log else []) in
        match r with
        | PErr e => (t1, PErr e)
        | POk s' =>
            let t2 := t1 ++ '"Cost: " ++ ld (p_cost s') ++ [10] ++ '"Medoids:" ++ [10] in
            match print_medoids m (p_medoids s') period with
            | PErr e => (t2, PErr e)
            | POk ms => (t2 ++ flat_map print_medoid ms ++ [10], POk (p_cost s'))
            end
        end
    end.
  (* qtrace-bbv.c:190-193, n = MAX_K - k + 1 *)
  Fixpoint sweep_text (fuel n : nat) (k : N) : list N * option perr :=
    match n with
    | O => ([], None)
    | S n' =>
        match one_text fuel k with
        | (t, PErr e) => (t, Some e)
        | (t, POk cost) => if cost =? 0 then (t, None) else let (t', e) := sweep_text fuel n' (k + 1) in (t ++ t', e)
        end
    end.
  (* qtrace-bbv.c:180-194 *)
  Definition cluster_text (fuel : nat) (my_k : N) : list N * option perr :=
    let (t, e) :=
      if negb (my_k =? 0) then
        match one_text fuel my_k with (t, PErr e) => (t, Some e) | (t, POk _) => (t, None) end
      else sweep_text fuel 32 1 in
    if verbose then
      match matrix_print m with
      | MOk p => ('"Matrix:" ++ [10] ++ p ++ t, e)
      | MErr _ => ('"Matrix:" ++ [10], Some POob)
      end
    else (t, e).
End RUN.

(* qtrace-bbv.c:164-197: the whole output, and how the program ended if not at
   the end of main *)
Definition tool_text (junk : nat -> N) (walk : list obj -> list obj) (rows0 cols0 period : N)
    (coin : N -> N -> bool) (dims my_k : N) (verbose : bool) (fuel : nat) (recs : list rec) : list N * option perr :=
  match vectors junk walk rows0 cols0 period coin dims recs with
  | MOk m => cluster_text m verbose period fuel my_k
  | MErr MOob => ([], Some POob)
  | MErr MExit => ([], Some PExit)
  end.
