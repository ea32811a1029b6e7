(** How a user reads the output of qtrace-bbv. *)
Require Import NArith List Bool String Sorted.
Require Import Verif.Vtext_Spec.
Require Verif.Tlbdump_Spec.
Import ListNotations.
Local Open Scope N_scope.
Local Open Scope list_scope.

(** Kinds of lines; numbers are taken modulo 2^64. *)
Inductive bline :=
| LMatrix | LRow (vs : list N) | LTest (k : N) | LNumber (c : N) | LCost (c : N) | LHead | LMedoid (first last count : N) | LBlank | LOther.

Definition number (t : list N) : N :=
  match t with
  | c :: t' => if c =? 45 then (2 ^ 64 - decimal t') mod 2 ^ 64 else decimal t
  | [] => 0
  end.
(** two numbers with a minus between them *)
Definition range (t : list N) : N * N :=
  match split 45 t with
  | [a; b] => (decimal a, decimal b)
  | [a; b; c] => if blank a then (number (45 :: b), decimal c) else (decimal a, number (45 :: c))
  | [_; b; _; d] => (number (45 :: b), number (45 :: d))
  | _ => (0, 0)
  end.
Definition starts (s : string) (t : list N) : bool := is s (firstn (String.length s) t).
Definition classify (t : list N) : bline :=
  if blank t then LBlank
  else if is "Matrix:" t then LMatrix
  else if is "Medoids:" t then LHead
  else if starts "Testing K=" t then LTest (number (skipn 10 t))
  else if starts "Cost: " t then LCost (number (skipn 6 t))
  else
    let fs := split 9 t in
    if blank (last fs []) then LRow (List.map number (removelast fs))
    else match fs with
         | [x] => LNumber (number x)
         | [x; y] => LMedoid (fst (range x)) (snd (range x)) (number y)
         | _ => LOther
         end.
Definition blines (t : list N) : list bline := List.map classify (removelast (split 10 t)).

(** ** What there is to be read of a run: k, costs on the way, the result *)
Definition run : Type := N * list N * (N * list (N * N * N)).
Definition run_lines (verbose : bool) (x : run) : list bline :=
  let '(k, log, (cost, ms)) := x in
  LTest (k mod 2 ^ 64) :: (if verbose then List.map (fun c => LNumber (c mod 2 ^ 64)) log else [])
  ++ [LCost (cost mod 2 ^ 64); LHead]
  ++ List.map (fun y => LMedoid (fst (fst y) mod 2 ^ 64) (snd (fst y) mod 2 ^ 64) (snd y mod 2 ^ 64)) ms ++ [LBlank].
(** a run that failed: nothing behind the costs, or nothing behind the head of the table *)
Definition broken_lines (verbose : bool) (k : N) (log : list N) (cost : option N) : list bline :=
  LTest (k mod 2 ^ 64) :: (if verbose then List.map (fun c => LNumber (c mod 2 ^ 64)) log else [])
  ++ match cost with Some c => [LCost (c mod 2 ^ 64); LHead] | None => [] end.
Definition grid (rows cols : N) (f : N -> N -> N) : list bline :=
  List.map (fun r => LRow (List.map (fun c => f (N.of_nat r) (N.of_nat c) mod 2 ^ 64) (seq 0 (N.to_nat cols)))) (seq 0 (N.to_nat rows)).

(** The costs fall, and the last one is that of the result unless it is 0. *)
Definition falls (x : run) : Prop :=
  let '(_, log, (cost, _)) := x in
  StronglySorted (fun a b => b < a) log /\ Forall (fun c => cost <= c /\ c <> 0) log /\ (cost <> 0 -> log <> [] -> last log 0 = cost).
