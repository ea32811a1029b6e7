(** C87: the output of qtrace-bbv can be read back. *)
Require Import NArith PeanoNat List Bool String Permutation Lia.
Require Import Verif.Word Verif.Matrix_Model Verif.Matrix_Spec Verif.Pam_Model Verif.Bbv_Model Verif.Bbv_Spec
  Verif.Bbvtext_Model Verif.Bbvtext_Spec Verif.Bbvtext_Proofs.
Require Verif.Bbv_Props.
Import ListNotations.
Local Open Scope N_scope.
Local Open Scope list_scope.

(** A reader of the lines finds every number of every run, with -v the whole
    matrix and the costs on the way to each result; these fall. *)
Theorem C87_text : forall junk walk rows0 cols0 period coin dims my_k verbose fuel recs m rows cols f rs,
  vectors junk walk rows0 cols0 period coin dims recs = MOk m -> holds m rows cols f -> cols <> 0 ->
  tool junk walk rows0 cols0 period coin dims my_k fuel recs = POk rs ->
  exists runs : list run, List.map snd runs = rs /\ Forall falls runs
  /\ List.map (fun x => fst (fst x)) runs = (if my_k =? 0 then List.map (fun i => 1 + N.of_nat i) (seq 0 (List.length rs)) else [my_k])
  /\ snd (tool_text junk walk rows0 cols0 period coin dims my_k verbose fuel recs) = None
  /\ blines (fst (tool_text junk walk rows0 cols0 period coin dims my_k verbose fuel recs))
     = (if verbose then LMatrix :: grid rows cols f else []) ++ flat_map (run_lines verbose) runs.
Proof. exact text. Qed.
Print Assumptions C87_text.

(** When a run fails, what was printed before is that of complete runs that did
    not reach cost 0, and of the run that failed up to the failure. *)
Theorem C87_stop : forall junk walk rows0 cols0 period coin dims my_k verbose fuel recs m rows cols f e,
  vectors junk walk rows0 cols0 period coin dims recs = MOk m -> holds m rows cols f -> cols <> 0 ->
  tool junk walk rows0 cols0 period coin dims my_k fuel recs = PErr e ->
  exists (runs : list run) log cost, Forall falls runs /\ Forall (fun x => fst (snd x) <> 0) runs
  /\ List.map (fun x => fst (fst x)) runs = (if my_k =? 0 then List.map (fun i => 1 + N.of_nat i) (seq 0 (List.length runs)) else [])
  /\ snd (tool_text junk walk rows0 cols0 period coin dims my_k verbose fuel recs) = Some e
  /\ blines (fst (tool_text junk walk rows0 cols0 period coin dims my_k verbose fuel recs))
     = (if verbose then LMatrix :: grid rows cols f else []) ++ flat_map (run_lines verbose) runs
       ++ broken_lines verbose (if my_k =? 0 then 1 + N.of_nat (List.length runs) else my_k) log cost.
Proof. exact stop. Qed.
Print Assumptions C87_stop.

(** From the trace to the text: the rows read with -v are the basic-block vectors. *)
Theorem C87_trace : forall junk walk rows0 cols0 period,
  (forall l, Permutation (walk l) l) -> period < 2 ^ 64 -> rows0 <> 0 -> cols0 <> 0 ->
  forall coin my_k fuel recs bs rest rs, trace recs bs rest -> Forall (fun r => fst r <> MINUS1) recs ->
  let P := N.max period 1 in
  let ks := timed 0 bs in let I := N.of_nat (List.length recs) / P in
  grows_slowly P cols0 ks I -> fits rows0 cols0 ks I -> I <> 0 ->
  tool junk walk rows0 cols0 period coin 0 my_k fuel recs = POk rs ->
  exists runs : list run, List.map snd runs = rs
  /\ blines (fst (tool_text junk walk rows0 cols0 period coin 0 my_k true fuel recs))
     = LMatrix :: grid I (N.of_nat (List.length (firsts (List.map k_addr ks))) + 1) (vector P ks) ++ flat_map (run_lines true) runs.
Proof. exact trace_text. Qed.
Print Assumptions C87_trace.

(** Intervals of four instructions: three rows, two runs. *)
Definition jnk : nat -> N := fun _ => 77.
Definition coin0 : N -> N -> bool := fun _ _ => true.
Example C87_ex : blines (fst (tool_text jnk (@rev obj) 1 2 4 coin0 0 0 true 9 Bbv_Props.ex_recs)) =
  [LMatrix; LRow [3; 1; 0; 0]; LRow [3; 0; 1; 0]; LRow [3; 1; 0; 0];
   LTest 1; LCost 2; LHead; LMedoid 0 3 3; LBlank;
   LTest 2; LCost 0; LHead; LMedoid 0 3 2; LMedoid 4 7 1; LBlank].
Proof. vm_compute. reflexivity. Qed.
(** Six points on a line from a bad start: the costs fall on the way. *)
Definition line : matrix := mk_matrix 6 1 [0; 1; 2; 100; 101; 9].
Example C87_ex_falls : blines (fst (cluster_text line true 10 9 2)) =
  [LMatrix; LRow [0]; LRow [1]; LRow [2]; LRow [100]; LRow [101]; LRow [9]; LTest 2; LNumber 11; LCost 11; LHead;
   LMedoid 30 39 2; LMedoid 10 19 4; LBlank].
Proof. vm_compute. reflexivity. Qed.
(** Entries and ends of ranges above 2^63 are printed with a minus sign. *)
Example C87_ex_minus : range (ld (2 ^ 64 - 5) ++ 45 :: ld (2 ^ 64 - 1)) = (2 ^ 64 - 5, 2 ^ 64 - 1)
  /\ ld (2 ^ 64 - 5) ++ 45 :: ld (2 ^ 64 - 1) = [45; 53; 45; 45; 49].
Proof. vm_compute. split; reflexivity. Qed.
(** Four clusters of one different row are refused. *)
Example C87_ex_stop : cluster_text (mk_matrix 2 1 [5; 5]) false 10 9 4 = (Vtext_Model.chars "Testing K=4" ++ [10], Some PExit).
Proof. vm_compute. reflexivity. Qed.
