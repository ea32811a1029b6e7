(** C64: lists in memory. *)
Require Import Arith NArith List Bool.
Require Import Verif.Xlate_Model Verif.List_Model Verif.List_Spec Verif.List_Proofs Verif.List_Proofs2 Verif.List_Proofs3 Verif.List_Proofs4 Verif.List_Proofs5.
Import ListNotations.
Local Open Scope N_scope.

(** Programs that use each operation only where [step] allows it never access
    memory outside of the nodes, and all lists have the nodes they are to have. *)
Theorem C64_histories : forall os w, steps (mk_world [] []) os w ->
  exists h, run_ops (fun _ => None) os = Some h /\ models h w.
Proof. exact lists_ok. Qed.
Print Assumptions C64_histories.
(** From any state *)
Theorem C64_steps : forall w os w', steps w os w' -> forall h, models h w -> exists h', run_ops h os = Some h' /\ models h' w'.
Proof. exact steps_ok. Qed.
Print Assumptions C64_steps.
(** Two lists, a move, an exchange and a join *)
Definition ex_ops : list op :=
  [OAlloc 1; OAlloc 2; OHead 1; OHead 2; OAlloc 10; OAlloc 11; OAlloc 12; OAlloc 13;
   OAddBefore 1 10; OAddBefore 1 11; OAddAfter 2 12; ODel 10; OAddAfter 12 10; OSwap 11 13; OAppend 2 1; OFree 11].
Example C64_ex : match run_ops (fun _ => None) ex_ops with
  | Some h => list_for_each (fun h s i => Some (h, s ++ [i])) 9 h [] 2 = Some (h, [12; 10; 13])
              /\ list_for_each_rev (fun h s i => Some (h, s ++ [i])) 9 h [] 2 = Some (h, [13; 10; 12])
              /\ list_empty h 1 = Some true /\ h 11 = None
  | None => False
  end.
Proof. vm_compute. repeat split. Qed.
Example C64_ex_steps : steps (mk_world [] []) ex_ops (mk_world [(2, [12; 10; 13]); (1, [])] []).
Proof.
  unfold ex_ops.
  eapply Steps1; [apply SAlloc; simpl; tauto |].
  eapply Steps1; [apply SAlloc; simpl; intuition discriminate |].
  eapply Steps1; [apply (SHead [] [2] 1 []) |].
  eapply Steps1; [apply (SHead _ [] 2 []) |].
  do 4 (eapply Steps1; [apply SAlloc; simpl; intuition discriminate |]).
  eapply Steps1; [apply (SBeforeHead [(2, [])] 1 [] [] [13; 12; 11] 10 []) |].
  eapply Steps1; [apply (SBeforeHead [(2, [])] 1 [10] [] [13; 12] 11 []) |].
  eapply Steps1; [apply (SAfterHead [] 2 [] [(1, [10; 11])] [13] 12 []) |].
  eapply Steps1; [apply (SDel [(2, [12])] 1 [] 10 [11] []) |].
  eapply Steps1; [apply (SAfter [] 2 [] 12 [] [(1, [11])] [] 10 [13]) |].
  eapply Steps1; [apply (SSwap [(2, [12; 10])] 1 [] 11 [] [] [] 13 []) |].
  eapply Steps1; [apply (SAppend [] 2 [12; 10] [] 1 [13] []) |].
  eapply Steps1; [apply (SFree _ [] 11 []) |].
  apply Steps0.
Qed.

(** What a list shows *)
Theorem C64_queries : forall h hd l, has_nodes h hd l ->
  list_empty h hd = Some (match l with [] => true | _ => false end)
  /\ list_top h hd = Some (hd_error l) /\ list_tail h hd = Some (hd_error (rev l))
  /\ (forall l1 x l2, l = l1 ++ x :: l2 ->
        list_next h hd x = Some (hd_error l2) /\ list_prev h hd x = Some (hd_error (rev l1)))
  /\ exists h', list_pop h hd = Some (hd_error l, h') /\ has_nodes h' hd (tl l).
Proof. exact queries_ok. Qed.
Print Assumptions C64_queries.

(** Loops that leave memory alone visit every node once, in order. *)
Theorem C64_loops : forall (S : Type) (f : S -> N -> S) h hd l s, has_nodes h hd l ->
  list_for_each (fun h s i => Some (h, f s i)) (length l) h s hd = Some (h, fold_left f l s)
  /\ list_for_each_rev (fun h s i => Some (h, f s i)) (length l) h s hd = Some (h, fold_left f (rev l) s).
Proof. exact loops_ok. Qed.
Print Assumptions C64_loops.
(** Safe loops also do so if nodes are unlinked and freed on the way. *)
Theorem C64_safe : forall (S : Type) (f : S -> N -> S) (drop : N -> bool) h hd l s, has_nodes h hd l ->
  let body h s i := if drop i then
                      match list_del h i with
                      | Some h1 => match release h1 i with Some h2 => Some (h2, f s i) | None => None end
                      | None => None
                      end
                    else Some (h, f s i) in
  let left h' := has_nodes h' hd (filter (fun i => negb (drop i)) l)
                 /\ (forall q, In q l -> drop q = true -> h' q = None) /\ (forall q, ~ In q (hd :: l) -> h' q = h q) in
  (exists h', list_for_each_safe body (length l) h s hd = Some (h', fold_left f l s) /\ left h')
  /\ (exists h', list_for_each_rev_safe body (length l) h s hd = Some (h', fold_left f (rev l) s) /\ left h').
Proof. exact safe_loops_ok. Qed.
Print Assumptions C64_safe.
(** The other loops use a freed node then. *)
Theorem C64_unsafe_refuted : ~ forall h hd l, has_nodes h hd l ->
  forall fuel, (length l <= fuel)%nat ->
  list_for_each (fun h (s : unit) i => match list_del h i with Some h1 => match release h1 i with Some h2 => Some (h2, s) | None => None end | None => None end)
    fuel h tt hd <> None.
Proof. exact unsafe. Qed.
Print Assumptions C64_unsafe_refuted.

(** The check ends in every finite memory and accepts exactly the lists. *)
Theorem C64_check : forall h d n, (forall q, h q <> None -> In q d) ->
  exists r, list_check (length d) h n = Some r /\ (r = CGood <-> exists l, has_nodes h n l).
Proof. exact check_exact. Qed.
Print Assumptions C64_check.
Example C64_check_ex :
  let h := fun p => match p with 1 => Some (mk_node 2 3) | 2 => Some (mk_node 3 1) | 3 => Some (mk_node 1 2) | _ => None end in
  let bad := fun p => match p with 1 => Some (mk_node 2 3) | 2 => Some (mk_node 3 1) | 3 => Some (mk_node 2 2) | _ => None end in
  list_check 3 h 1 = Some CGood /\ list_check 3 bad 1 = Some CBad.
Proof. split; reflexivity. Qed.

(** pwc.c's list of partial walks: whatever is inserted and looked up, memory
    holds the list of Xlate_Model, a node that was freed is not used again, and no
    node is lost. *)
Theorem C64_walks : forall hd fresh h0 w os fuel, h0 hd <> None -> (length os <= fuel)%nat ->
  exists c, pc_init hd h0 w = Some c /\
  (callocs_ok hd fresh fuel c os ->
   match spec_pops [] os with
   | XErr e => run_pops hd fresh fuel c os = PErr e
   | XOk (rs, l') => exists c', run_pops hd fresh fuel c os = POk (rs, c') /\ holds hd h0 c' l'
   end).
Proof. exact partial_ok. Qed.
Print Assumptions C64_walks.
Definition ex_walks (ras : list N) : xlate :=
  let l := map (fun ra => mk_walk false false false false 0 ra) ras in
  mk_xlate false 1 2 (length l) (l ++ repeat zero_walk (NWALKS - length l)).
Definition ex_head : heap := fun q => if q =? 100 then Some (mk_node 0 0) else None.
(** The first address above 1000 that is free among the first 20 *)
Definition ex_fresh (h : heap) : N :=
  match find (fun q => match h q with None => true | Some _ => false end) (map (fun i => 1000 + N.of_nat i) (seq 0 20)) with
  | Some q => q | None => 0 end.
Definition ex_pops : list pop :=
  [PInsert (ex_walks [1; 2]); PInsert (ex_walks [7; 8]); PInsert (ex_walks [2; 3]);
   PLookup (ex_walks [3; 4]); PLookup (ex_walks [3; 4]); PInsert (ex_walks [9])].
Example C64_walks_ex :
  match pc_init 100 ex_head (fun _ => ex_walks []) with
  | None => False
  | Some c =>
      callocs_ok 100 ex_fresh 9 c ex_pops /\
      match run_pops 100 ex_fresh 9 c ex_pops with
      | POk (rs, c') => map (option_map (fun x => map wk_ra (firstn (x_nwalks x) (x_walks x)))) rs
                        = [None; None; None; Some [1; 2; 3; 4]; None; None]
                        /\ list_for_each (fun h s i => Some (h, s ++ [i])) 9 (pc_heap c') [] 100 = Some (pc_heap c', [1001; 1000])
                        /\ pc_n c' = 2
      | _ => False
      end
  end.
Proof. vm_compute. repeat split. Qed.
