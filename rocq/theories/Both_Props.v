(** C74: the two logs of ptracer. *)
Require Import NArith ZArith List Bool.
Require Import Verif.Codec_Types Verif.Pids_Model Verif.Pids_Spec Verif.Tracer_Model Verif.Tracer_Spec Verif.Tracer_Proofs4.
Require Import Verif.Both_Model Verif.Both_Spec Verif.Both_Proofs Verif.Both_Proofs2 Verif.Both_Proofs3.
Require Verif.Regs_Model Verif.Regs_Spec Verif.Step_Spec.
Import ListNotations.
Local Open Scope N_scope.

(** For every sequence of events whatsoever: if the tracer gets through, both
    logs hold the same instructions in the same order. *)
Theorem C74_same : forall be max xl tp dump ans skip left t evs s c,
  alive (bloop be max xl true true dump ans tp (bstart tp skip left t) evs) = Some (s, c) ->
  in_log s = in_file s.
Proof. exact same_insns. Qed.
Print Assumptions C74_same.
(** -a and -r change nothing in what C58 and C59 say, as long as the registers
    can be read. *)
Theorem C74_unchanged : forall be max xl ascii dump ans tp, (forall e pc, ans e pc <> None) -> forall evs s,
  traced (bloop be max xl ascii true dump ans tp s evs) = main_loop be max xl tp (b_t s) evs.
Proof. exact loop_side. Qed.
Print Assumptions C74_unchanged.
(** With -a alone the log, the requests to the threads and the end are those
    with both. *)
Theorem C74_alone : forall be max xl tp dump ans skip left t evs s c,
  alive (bloop be max xl true true dump ans tp (bstart tp skip left t) evs) = Some (s, c) ->
  exists s', alive (bloop be max xl true false dump ans tp (bstart tp skip left t) evs) = Some (s', c)
    /\ b_log s' = b_log s /\ t_done (b_t s') = t_done (b_t s) /\ t_pids (b_t s') = t_pids (b_t s) /\ t_out (b_t s') = [].
Proof. exact alone. Qed.
Print Assumptions C74_alone.
(** With -r the log is one of those of C70. *)
Theorem C74_registers : forall be max xl tp q dump ans skip left t evs s c, left < 2 ^ 64 ->
  alive (bloop be max xl true q dump ans tp (bstart tp skip left t) evs) = Some (s, c) ->
  exists cs, Regs_Model.log (negb be) dump (N.to_nat skip) (limit left) Regs_Model.zero_state cs = (b_log s, false).
Proof. exact registers. Qed.
Print Assumptions C74_registers.
(** In the sessions of C58 the ASCII log holds exactly the wanted instructions. *)
Theorem C74_session : forall be xl max tp skip left l0 t evs ks dump ans,
  left < 2 ^ 64 -> holds max t l0 -> (length l0 <= max)%nat -> Forall2 (is_kind xl tp) evs ks ->
  (forall e pc, ans e pc <> None) ->
  let '(p, c) := session tp skip left 0 (combine evs ks) in
  let w := wanted skip left (flat_map saw p) in
  N.of_nat (length w) < 2 ^ 31 ->
  exists s, alive (bloop be max xl true true dump ans tp (bstart tp skip left t) evs) = Some (s, c)
    /\ in_log s = List.map (fun x => (s_addr x, s_word x)) w.
Proof. exact session_log. Qed.
Print Assumptions C74_session.
(** -q alone ends a run at a string instruction; with -a alone it goes on. *)
Definition lswi : Step_Model.mem := Step_Spec.mem_of 0x410000 [0x7c6104aa; 0x60000000].
Theorem C74_aborts_refuted : exists e ans s c,
  alive (bloop false 4 false true false false ans 77 (bstart 77 0 100 table1) [e]) = Some (s, c)
  /\ in_log s = [(0x410000, 0x7c6104aa)]
  /\ alive (bloop false 4 false true true false ans 77 (bstart 77 0 100 table1) [e]) = None.
Proof.
  exists (mk_event 77 true 0 5 None (Some true) true 0x410000 lswi (fun _ => true) (fun m => (m, Step_Model.Illegal 0))
    (Some gprs) (fun _ _ => pages)), (fun _ _ => None).
  eexists. eexists. split; [vm_compute; reflexivity|]. split; vm_compute; reflexivity.
Qed.
Print Assumptions C74_aborts_refuted.

Definition ex_ans (e : event) (pc : N) : option Regs_Model.answer :=
  Some (Regs_Model.mk_answer [0; pc] 0 0 0 0 (repeat 0 33) 0 (repeat 0 33) (repeat 0 32)).
(** -s 1 -n 3 -r *)
Example C74_ex : option_map (fun x => (b_log (fst x), in_file (fst x), snd x))
    (alive (bloop false 4 true true true true ex_ans 77 (bstart 77 1 3 table1) ex_events))
  = Some ([Regs_Model.IReg (Regs_Model.mk_line (Regs_Model.GPR 1) Regs_Model.W64 0x410004); Regs_Model.IInsn 0x410004 0xe8610008;
           Regs_Model.IReg (Regs_Model.mk_line (Regs_Model.GPR 1) Regs_Model.W64 0x410008); Regs_Model.IInsn 0x410008 0x7d201828;
           Regs_Model.IReg (Regs_Model.mk_line (Regs_Model.GPR 1) Regs_Model.W64 0x41000c); Regs_Model.IInsn 0x41000c 0x7d40192d],
          [(0x410004, 0xe8610008); (0x410008, 0x7d201828); (0x41000c, 0x7d40192d)], true).
Proof. vm_compute. reflexivity. Qed.
