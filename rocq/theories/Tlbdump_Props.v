(** C81: the report of the software TLB and its last check. *)
Require Import NArith ZArith List Bool String.
Require Import Verif.Word Verif.Bb_Spec Verif.Tlb_Model Verif.Tlb_Spec Verif.Tlb_Props.
Require Verif.Trace_Spec Verif.Fault_Props.
Require Import Verif.Htm_Model Verif.Fault_Spec Verif.Fault_Proofs2 Verif.Tlb_Proofs2.
Require Import Verif.Tlbdump_Model Verif.Tlbdump_Spec Verif.Tlbdump_Proofs2 Verif.Tlbdump_Proofs3.
Import ListNotations.
Local Open Scope N_scope.

(** Every page set so far has one line, in ascending order of address, with the
    counts its calls add up to; then the lookups without an answer, all lookups,
    and the sets that replaced a translation. *)
Theorem C81_report : forall qs h, sorter qs -> Forall op_ok h ->
  no_mixed_overlap h -> top_unused [] h -> N.of_nat (List.length h) <= 2 ^ 30 ->
  exists s rows, (s0 <~ tlb_init ;; tlb_run qs s0 h) = TOk (s, answers [] h) /\
    table h rows /\
    tlb_dump s = TOk (report dec dec02 hex8 hex16 rows (unanswered h) (lookups h) (replaced [] h)).
Proof. exact dumped. Qed.
Print Assumptions C81_report.

(** ex_hist with the first page set again twice, once to the same place. *)
Definition ex_calls : list op := ex_hist ++ [OSet 0x12345000 1 0xabc000 4096; OGet 0x12345008 1].
Example C81_ex :
  account ex_calls 0x12345000 4096 = Some (0xabc000, 1, 3) /\
  account ex_hist 0x12345000 4096 = Some (0xabc000, 0, 1) /\
  account ex_calls 0x30000 65536 = Some (0x40000, 0, 1) /\
  account ex_calls 0x50000 4096 = None /\
  unanswered ex_calls = 3 /\ lookups ex_calls = 8 /\ replaced [] ex_calls = 1 /\
  match s0 <~ tlb_init ;; tlb_run isort s0 ex_calls with
  | TOk (s, _) => tlb_dump s = TOk (
      codes "TLBDUMP 00: ea:0000000000030000 ra:0000000000040000 size:00010000 miss:0 hit:1" ++ newline
      ++ codes "TLBDUMP 01: ea:0000000002000000 ra:0000000007000000 size:01000000 miss:0 hit:1" ++ newline
      ++ codes "TLBDUMP 02: ea:0000000012345000 ra:0000000000abc000 size:00001000 miss:1 hit:3" ++ newline
      ++ codes "TLBDUMP no translation: 3 of 8" ++ newline
      ++ codes "TLBDUMP replaced translations: 1" ++ newline)
  | TErr _ => False
  end.
Proof. vm_compute. repeat split; reflexivity. Qed.

(** Setting a translation again counts as a hit too, so the number called miss
    never exceeds the number called hit. *)
Theorem C81_misses_are_hits : forall h b size r m n,
  account h b size = Some (r, m, n) -> m <= n /\ n <= N.of_nat (List.length h).
Proof. exact account_le. Qed.
Print Assumptions C81_misses_are_hits.
Example C81_misses_ex :
  account [OSet 0x1000 1 0x5000 4096; OSet 0x1008 1 0x5000 4096] 0x1000 4096 = Some (0x5000, 1, 1).
Proof. reflexivity. Qed.

(** The check in tlb_exit passes after every history that did not abort,
    whatever its arguments, overlapping pages included. *)
Theorem C81_exit : forall qs h s outs, sorter qs ->
  (s0 <~ tlb_init ;; tlb_run qs s0 h) = TOk (s, outs) -> tlb_exit s = TOk tt.
Proof. exact exits. Qed.
Print Assumptions C81_exit.
Example C81_exit_ex :
  match s0 <~ tlb_init ;; tlb_run isort s0 mixed with
  | TOk (s, _) => tlb_exit s = TOk tt /\ tlb_next s = 3
  | TErr _ => False
  end.
Proof. vm_compute. repeat split; reflexivity. Qed.

(** So decoding any hardware trace ends as htm_decode says it does. *)
Theorem C81_decoder : forall qs stale junk full bytes bad,
  sorter qs -> (forall z, List.length (stale z) = 8%nat) -> (forall z, bytes_ok (stale z)) -> bytes_ok bytes ->
  htm_decode_exit qs stale junk full bytes bad = htm_decode qs stale junk full bytes bad.
Proof.
  intros qs stale junk full bytes bad HQ HL HO HB. unfold htm_decode_exit.
  destruct (htm_decode qs stale junk full bytes bad) as [s|e] eqn:E; [|reflexivity].
  unfold tlb_exit. rewrite (decode_exits qs stale junk full bytes bad s HQ HL HO HB E). reflexivity.
Qed.
Print Assumptions C81_decoder.
Example C81_decoder_ex :
  let z := fun _ => repeat 0 8 in
  (sorter isort /\ (forall x, List.length (z x) = 8%nat)) /\
  match htm_decode_exit isort z Fault_Props.no_rec true
          (flat_map Trace_Spec.be8 (firstn 3 Fault_Props.f_top)) false with
  | HOk s => tlb_next (h_tlb s) = 1
  | HErr _ => False
  end.
Proof. split; [split; [exact C22_sorter|reflexivity]|]. vm_compute. reflexivity. Qed.
