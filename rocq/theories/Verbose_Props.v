(** C63: qtdis -v, and the traces of htm/tests. *)
Require Import NArith List Bool.
Require Import Verif.Codec_Types Verif.Writer_Model Verif.Reader_Model Verif.Codec_Spec Verif.Xlate_Model.
Require Import Verif.Htm_Model Verif.Convert_Model Verif.Qtdis_Model Verif.Qtdis_Spec Verif.Qtdis_Proofs3.
Require Import Verif.Verbose_Model Verif.Verbose_Spec Verif.Verbose_Proofs Verif.Vectors Verif.Vectors_Proofs.
Import ListNotations.
Local Open Scope N_scope.

(** Every file: without the annotations it is the listing without -v. *)
Theorem C63_lines : forall slack bytes,
  map bare (fst (read_verbose slack bytes)) = lines (fst (read_qt (mk_options 0 false false) slack bytes))
  /\ snd (read_verbose slack bytes) = snd (read_qt (mk_options 0 false false) slack bytes).
Proof. exact verbose_bare. Qed.
Print Assumptions C63_lines.

(** Every file: there is a # exactly before annotations. *)
Theorem C63_mark : forall slack bytes,
  Forall (fun v => v_mark v = true <-> v_notes v <> []) (fst (read_verbose slack bytes)).
Proof. exact marks. Qed.
Print Assumptions C63_mark.

(** Written traces: all annotations *)
Theorem C63_written : forall magic rs slack,
  magic < 2 ^ 32 -> frames rs -> closes rs -> complete rs = true -> (4 <= length slack)%nat ->
  exists bytes x, write_trace magic rs = inr bytes /\ read_verbose slack bytes = (x, QDone)
    /\ map (fun v => (v_ea v, hd 0 (v_words v))) x = map (fun r => (q_insn_addr r, q_insn r)) (firsts rs)
    /\ map (fun v => flat_map seen (v_notes v)) x = trace_notes rs.
Proof. exact written_notes. Qed.
Print Assumptions C63_written.

Example C63_ex : trace_notes ex_no_prefix
  = [[]; [SInsnRpn 0x777; SInsnSize 16; SNode 0; STerm 0 8]; [SData 0x500018]]
  /\ map v_notes (fst (read_verbose [0; 0; 0; 0] (ex_bytes ex_no_prefix)))
  = [[]; [NInsnRpn 0x777; NInsnSize 16; NNode 0; NTerm 0 8]; [NData 0x500018]].
Proof. split; vm_compute; reflexivity. Qed.

(** The page is that of the next instruction, but the walk shown with it is that
    of this one. *)
Theorem C63_walk_refuted : ~ forall p c bytes x w, frames [p; c] -> closes [p; c] ->
  write_trace 0 [p; c] = inr bytes -> read_verbose [0; 0; 0; 0] bytes = (x, QDone) ->
  In (SInsnWalk w) (flat_map seen (v_notes (hd (0, [], false, []) x))) ->
  Codec_Spec.walk_of (rx_type (q_radix_insn c)) (q_radix_insn c) = Some w.
Proof. exact walk_wrong. Qed.
Print Assumptions C63_walk_refuted.

(** Any walk of the hypervisor with relocation ends htmdecoder, whatever was seen
    before. *)
Theorem C63_hypervisor : forall st x m a r, m_hv m = true -> exists e, xlate_decode st x m true a r = XErr e.
Proof. exact hypervisor_walk. Qed.
Print Assumptions C63_hypervisor.

(** ** htm/tests: the listings of htm/tests/disasms *)
Example C63_test_01 : run_test dump01 = inl ([(0xc000000000ea07d4, [0x7f843800], [])], QDone). (* cmpw cr7,r4,r7 *)
Proof. vm_compute. reflexivity. Qed.
Example C63_test_05 : run_test dump05
  = inl ([(0xc00000000000da08, [0x4c0000a4], [NNode 0; NTerm 0 0x08])], QDone). (* rfscv *)
Proof. vm_compute. reflexivity. Qed.
Example C63_test_06 : run_test dump06
  = inl ([(0xc000000000010900, [0x4c000024], [NNode 0; NTerm 0 0x08])], QDone). (* rfid *)
Proof. vm_compute. reflexivity. Qed.
Example C63_test_10 : run_test dump10 = inl ([(0xc000000000ed8db4, [0x7c3f4840], [])], QDone). (* cmpld r31,r9 *)
Proof. vm_compute. reflexivity. Qed.
Example C63_test_11 : run_test dump11 = inl ([(0xc0000000000815f8, [0x7cc01b24], [])], QDone). (* slbmte r6,r3 *)
Proof. vm_compute. reflexivity. Qed.

(** The expected listings of 02 and 03 have pages of 2^30 bytes: DATA RPN 0x1ff and
    INSN RPN 0.  The code never takes a walk whose last real address is not that
    of the 4K page of the access. *)
Example C63_test_02 : run_test dump02
  = inl ([(0xc000000000ea2e4c, [0xebed0030], [NData 0xc000007ffffef2b0])], QDone). (* ld r31,48(r13) *)
Proof. vm_compute. reflexivity. Qed.
Example C63_test_03 : run_test dump03
  = inl ([(0xc000000000ea080c, [0x4bffffe4], [NNode 0; NTerm 0 0x08]); (* b c000000000ea07f0 *)
          (0xc000000000ea07f0, [0x39290001], [])], QDone). (* addi r9,r9,1 *)
Proof. vm_compute. reflexivity. Qed.

(** 04, 07, 08 and 09 have walks of the hypervisor.  Without the walks the
    listings are those expected, but for the data page of 07. *)
Example C63_tests_abort : List.map run_test [dump04; dump07; dump08; dump09] = repeat (inr (CDecode (HXlate XAssert))) 4.
Proof. vm_compute. reflexivity. Qed.
Example C63_test_04 : run_test (part 12 119 dump04) = inl (dis04, QDone).
Proof. vm_compute. reflexivity. Qed.
Example C63_test_07 : run_test (part 12 15 dump07 ++ part 26 32 dump07)
  = inl ([(0x12cef099c, [0xe9290000], [NData 0x3fffbd176ffe])], QDone). (* ld r9,0(r9) *)
Proof. vm_compute. reflexivity. Qed.
Example C63_test_08 : run_test (part 12 18 dump08) = inl ([(0x13c2507dc, [0x07000000; 0], [])], QDone). (* pnop *)
Proof. vm_compute. reflexivity. Qed.
Example C63_test_09 : run_test (part 12 20 dump09)
  = inl ([(0x12fd507dc, [0x07000000; 0], []); (* pnop *)
          (0x12fd507e4, [0x7c631b78], [])], QDone). (* mr r3,r3 *)
Proof. vm_compute. reflexivity. Qed.
