(** C57: the qtrace file that htmdecoder writes. *)
Require Import NArith ZArith List Bool.
Require Import Verif.Word Verif.Codec_Types Verif.Codec_Spec Verif.HtmBits_Spec Verif.Writer_Model Verif.Reader_Model Verif.Htm_Model.
Require Import Verif.Trace_Spec Verif.Trace8_Proofs5 Verif.Trace8_Props Verif.Trace10_Spec Verif.Trace10_Proofs7 Verif.Trace10_Props.
Require Import Verif.Convert_Model Verif.Convert_Spec Verif.Convert_Proofs2 Verif.Convert_Proofs3 Verif.Convert_Proofs4.
Require Verif.Tlb_Model Verif.Tlb_Spec Verif.Tlb_Props.
Import ListNotations.
Local Open Scope N_scope.

(** For every POWER8 or POWER9 trace (see C55) and records whose unset fields
    have no guest pages and no walks: htmdecoder writes a file, and reading it
    gives one record per instruction of the trace, see [converted]. *)
Theorem C57_convert8 : forall qs stale junk bad items slack, (forall n, quiet8 (junk n)) ->
  Tlb_Spec.sorter qs -> (forall z, length (stale z) = 8%nat) ->
  let ws := flat_map words8 items in
  (Z.of_nat (length ws) < 2 ^ 30)%Z -> trace8_ok 0 items ->
  Tlb_Spec.no_mixed_overlap (pages8 0 items) -> Tlb_Spec.top_unused [] (pages8 0 items) ->
  bad = true \/ other (be_val (stale (Z.of_nat (length ws)))) -> (4 <= length slack)%nat ->
  exists file, htmdecoder qs stale junk (bytes_of ws) bad = COk file
    /\ converted (flat_map given_of (records8 [] 0 items)) (map view_of (fst (read_trace false false slack file)))
    /\ snd (read_trace false false slack file) = EndFalse.
Proof. exact convert8. Qed.
Print Assumptions C57_convert8.

(** For every POWER10 trace (see C56) without words 0, likewise. *)
Theorem C57_convert10 : forall qs stale junk bad items slack, (forall n, quiet10 (junk n)) ->
  (forall z, length (stale z) = 8%nat) ->
  let ws := file10 true start10 items in
  (Z.of_nat (length ws) < 2 ^ 30)%Z -> trace10_ok true start10 items -> Forall worded10 items ->
  bad = true \/ other (be_val (stale (Z.of_nat (length ws)))) -> (4 <= length slack)%nat ->
  exists file, htmdecoder qs stale junk (bytes_of ws) bad = COk file
    /\ converted (flat_map given_of (records10 true start10 items)) (map view_of (fst (read_trace false false slack file)))
    /\ snd (read_trace false false slack file) = EndFalse.
Proof. exact convert10. Qed.
Print Assumptions C57_convert10.

(** The traces of C55 and C56. *)
Example C57_ex_quiet : (forall n, quiet8 (no_junk n)) /\ (forall n, quiet10 (no_junk n)) /\ Forall worded10 ex10.
Proof.
  assert (Q : quiet10 zero_qrec).
  { split; [|reflexivity]. unfold typed, typed_radix. cbn. repeat split; repeat constructor. }
  split; [|split].
  - intros n. split; [exact Q|]. repeat split.
  - intros n. exact Q.
  - repeat constructor; vm_compute; discriminate || reflexivity.
Qed.
Example C57_ex_views8 : map (fun v => (v_insn v, v_addr v, v_ra v, v_ps v, v_daddr v, v_dra v, v_dps v, v_taken v))
    (views (conv (flat_map words8 ex8)))
  = [(0xE8640008, 0xC000000000001000, Some 0x12341000, Some 16, Some 0xC000000001234568, Some 0x45674568, Some 16, false);
     (0x7C632214, 0xC000000000001004, Some 0x12341004, Some 16, None, None, None, false);
     (0x48000100, 0xC000000000001008, Some 0x12341008, Some 16, None, None, None, true);
     (0x60000000, 0xC000000000001108, Some 0x12341108, Some 16, None, None, None, false)].
Proof. vm_compute. reflexivity. Qed.
(** The last instruction has no real address in the trace; in the file it is in
    the page of the one before. *)
Example C57_ex_views10 : map (fun v => (v_insn v, v_addr v, v_ra v, v_ps v, v_gps v, v_daddr v, v_dps v,
      option_map (fun w => (length (k_entries w), nth 4 (k_greal w) 0)) (v_walk v)))
    (views (conv (file10 true start10 ex10)))
  = [(0xE8640008, 0x10123404, Some 0x50123404, Some 21, Some 16, Some 0x20045678, Some 21, Some (5%nat, 0x70000));
     (0x06000000, 0x10123408, Some 0x50123408, Some 21, Some 16, None, None, Some (5%nat, 0x70000));
     (0x38630001, 0x1012340c, Some 0x5012340c, Some 21, Some 16, None, None, Some (5%nat, 0x70000));
     (0xE8640010, 0x10123800, Some 0x50123800, Some 21, Some 16, Some 0x20045680, Some 21, Some (5%nat, 0x73800));
     (0x4c000224, 0xC00000000000010c, Some 0x5000010c, Some 21, Some 16, None, None, Some (5%nat, 0x73800))].
Proof. vm_compute. reflexivity. Qed.

(** What the file does not keep.  Unset fields of records reach the writer,
    which can fail. *)
Theorem C57_junk_refuted : ~ forall junk, (forall n, typed (junk n)) ->
  exists f, htmdecoder Tlb_Props.isort quiet junk (bytes_of (insn_words (plain 0x60000000))) true = COk f.
Proof. exact junk_asserts. Qed.
Print Assumptions C57_junk_refuted.

(** Real pages are cut to 32 bits. *)
Theorem C57_page_refuted : ~ forall p, p < 2 ^ 38 ->
  map v_ra (views (conv (insn_words (at_page 0x1000 p)))) = [Some (p * 2 ^ 12)].
Proof. exact page_truncated. Qed.
Print Assumptions C57_page_refuted.

(** An instruction behind another one in memory is put in its page, also when
    it is the first of the next page. *)
Theorem C57_crossing_refuted : ~ forall a p p', a mod 4 = 0 -> a < 2 ^ 32 -> p < 2 ^ 32 -> p' < 2 ^ 32 ->
  a / 2 ^ 12 <> (a + 4) / 2 ^ 12 ->
  map v_ra (views (conv (insn_words (at_page a p) ++ insn_words (at_page (a + 4) p'))))
  = [Some (p * 2 ^ 12 + a mod 2 ^ 12); Some (p' * 2 ^ 12 + (a + 4) mod 2 ^ 12)].
Proof. exact crossing_lost. Qed.
Print Assumptions C57_crossing_refuted.

(** The data of a load before a jump is put in a page with the shift of the
    guest's page of the target. *)
Theorem C57_data_refuted : ~ forall d x, d < 2 ^ 52 -> x < 2 ^ 52 -> x mod 4096 = 0 ->
  d mod 2 ^ 21 / 4096 = x mod 2 ^ 21 / 4096 ->
  map v_dra (views (conv (file10 true start10 (load_jump d x)))) = [Some (x + d mod 4096); None].
Proof. exact data_swapped. Qed.
Print Assumptions C57_data_refuted.

(** A word 0 ends the file for the reader. *)
Theorem C57_zero_refuted : ~ forall w, w < 2 ^ 32 ->
  map v_insn (views (conv (file10 true start10 [JInsn (zero_word 0x60000000); JInsn (zero_word w)])))
  = [0x60000000; w].
Proof. exact zero_lost. Qed.
Print Assumptions C57_zero_refuted.
