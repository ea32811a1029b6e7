(** C82: what htmdecoder -d and -D print. *)
Require Import NArith ZArith List Bool String Lia.
Require Import Verif.Word Verif.Codec_Types Verif.HtmBits_Spec Verif.Htm_Model Verif.Trace_Spec Verif.Trace10_Spec.
Require Import Verif.Trace8_Proofs5 Verif.Flow_Spec.
Require Import Verif.Tlbdump_Model.
Require Import Verif.Tlbdump_Spec.
Require Verif.Tlb_Model Verif.Tlb_Spec Verif.Tlb_Props Verif.Trace8_Props Verif.Trace10_Props.
Require Import Verif.Report_Model Verif.Report_Spec Verif.Report_Proofs2.
Import ListNotations.
Local Open Scope N_scope.
Local Open Scope list_scope.

(** The whole text of a POWER8 or POWER9 trace (hypotheses of C55): the lines of
    the records, the checksum and number of the words read, the counts, and the
    table of the pages. *)
Theorem C82_report8 : forall qs stale junk (full bad debug detail : bool) items,
  Tlb_Spec.sorter qs -> (forall z, List.length (stale z) = 8%nat) ->
  let ws := flat_map words8 items in
  let h : list Tlb_Model.op := if full then pages8 0 items else [] in
  (Z.of_nat (List.length ws) < 2 ^ 30)%Z -> trace8_ok 0 items ->
  (full = true -> Tlb_Spec.no_mixed_overlap (pages8 0 items) /\ Tlb_Spec.top_unused [] (pages8 0 items)) ->
  bad = true \/ other (be_val (stale (Z.of_nat (List.length ws)))) ->
  exists s rows, htm_decode_exit qs stale junk full (bytes_of ws) bad = HOk s /\
    table h rows /\
    htmdecoder_text debug detail s = Tlb_Model.TOk
      (whole_text dec dec02 pd hex8 hex16 debug detail (if full then records8 [] 0 items else [])
         (read_words stale bad ws) (counts8 full items) h rows).
Proof. exact report8. Qed.
Print Assumptions C82_report8.

(** The same for POWER10 traces (hypotheses of C56), which use no pages. *)
Theorem C82_report10 : forall qs stale junk (full bad debug detail : bool) items,
  (forall z, List.length (stale z) = 8%nat) ->
  let ws := file10 full start10 items in
  (Z.of_nat (List.length ws) < 2 ^ 30)%Z -> trace10_ok full start10 items ->
  bad = true \/ other (be_val (stale (Z.of_nat (List.length ws)))) ->
  exists s, htm_decode_exit qs stale junk full (bytes_of ws) bad = HOk s /\
    htmdecoder_text debug detail s = Tlb_Model.TOk
      (whole_text dec dec02 pd hex8 hex16 debug detail (if full then records10 full start10 items else [])
         (read_words stale bad ws) (counts10 full items) [] []).
Proof. exact report10. Qed.
Print Assumptions C82_report10.

(** The example of C55, with -D: first and last lines. *)
Fixpoint split (l line : list N) : list (list N) :=
  match l with
  | [] => []
  | c :: l' => if c =? 10 then rev line :: split l' [] else split l' (c :: line)
  end.
Example C82_ex8 :
  match htm_decode_exit Tlb_Props.isort quiet no_junk true (bytes_of (flat_map words8 Trace8_Props.ex8)) false with
  | HOk s => match htmdecoder_text true true s with
    | Tlb_Model.TOk t =>
        firstn 16 (split t []) = List.map codes
         ["TIME cycles = 5"; "PAUSEcycles = 7";
          "INSN  iea:c000000000001000 op:e8640008 ira:0000000012341000 ipgsize:16 dea:c000000001234568 dra:0000000045674568 dpgsize:16";
          "INSN  iea:c000000000001004 op:7c632214";
          "INSN  iea:c000000000001008 op:48000100";
          "INSN  iea:c000000000001108 op:60000000 ira:0000000012341108 ipgsize:16";
          "                                    RAW Checksum : 0x00000007277af7b3";
          "                           Total Records Scanned : 14";
          "                         Total Records Processed : 7";
          "                      Total Instructions Scanned : 5";
          "                    Total Instructions Processed : 4";
          "                        Total TimeStamps Scanned : 1";
          "                      Total TimeStamps Processed : 1";
          "         Total Cycles for Processed Instructions : 5";
          "                      Total Interrupts Processed : 0";
          "         Total Branches taken after Non branches : 1"]%string
        /\ List.length (split t []) = 55%nat
        /\ skipn 52 (split t []) = List.map codes
         ["TLBDUMP 00: ea:c000000000000000 ra:0000000012340000 size:00010000 miss:0 hit:1";
          "TLBDUMP no translation: 0 of 1"; "TLBDUMP replaced translations: 0"]%string
    | Tlb_Model.TErr _ => False
    end
  | HErr _ => False
  end.
Proof. vm_compute. repeat split; reflexivity. Qed.
(** The example of C56, with -d. *)
Example C82_ex10 :
  match htm_decode_exit Tlb_Props.isort quiet no_junk true (bytes_of (file10 true start10 Trace10_Props.ex10)) false with
  | HOk s => match htmdecoder_text false true s with
    | Tlb_Model.TOk t => 
        firstn 7 (split t []) = List.map codes
         ["INSN  iea:0000000010123404 op:e8640008 ira:0000000050123404 ipgsize:21 dea:0000000020045678 dra:0000000060045678 dpgsize:21";
          "INSN  iea:0000000010123408 op:06000000 ira:0000000050123408 ipgsize:21";
          "INSN  iea:000000001012340c op:38630001";
          "INSN  iea:0000000010123800 op:e8640010 ira:0000000050123800 ipgsize:21 dea:0000000020045680 dra:0000000060045680 dpgsize:21";
          "INSN  iea:c00000000000010c op:4c000224";
          "                                    RAW Checksum : 0x0000000f1a5065be";
          "                           Total Records Scanned : 79"]%string
        /\ skipn 51 (split t []) = List.map codes
         ["TLBDUMP no translation: 0 of 0"; "TLBDUMP replaced translations: 0"]%string
    | Tlb_Model.TErr _ => False
    end
  | HErr _ => False
  end.
Proof. vm_compute. repeat split; reflexivity. Qed.
(** Without -d and -D nothing is printed. *)
Theorem C82_quiet : forall s, htmdecoder_text false false s = Tlb_Model.TOk [].
Proof.
  intros s. unfold htmdecoder_text. cbn [orb]. f_equal. induction (h_out s) as [|r l IH]; [reflexivity|].
  cbn [flat_map]. rewrite IH. destruct r; reflexivity.
Qed.
Print Assumptions C82_quiet.
Example C82_quiet_ex : print_record false false (RTime (Normal 5)) = [] /\ print_record true true (RTime (Normal 5)) <> [].
Proof. split; [reflexivity|discriminate]. Qed.

(** ** The counts of jumps *)
(** No more interrupts are counted than there are jumps to vectors behind
    instructions that are no branches; all of them, if no target of a jump is
    left at once. *)
Theorem C82_interrupts : forall l,
  interrupts l <= jumps vector 0 false l /\ (settled 0 false l -> interrupts l = jumps vector 0 false l).
Proof. intros l. split; [apply interrupts_le|apply interrupts_eq]. Qed.
Print Assumptions C82_interrupts.
(** An interrupt at 0x1004, one at once behind a branch target. *)
Definition calm_visits : list visit := [(0x1000, false); (0x1004, false); (0x500, false); (0x504, false)].
Definition rash_visits : list visit := [(0x1000, false); (0x1004, true); (0x2000, false); (0x500, false)].
Example C82_interrupts_ex :
  settled 0 false calm_visits /\ interrupts calm_visits = 1 /\ jumps vector 0 false calm_visits = 1 /\
  interrupts rash_visits = 0 /\ jumps vector 0 false rash_visits = 1.
Proof. vm_compute. repeat split; discriminate || reflexivity. Qed.

(** The last in a trace: an interrupt that is not counted. *)
Definition nop_at (a : N) : item8 :=
  IInsn (mk_insn8 0x60000000 0x60000000 false 0 0 false (Some ([], a)) None None None).
Definition jump_at (a : N) : item8 :=
  IInsn (mk_insn8 (iform 0x40 false false) (p8_i_rel false false 0x40 false a) true 0 0 false (Some ([], a)) None None None).
Definition rash8 : list item8 := [nop_at 0x1000; jump_at 0x1004; nop_at 0x1104; nop_at 0x500].
(** Jumps behind other instructions that are not to vectors. *)
Definition stray8 : list item8 := [nop_at 0x1000; nop_at 0x5000; nop_at 0x5004; nop_at 0x9000].
Ltac fact := first [reflexivity | discriminate | (intros [X Y]; vm_compute in X; vm_compute in Y; discriminate)
                    | (intros X; vm_compute in X; discriminate)].
Lemma rash_ok : trace8_ok 0 rash8 /\ trace8_ok 0 stray8.
Proof.
  split; (split; [|split; [|split; [|split; [|exact I]]]]); repeat split; try fact; try (constructor; fact);
    try (apply s8_b; fact); constructor.
Qed.
Definition totals (items : list item8) : N * N :=
  match htm_decode_exit Tlb_Props.isort quiet no_junk true (bytes_of (flat_map words8 items)) false with
  | HOk s => (h_stat s Interrupts, h_stat s BranchesAfterNonBranches)
  | HErr _ => (99, 99)
  end.
(** "Total Interrupts Processed" misses interrupts taken right after a jump. *)
Theorem C82_interrupts_refuted : exists items, trace8_ok 0 items /\
  jumps vector 0 false (visits8 0 items) = 1 /\ fst (totals items) = 0.
Proof. exists rash8. split; [apply rash_ok|]. vm_compute. split; reflexivity. Qed.
Print Assumptions C82_interrupts_refuted.
(** "Total Branches taken after Non branches" counts jumps behind branches and
    not those behind other instructions. *)
Theorem C82_branches_refuted :
  (exists items, trace8_ok 0 items /\ jumps (fun _ => true) 0 false (visits8 0 items) = 0 /\ snd (totals items) = 1) /\
  (exists items, trace8_ok 0 items /\ jumps (fun _ => true) 0 false (visits8 0 items) = 2 /\ totals items = (0, 0)).
Proof.
  split.
  - exists Trace8_Props.ex8. split; [apply Trace8_Props.C55_ex_ok|]. vm_compute. split; reflexivity.
  - exists stray8. split; [apply rash_ok|]. vm_compute. split; reflexivity.
Qed.
Print Assumptions C82_branches_refuted.

(** The lines of data pages are 0 for every POWER8 and POWER9 trace, whatever
    pages its data addresses are in. *)
Theorem C82_data_pages_refuted :
  (forall full items n, counts8 full items (DataPages n) = 0) /\
  (exists items, trace8_ok 0 items /\ exists insn addr ira dea ra shift,
     In (EInsn insn addr ira dea (Some (ra, shift))) (records8 [] 0 items) /\ shift = 16).
Proof.
  split; [exact no_data_pages|]. exists Trace8_Props.ex8. split; [apply Trace8_Props.C55_ex_ok|].
  rewrite Trace8_Props.C55_ex_records. do 6 eexists. split; [right; right; left; reflexivity|reflexivity].
Qed.
Print Assumptions C82_data_pages_refuted.
