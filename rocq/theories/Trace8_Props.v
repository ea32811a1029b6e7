(** C55: POWER8 and POWER9 traces, from the file to the records. *)
Require Import NArith ZArith List Bool.
Require Import Verif.Word Verif.Codec_Types Verif.HtmBits_Spec Verif.Htm_Model Verif.Trace_Spec.
Require Import Verif.Trace8_Proofs4 Verif.Trace8_Proofs5.
Require Verif.Tlb_Model Verif.Tlb_Spec Verif.Tlb_Props Verif.Bb_Model.
Import ListNotations.
Local Open Scope N_scope.

(** For every sequence of stamps, instructions, flushed instructions and other
    words, every sort, every content of buffers and of uninitialised records:
    decoding the file succeeds; the records are those the words stand for, in
    order, with real addresses from the trace or from the latest page given
    for the address; the instructions, their addresses given to the basic
    block table, and the counters are those of the trace.  [full]: records are
    wanted.  [bad]: the file ends with an error. *)
Theorem C55_trace8 : forall qs stale junk full bad items,
  Tlb_Spec.sorter qs -> (forall z, length (stale z) = 8%nat) ->
  let ws := flat_map words8 items in
  (Z.of_nat (length ws) < 2 ^ 30)%Z -> trace8_ok 0 items ->
  (full = true -> Tlb_Spec.no_mixed_overlap (pages8 0 items)
                  /\ Tlb_Spec.top_unused [] (pages8 0 items)) ->
  bad = true \/ other (be_val (stale (Z.of_nat (length ws)))) ->
  exists s, htm_decode qs stale junk full (bytes_of ws) bad = HOk s
    /\ Forall2 tells (if full then records8 [] 0 items else []) (h_out s)
    /\ h_log s = insns8 0 items
    /\ Bb_Model.bb_run (map fst (insns8 0 items)) = Bb_Model.BOk (h_bb s)
    /\ (forall c, counted c -> h_stat s c = count_of c (flat_map (events8 full) items) mod 2 ^ 32).
Proof. exact trace8. Qed.
Print Assumptions C55_trace8.

(** A time stamp; a load with everything, with a pause stamp before its data
    address; an addition behind it; a branch; a word at an address in the page
    of the load; a flushed instruction; a word without a mark. *)
Definition ex_load : insn8 :=
  mk_insn8 0xE8640008 0xE8640008 false 0 0 false
    (Some ([], 0xC000000000001001)) (Some ([], 0x12340 * 2 ^ 26 + 2 * 2 ^ 24))
    (Some ([(0xACEFF20000000007, RPause 7)], 0xC000000001234568))
    (Some ([], 2 ^ 62 + 0x45670 * 2 ^ 24)).
Definition ex_branch : insn8 :=
  mk_insn8 (iform 0x40 false false) (p8_i_rel false false 0x40 false 0xC000000000001008) true 0 0
    false None None None None.
Definition ex_target : insn8 :=
  mk_insn8 0x60000000 0x60000000 false 0 0 false (Some ([], 0xC000000000001109)) None None None.
Definition ex8 : list item8 :=
  [IStamp 0xACEFF80000000005 (RTime (Normal 5)); IInsn ex_load; IInsn (plain 0x7C632214);
   IInsn ex_branch; IInsn ex_target; IInvalid 0x600000000ABCDE40; IOther 0x1234].
Ltac fact := first [reflexivity | discriminate | (intros [X Y]; vm_compute in X; vm_compute in Y; discriminate)
                    | (intros X; vm_compute in X; discriminate)].
Example C55_ex_ok : trace8_ok 0 ex8 /\ Tlb_Spec.no_mixed_overlap (pages8 0 ex8)
  /\ Tlb_Spec.top_unused [] (pages8 0 ex8).
Proof.
  split; [|split].
  - split; [split; [reflexivity|apply stamp_time; reflexivity]|].
    split; [|split; [|split; [|split; [|split; [|split; [|exact I]]]]]]; repeat split; try fact.
    + apply s8_other. fact.
    + constructor.
    + constructor.
    + constructor; [|constructor]. split; [reflexivity|]. apply stamp_pause. reflexivity.
    + constructor.
    + apply s8_other. fact.
    + apply s8_b; fact.
    + apply s8_other. fact.
    + constructor.
  - intros a1 f1 r1 s1 a2 f2 r2 s2 I1 _ I2 _. destruct I1 as [I1|[I1|[]]], I2 as [I2|[I2|[]]]; try discriminate.
    injection I1 as _ _ _ <-. injection I2 as _ _ _ <-. left. reflexivity.
  - split; [|exact I]. intros _ page size E. vm_compute in E. injection E as <- <-. reflexivity.
Qed.
(** The real address of the last instruction is in the page of the load. *)
Example C55_ex_records : records8 [] 0 ex8 =
  [EStamp (RTime (Normal 5)); EStamp (RPause 7);
   EInsn 0xE8640008 0xC000000000001000 (Some (0x12341000, 16)) (Some 0xC000000001234568)
     (Some (0x45674568, 16));
   EInsn 0x7C632214 0xC000000000001004 None None None;
   EInsn 0x48000100 0xC000000000001008 None None None;
   EInsn 0x60000000 0xC000000000001108 (Some (0x12341108, 16)) None None].
Proof. vm_compute. reflexivity. Qed.
Example C55_ex_counts : map (fun c => count_of c (flat_map (events8 true) ex8))
    [RecordsProcessed; InsnScanned; InsnProcessed; WithIra; WithoutIra; InsnPages 16; Cycles; TsScanned]
  = [7; 5; 4; 1; 3; 1; 5; 1].
Proof. vm_compute. reflexivity. Qed.
Example C55_ex_decoded :
  match htm_decode Tlb_Props.isort quiet no_junk true (bytes_of (flat_map words8 ex8)) false with
  | HOk s => length (h_out s) = 6%nat /\ map fst (h_log s) = [0xC000000000001000; 0xC000000000001004; 0xC000000000001008; 0xC000000000001108]
             /\ h_stat s WithoutIra = 3
  | HErr _ => False
  end.
Proof. vm_compute. repeat split; reflexivity. Qed.

(** Conditions that cannot be left out.  A halfword load with update whose word
    starts like a stamp is lost: the opcode is in the bits of the mark. *)
Theorem C55_opcode_refuted : ~ forall raw s, 0 < raw < 2 ^ 32 -> field 32 raw 0 5 <> 19 ->
  one_insn (plain raw) = HOk s -> h_log s = [(4, raw)].
Proof. exact opcode_lost. Qed.
Print Assumptions C55_opcode_refuted.

(** A data address with the mark of instructions in the middle is lost, and
    its word is read as an instruction. *)
Theorem C55_data_refuted : ~ forall dea s, dea < 2 ^ 64 -> field 64 dea 0 19 <> 0xACEFF ->
  one_insn (load_at dea) = HOk s ->
  Forall2 tells [EInsn 0xE8640008 4 None (Some dea) None] (h_out s).
Proof. exact data_lost. Qed.
Print Assumptions C55_data_refuted.

(** The branch flags of the records are not set. *)
Theorem C55_junk_refuted : ~ forall junk s,
  htm_decode Tlb_Props.isort quiet junk true (bytes_of (insn_words (plain 0x60000000))) true = HOk s ->
  exists q, h_out s = [RInsn q] /\ q_branch q = false.
Proof. exact branch_junk. Qed.
Print Assumptions C55_junk_refuted.

(** The counter of jumps that are not branches counts those that are. *)
Theorem C55_jumps_refuted : forall branch,
  exists s, htm_decode Tlb_Props.isort quiet no_junk true (bytes_of (flat_map words8 (pair_of branch))) true = HOk s
    /\ h_stat s BranchesAfterNonBranches = (if branch then 1 else 0).
Proof. exact jumps_counted. Qed.
Print Assumptions C55_jumps_refuted.
