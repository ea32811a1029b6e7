(** C68: the tools count the same instructions. *)
Require Import NArith ZArith List Bool.
Require Import Verif.Storage_Spec Verif.Step_Model Verif.Step_Spec Verif.Pids_Model Verif.Pids_Spec.
Require Import Verif.Tracer_Model Verif.Tracer_Spec Verif.Tracer_Proofs3 Verif.Tracer_Proofs4.
Require Import Verif.Word Verif.Codec_Types Verif.Codec_Spec Verif.HtmBits_Spec Verif.Writer_Model Verif.Reader_Model Verif.Htm_Model.
Require Import Verif.Stats_Model Verif.Stats_Spec Verif.Opcode_Table Verif.Opcode_Spec.
Require Import Verif.Trace_Spec Verif.Trace8_Proofs5 Verif.Trace8_Props Verif.Trace10_Spec Verif.Trace10_Proofs7 Verif.Trace10_Props.
Require Import Verif.Convert_Model Verif.Convert_Spec Verif.Convert_Proofs4 Verif.Convert_Props.
Require Import Verif.Tools_Model Verif.Tools_Spec Verif.Tools_Proofs Verif.Tools_Proofs2 Verif.Tools_Proofs3.
Require Verif.Tlb_Model Verif.Tlb_Spec Verif.Tlb_Props Verif.Bb_Model Verif.Bb_Props.
Import ListNotations.
Local Open Scope N_scope.

(** For every POWER8 or POWER9 trace as in C57: statistics and mix of
    htmdecoder -s and -i are those of qtdis -s and -i for the file htmdecoder
    writes, and those of the instructions of the trace; the basic blocks of
    htmdecoder -b are those of qtdis -c; qtdis lists exactly these
    instructions. *)
Theorem C68_power8 : forall qs stale junk bad items slack, (forall n, quiet8 (junk n)) ->
  Tlb_Spec.sorter qs -> (forall z, length (stale z) = 8%nat) ->
  let ws := flat_map words8 items in
  (Z.of_nat (length ws) < 2 ^ 30)%Z -> trace8_ok 0 items ->
  Tlb_Spec.no_mixed_overlap (pages8 0 items) -> Tlb_Spec.top_unused [] (pages8 0 items) ->
  bad = true \/ other (be_val (stale (Z.of_nat (length ws)))) -> (4 <= length slack)%nat ->
  Forall whole8 items ->
  exists file, htmdecoder qs stale junk (bytes_of ws) bad = COk file
    /\ (exists r, htmdecoder_stats qs stale junk (bytes_of ws) bad = Some r /\ qtdis_stats slack file = Some r
        /\ statistics (insns8 0 items) r)
    /\ (forall sort, exists b, htmdecoder_blocks sort qs stale junk (bytes_of ws) bad = Some b
        /\ qtdis_blocks sort slack file = Some b)
    /\ qtdis_lines slack file = Some (map (fun x => (fst x, [snd x])) (insns8 0 items)).
Proof. exact tools8. Qed.
Print Assumptions C68_power8.

(** For every POWER10 trace as in C57 with at most one data address per
    instruction: the basic blocks are the same, also with prefixed
    instructions; statistics and mix are those of the suffixes for htmdecoder
    and those of the prefixes for qtdis, so the same without prefixed
    instructions. *)
Theorem C68_power10 : forall qs stale junk bad items slack, (forall n, quiet10 (junk n)) ->
  (forall z, length (stale z) = 8%nat) ->
  let ws := file10 true start10 items in
  (Z.of_nat (length ws) < 2 ^ 30)%Z -> trace10_ok true start10 items -> Forall worded10 items ->
  bad = true \/ other (be_val (stale (Z.of_nat (length ws)))) -> (4 <= length slack)%nat ->
  Forall whole10 items -> Forall one_data10 items ->
  exists file, htmdecoder qs stale junk (bytes_of ws) bad = COk file
    /\ (exists r, htmdecoder_stats qs stale junk (bytes_of ws) bad = Some r /\ statistics (insns10 true start10 items) r
        /\ (Forall unprefixed10 items -> qtdis_stats slack file = Some r))
    /\ (exists r, qtdis_stats slack file = Some r /\ statistics (heads10 start10 items) r)
    /\ (forall sort, exists b, htmdecoder_blocks sort qs stale junk (bytes_of ws) bad = Some b
        /\ qtdis_blocks sort slack file = Some b).
Proof. exact tools10. Qed.
Print Assumptions C68_power10.

(** For every run of ptracer as in C58 that ends and meets no prefixed
    instruction: qtdis -s, -i and -c of its file count exactly the wanted
    instructions, and qtdis lists them. *)
Theorem C68_tracer : forall be xl max tp skip left l0 t evs ks slack,
  left < 2 ^ 64 -> holds max t l0 -> (length l0 <= max)%nat -> Forall2 (is_kind xl tp) evs ks ->
  (4 <= length slack)%nat ->
  let '(p, ended) := session tp skip left 0 (combine evs ks) in
  let w := wanted skip left (flat_map saw p) in
  ended = true -> N.of_nat (length w) < 2 ^ 31 -> Forall (fun x => s_word x <> 0 /\ whole_word (s_word x)) w ->
  let xs := map (fun s => (s_addr s, s_word s)) w in
  exists file, ptracer_file (main_loop be max xl tp (start skip left t tp) evs) = FClosed file
    /\ (exists r, qtdis_stats slack file = Some r /\ statistics xs r)
    /\ (forall sort, qtdis_blocks sort slack file =
          match Bb_Model.bb_run (map fst xs) with
          | Bb_Model.BOk s => Some (Bb_Model.bb_dump sort s) | Bb_Model.BErr e => Some (Bb_Model.BErr e) end)
    /\ qtdis_lines slack file = Some (map (fun x => (fst x, [snd x])) xs).
Proof. exact tracer_ok. Qed.
Print Assumptions C68_tracer.

(** The traces of C55 and C56 and the run of C58. *)
Example C68_ex_ok : Forall whole8 ex8 /\ Forall whole10 ex10 /\ Forall one_data10 ex10.
Proof. split; [|split]; repeat constructor; vm_compute; discriminate || reflexivity || auto. Qed.
Example C68_ex_lines8 : qtdis_lines (repeat 0 4) (file_of (conv (flat_map words8 ex8)))
  = Some [(0xC000000000001000, [0xE8640008]); (0xC000000000001004, [0x7C632214]);
          (0xC000000000001008, [0x48000100]); (0xC000000000001108, [0x60000000])].
Proof. vm_compute. reflexivity. Qed.
Example C68_ex_stats8 :
  let told r := option_map (fun r => (option_map (fun s => (t_total s, t_system s)) (fst r), option_map x_unknown (snd r))) r in
  told (qtdis_stats (repeat 0 4) (file_of (conv (flat_map words8 ex8)))) = Some (Some (4, 4), Some 0)
  /\ told (htmdecoder_stats Tlb_Props.isort quiet no_junk (bytes_of (flat_map words8 ex8)) true) = Some (Some (4, 4), Some 0).
Proof. split; vm_compute; reflexivity. Qed.
Example C68_ex_blocks10 : let ws := file10 true start10 ex10 in
  qtdis_blocks Bb_Props.isort (repeat 0 4) (file_of (conv ws))
  = htmdecoder_blocks Bb_Props.isort Tlb_Props.isort quiet no_junk (bytes_of ws) true
  /\ exists b, qtdis_blocks Bb_Props.isort (repeat 0 4) (file_of (conv ws)) = Some (Bb_Model.BOk b) /\ length b = 3%nat.
Proof. split; [vm_compute; reflexivity|]. eexists. split; vm_compute; reflexivity. Qed.
Example C68_ex_tracer : match ptracer_file (ex_run 0 100) with
  | FClosed f => option_map (map fst) (qtdis_lines (repeat 0 4) f)
                 = Some [0x410000; 0x410004; 0x410008; 0x41000c; 0x410010; 0x410014]
  | _ => False end.
Proof. vm_compute. reflexivity. Qed.

(** A prefixed instruction is counted as its suffix by htmdecoder -i, and as an
    unknown instruction by qtdis -i: in the trace of C56 they differ. *)
Theorem C68_prefix_refuted : ~ forall items file, (Z.of_nat (length (file10 true start10 items)) < 2 ^ 30)%Z ->
  trace10_ok true start10 items -> Forall worded10 items -> Forall whole10 items -> Forall one_data10 items ->
  conv (file10 true start10 items) = COk file ->
  qtdis_stats (repeat 0 4) file
  = htmdecoder_stats Tlb_Props.isort quiet no_junk (bytes_of (file10 true start10 items)) true.
Proof. exact prefix_differs. Qed.
Print Assumptions C68_prefix_refuted.

(** ptracer records only the prefix of a prefixed instruction.  The readers
    take the instruction behind it for the suffix, and qtdis does not list it:
    of pla, nop and add it shows two. *)
Theorem C68_tracer_prefix_refuted : ~ forall evs ks file,
  Forall2 (is_kind true 77) evs ks ->
  ptracer_file (main_loop false 4 true 77 (start 0 100 table1 77) evs) = FClosed file ->
  option_map (map fst) (qtdis_lines (repeat 0 4) file)
  = Some (map s_addr (flat_map saw (fst (session 77 0 100 0 (combine evs ks))))).
Proof. exact prefix_tracer. Qed.
Print Assumptions C68_tracer_prefix_refuted.
