(** C83: the tables of qtdis. *)
Require Import NArith ZArith List Bool Lia ZifyBool ZifyN ZifyNat.
Require Import Verif.Storage_Spec Verif.Step_Model Verif.Step_Spec Verif.Pids_Model Verif.Pids_Spec.
Require Import Verif.Tracer_Model Verif.Tracer_Spec Verif.Tracer_Proofs3 Verif.Tracer_Proofs4.
Require Import Verif.Word Verif.Codec_Types Verif.Codec_Spec Verif.HtmBits_Spec Verif.Writer_Model Verif.Reader_Model Verif.Htm_Model.
Require Import Verif.Stats_Model Verif.Stats_Spec Verif.Opcode_Table Verif.Opcode_Spec.
Require Import Verif.Trace_Spec Verif.Trace8_Proofs5 Verif.Trace8_Props Verif.Trace10_Spec Verif.Trace10_Proofs7 Verif.Trace10_Props.
Require Import Verif.Convert_Model Verif.Convert_Spec Verif.Convert_Proofs4 Verif.Convert_Props.
Require Import Verif.Tools_Model Verif.Tools_Spec Verif.Tools_Proofs Verif.Tools_Proofs2 Verif.Tools_Proofs3.
Require Verif.Tlb_Model Verif.Tlb_Spec Verif.Tlb_Props Verif.Bb_Model Verif.Bb_Props.
Require Verif.Tools_Props.
Require Import Verif.Table_Model Verif.Table_Spec Verif.Table_Proofs2 Verif.Table_Proofs3.
Require Verif.Htm_Props Verif.Stats_Props.
Import ListNotations.
Local Open Scope N_scope.
Local Open Scope list_scope.

(** qtdis -s -i of the file htmdecoder -o wrote for the trace, and of the file
    of a session of ptracer, see C68. *)
Theorem C83_qtdis8 : forall nan eqs (stats imix : bool) qs stale junk bad items slack, sorter eqs ->
  (forall n, quiet8 (junk n)) ->
  Tlb_Spec.sorter qs -> (forall z, List.length (stale z) = 8%nat) ->
  let ws := flat_map words8 items in
  (Z.of_nat (List.length ws) < 2 ^ 30)%Z -> trace8_ok 0 items ->
  Tlb_Spec.no_mixed_overlap (pages8 0 items) -> Tlb_Spec.top_unused [] (pages8 0 items) ->
  bad = true \/ other (be_val (stale (Z.of_nat (List.length ws)))) -> (4 <= List.length slack)%nat ->
  Forall whole8 items ->
  exists file t1 t2, htmdecoder qs stale junk (bytes_of ws) bad = COk file /\
    qtdis_tables nan eqs stats imix slack file = Some (t1 ++ t2) /\
    (if stats then stats_table dec nan (insns8 0 items) t1 else t1 = []) /\
    (if imix then mix_table dec nan (insns8 0 items) t2 else t2 = []).
Proof.
  intros nan eqs stats imix qs stale junk bad items slack Q J QS SL ws SM OK NM TU OT LS WH.
  destruct (Tools_Props.C68_power8 qs stale junk bad items slack J QS SL SM OK NM TU OT LS WH)
    as (file & F & (r & _ & E & ST) & _).
  destruct (qtdis_printed nan eqs stats imix slack file (insns8 0 items) r Q) as (t1 & t2 & H); [|exact E|exact ST|].
  - pose proof (length8 items 0). fold ws in H. change (2 ^ 30)%Z with 1073741824%Z in SM. change (2 ^ 31) with 2147483648. lia.
  - exists file, t1, t2. split; [exact F|exact H].
Qed.
Print Assumptions C83_qtdis8.
Theorem C83_tracer : forall nan eqs (stats imix : bool) be xl max tp skip left l0 t evs ks slack, sorter eqs ->
  left < 2 ^ 64 -> holds max t l0 -> (List.length l0 <= max)%nat -> Forall2 (is_kind xl tp) evs ks ->
  (4 <= List.length slack)%nat ->
  let '(p, ended) := session tp skip left 0 (combine evs ks) in
  let w := wanted skip left (flat_map saw p) in
  ended = true -> N.of_nat (List.length w) < 2 ^ 31 ->
  Forall (fun x => s_word x <> 0 /\ whole_word (s_word x)) w ->
  let xs := List.map (fun s => (s_addr s, s_word s)) w in
  exists file t1 t2, ptracer_file (main_loop be max xl tp (start skip left t tp) evs) = FClosed file /\
    qtdis_tables nan eqs stats imix slack file = Some (t1 ++ t2) /\
    (if stats then stats_table dec nan xs t1 else t1 = []) /\
    (if imix then mix_table dec nan xs t2 else t2 = []).
Proof.
  intros nan eqs stats imix be xl max tp skip left l0 t evs ks slack Q L HO LE K LS.
  pose proof (Tools_Props.C68_tracer be xl max tp skip left l0 t evs ks slack L HO LE K LS) as T.
  destruct (session tp skip left 0 (combine evs ks)) as [p ended]. cbn zeta in *. intros E B W.
  destruct (T E B W) as (file & F & (r & ES & ST) & _).
  destruct (qtdis_printed nan eqs stats imix slack file _ r Q ltac:(rewrite map_length; exact B) ES ST) as (t1 & t2 & H).
  exists file, t1, t2. split; [exact F|exact H].
Qed.
Print Assumptions C83_tracer.

(** The trace of C55: both tools print the same. *)
Example C83_ex_qtdis : let ws := flat_map words8 ex8 in
  qtdis_tables [] Stats_Props.isort true true (repeat 0 4) (file_of (conv ws))
  = htmdecoder_tables [] Stats_Props.isort Bb_Props.isort true true false Tlb_Props.isort quiet no_junk (bytes_of ws) true
  /\ exists t, qtdis_tables [] Stats_Props.isort true true (repeat 0 4) (file_of (conv ws)) = Some t /\ List.length t = 641%nat.
Proof. vm_compute. split; [reflexivity|]. eexists. split; reflexivity. Qed.
