(** The tables of the tools. *)
Require Import NArith ZArith List Bool String Lia ZifyBool ZifyN ZifyNat.
Require Import Verif.Codec_Types Verif.HtmBits_Spec Verif.Htm_Model Verif.Stats_Model Verif.Stats_Spec.
Require Import Verif.Trace_Spec Verif.Trace8_Proofs4 Verif.Trace10_Spec Verif.Trace10_Proofs5 Verif.Convert_Proofs2.
Require Import Verif.Tools_Model Verif.Tools_Spec Verif.Tools_Proofs.
Require Import Verif.Table_Model Verif.Table_Spec Verif.Table_Proofs Verif.Table_Proofs2.
Require Verif.Trace8_Props Verif.Trace10_Props Verif.Tlb_Model Verif.Tlb_Spec Verif.Bb_Model Verif.Bb_Spec.
Import ListNotations.
Local Open Scope N_scope.
Local Open Scope list_scope.

Lemma wf8 : forall items prev, trace8_ok prev items -> Forall wf (insns8 prev items).
Proof.
  induction items as [|x items IH]; intros prev OK; [constructor|]. cbn [trace8_ok] in OK. destruct OK as [O1 O2].
  specialize (IH _ O2). destruct x as [w r|i|w|w]; cbn [insns8 next8] in *; try exact IH.
  constructor; [|exact IH]. split; cbn [fst snd].
  - apply addr_lt. exact O1.
  - destruct O1 as (SH & RW & _). exact (proj2 (shown_small _ _ _ _ RW SH)).
Qed.
Lemma length8 : forall items prev, (List.length (insns8 prev items) <= List.length (flat_map words8 items))%nat.
Proof.
  induction items as [|x items IH]; intros prev; [reflexivity|]. cbn [flat_map]. rewrite app_length.
  destruct x as [w r|i|w|w]; cbn [insns8 next8 words8 List.length]; try (specialize (IH prev); lia).
  specialize (IH (addr8 i prev)). unfold insn_words. cbn [List.length]. lia.
Qed.
Lemma wf10 : forall full items z, z_ea z < 2 ^ 64 -> trace10_ok full z items -> Forall wf (insns10 full z items).
Proof.
  intros full items z Z (tb & _ & OK). revert z Z OK. induction items as [|x items IH]; intros z Z OK; [constructor|].
  cbn [trace10_by] in OK. destruct OK as [O1 O2]. cbn [insns10].
  destruct x as [w r|i|w]; cbn [item10_ok step10 app] in *; try (apply IH; assumption).
  assert (EA : ea10 i z < 2 ^ 64) by (apply line_lt; [exact Z|apply O1]).
  constructor; [split; [exact EA|apply O1]|]. apply IH; [|exact O2]. unfold next10. destruct full; exact EA.
Qed.
Lemma length10 : forall full items z, (List.length (insns10 full z items) <= List.length (file10 full z items))%nat.
Proof.
  intros full. induction items as [|x items IH]; intros z; [reflexivity|]. cbn [insns10 file10]. rewrite !app_length.
  specialize (IH (step10 full z x)).
  assert ((List.length (match x with JInsn i => [(ea10 i z, t_insn i)] | _ => [] end) <= List.length (words10 z x))%nat); [|lia].
  destruct x as [w r|i|w]; cbn [words10 List.length]; [lia| |lia].
  unfold words_of, insn10_words. rewrite !flat_map_app, !app_length. cbn [flat_map List.length app]. rewrite !app_length. cbn [List.length]. lia.
Qed.

Lemma printed nan qs sort (stats imix blk : bool) log bb : sorter qs -> Bb_Spec.sorter sort -> Forall wf log ->
  N.of_nat (List.length log) < 2 ^ 31 -> Bb_Model.bb_run (List.map fst log) = Bb_Model.BOk bb ->
  exists t1 t2 t3, print_tables nan qs sort stats imix blk log bb = Some (t1 ++ t2 ++ t3) /\
    (if stats then stats_table dec nan log t1 else t1 = []) /\
    (if imix then mix_table dec nan log t2 else t2 = []) /\
    (if blk then block_table dec dec02 hex16 nan (List.map fst log) t3 else t3 = []).
Proof.
  intros Q QB W B R. pose proof (ppcstats_ok log W) as ST. unfold print_tables.
  destruct ST as (s & x & E & ST). rewrite E.
  destruct (tables_ok nan qs log stats imix s x Q B (ex_intro _ s (ex_intro _ x (conj eq_refl ST)))) as (t1 & t2 & P & H1 & H2).
  destruct (blocks_ok nan sort (List.map fst log) bb QB) as (t & T & H3); [|rewrite map_length; exact B|exact R|].
  { rewrite Forall_forall in *. intros a I. apply in_map_iff in I as (y & <- & I). apply W, I. }
  rewrite T. exists t1, t2, (if blk then t else []). split.
  - f_equal. rewrite app_assoc. f_equal. destruct stats, imix; cbn [orb]; exact P.
  - split; [exact H1|]. split; [exact H2|]. destruct blk; [exact H3|reflexivity].
Qed.

Lemma tables8 nan eqs sort (stats imix blk : bool) qs stale junk bad items : sorter eqs -> Bb_Spec.sorter sort ->
  Tlb_Spec.sorter qs -> (forall z, List.length (stale z) = 8%nat) ->
  let ws := flat_map words8 items in
  (Z.of_nat (List.length ws) < 2 ^ 30)%Z -> trace8_ok 0 items ->
  bad = true \/ other (be_val (stale (Z.of_nat (List.length ws)))) ->
  exists t1 t2 t3, htmdecoder_tables nan eqs sort stats imix blk qs stale junk (bytes_of ws) bad = Some (t1 ++ t2 ++ t3) /\
    (if stats then stats_table dec nan (insns8 0 items) t1 else t1 = []) /\
    (if imix then mix_table dec nan (insns8 0 items) t2 else t2 = []) /\
    (if blk then block_table dec dec02 hex16 nan (List.map fst (insns8 0 items)) t3 else t3 = []).
Proof.
  intros Q QB QS SL ws SM OK OT.
  destruct (Trace8_Props.C55_trace8 qs stale junk false bad items QS SL SM OK) as (s & E & _ & LG & BB & _);
    [discriminate|exact OT|].
  unfold htmdecoder_tables. fold ws in E. rewrite E, LG. apply printed; try assumption; [apply wf8, OK|].
  pose proof (length8 items 0). fold ws in H. change (2 ^ 30)%Z with 1073741824%Z in SM. change (2 ^ 31) with 2147483648. lia.
Qed.
Lemma tables10 nan eqs sort (stats imix blk : bool) qs stale junk bad items : sorter eqs -> Bb_Spec.sorter sort ->
  (forall z, List.length (stale z) = 8%nat) ->
  let ws := file10 false start10 items in
  (Z.of_nat (List.length ws) < 2 ^ 30)%Z -> trace10_ok false start10 items ->
  bad = true \/ other (be_val (stale (Z.of_nat (List.length ws)))) ->
  exists t1 t2 t3, htmdecoder_tables nan eqs sort stats imix blk qs stale junk (bytes_of ws) bad = Some (t1 ++ t2 ++ t3) /\
    (if stats then stats_table dec nan (insns10 false start10 items) t1 else t1 = []) /\
    (if imix then mix_table dec nan (insns10 false start10 items) t2 else t2 = []) /\
    (if blk then block_table dec dec02 hex16 nan (List.map fst (insns10 false start10 items)) t3 else t3 = []).
Proof.
  intros Q QB SL ws SM OK OT.
  destruct (Trace10_Props.C56_trace10 qs stale junk false bad items SL SM OK OT) as (s & E & _ & LG & BB & _).
  unfold htmdecoder_tables. fold ws in E. rewrite E, LG. apply printed; try assumption; [apply wf10; [reflexivity|exact OK]|].
  pose proof (length10 false items start10). fold ws in H. change (2 ^ 30)%Z with 1073741824%Z in SM. change (2 ^ 31) with 2147483648. lia.
Qed.

(** qtdis *)
Lemma qtdis_printed nan eqs (stats imix : bool) slack file xs r : sorter eqs -> N.of_nat (List.length xs) < 2 ^ 31 ->
  qtdis_stats slack file = Some r -> statistics xs r ->
  exists t1 t2, qtdis_tables nan eqs stats imix slack file = Some (t1 ++ t2) /\
    (if stats then stats_table dec nan xs t1 else t1 = []) /\ (if imix then mix_table dec nan xs t2 else t2 = []).
Proof.
  intros Q B E ST. unfold qtdis_tables. rewrite E. pose proof ST as (s & x & E' & _). rewrite E' in *.
  destruct (tables_ok nan eqs xs stats imix s x Q B ST) as (t1 & t2 & P & H1 & H2).
  exists t1, t2. rewrite P. split; [reflexivity|]. split; assumption.
Qed.
