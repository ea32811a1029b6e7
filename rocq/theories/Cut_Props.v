(** C79: hardware traces that end early. *)
Require Import NArith ZArith List Bool.
Require Import Verif.Word Verif.Codec_Types Verif.Codec_Spec Verif.HtmBits_Spec Verif.Writer_Model Verif.Reader_Model Verif.Htm_Model.
Require Import Verif.Trace_Spec Verif.Trace8_Proofs5 Verif.Trace8_Props Verif.Convert_Model Verif.Convert_Proofs4 Verif.Stats_Model Verif.Tools_Model Verif.Tools_Proofs3.
Require Import Verif.Cut_Spec Verif.Cut_Proofs Verif.Cut_Proofs2.
Require Verif.Tlb_Model Verif.Tlb_Props.
Import ListNotations.
Local Open Scope N_scope.

(** For every file, of any bytes, and every place in it: if the file cannot be
    read from there on, then the records delivered and the instructions counted
    are the first of those of the whole file.  If the decoder dies, then it
    dies in the same way with the whole file, or by the limit of errors. *)
Theorem C79_records : forall qs stale junk full bytes n bad, (forall z, length (stale z) = 8%nat) ->
  match htm_decode qs stale junk full (firstn n bytes) true with
  | HErr e => htm_decode qs stale junk full bytes bad = HErr e \/ e = HAssert
  | HOk s => forall t, htm_decode qs stale junk full bytes bad = HOk t ->
             starts (h_out s) (h_out t) /\ starts (h_log s) (h_log t)
  end.
Proof. exact decode_cut_at. Qed.
Print Assumptions C79_records.
(** The trace of C55, cut in the middle of the load: after its real address, in
    the middle of a word; and whole. *)
Definition outs (n : nat) (bad : bool) : list hrec :=
  match htm_decode Tlb_Props.isort quiet no_junk true (firstn n (bytes_of (flat_map words8 ex8))) bad with
  | HOk s => h_out s | HErr _ => [] end.
Definition addresses (l : list hrec) : list N := map q_insn_addr (flat_map to_write l).
Example C79_records_ex : outs 46 true = [RTime (Normal 5); RPause 7]
  /\ outs 30 true = [RTime (Normal 5)]
  /\ addresses (outs 66 true) = [0xC000000000001000; 0xC000000000001004]
  /\ addresses (outs 200 true) = [0xC000000000001000; 0xC000000000001004; 0xC000000000001008; 0xC000000000001108].
Proof. vm_compute. repeat split; reflexivity. Qed.

(** htmdecoder -s and -i then count a beginning of the instructions. *)
Theorem C79_counts : forall qs stale junk bytes n bad r r', (forall z, length (stale z) = 8%nat) ->
  htmdecoder_stats qs stale junk (firstn n bytes) true = Some r ->
  htmdecoder_stats qs stale junk bytes bad = Some r' ->
  exists l rest, r = ppcstats l /\ r' = ppcstats (l ++ rest).
Proof.
  intros qs stale junk bytes n bad r r' Hst. unfold htmdecoder_stats.
  pose proof (decode_cut_at qs stale junk false bytes n bad Hst) as Q.
  destruct (htm_decode qs stale junk false (firstn n bytes) true) as [s|]; [|discriminate].
  destruct (htm_decode qs stale junk false bytes bad) as [t|]; [|discriminate].
  intros E1 E2. injection E1 as <-. injection E2 as <-. destruct (Q t eq_refl) as [_ [rest E]].
  exists (h_log s), rest. rewrite E. split; reflexivity.
Qed.
Print Assumptions C79_counts.

(** If the records of the whole file can be stored (C02), then htmdecoder
    writes a file from the beginning also.  Reading it gives one record for
    each of its instructions, and all but the last are the first of those of
    the whole file. *)
Theorem C79_file : forall qs stale junk bytes more bad s t slack,
  htm_decode qs stale junk true bytes true = HOk s ->
  htm_decode qs stale junk true (bytes ++ more) bad = HOk t ->
  frames (flat_map to_write (h_out t)) -> closes (flat_map to_write (h_out t)) -> (4 <= length slack)%nat ->
  exists f f', htmdecoder qs stale junk bytes true = COk f /\ htmdecoder qs stale junk (bytes ++ more) bad = COk f'
    /\ starts (removelast (seen slack f)) (seen slack f')
    /\ length (seen slack f) = length (flat_map to_write (h_out s)).
Proof. exact files. Qed.
Print Assumptions C79_file.
(** The last one is seen with another successor: the branch of the trace is
    not taken in the file of the beginning. *)
Definition cut_file (n : nat) : list N :=
  file_of (htmdecoder Tlb_Props.isort quiet no_junk (firstn n (bytes_of (flat_map words8 ex8))) true).
Example C79_file_ex :
  map (fun v => (v_addr v, v_taken v)) (seen (repeat 0 4) (cut_file 80))
  = [(0xC000000000001000, false); (0xC000000000001004, false); (0xC000000000001008, false)]
  /\ map (fun v => (v_addr v, v_taken v)) (seen (repeat 0 4) (cut_file 200))
  = [(0xC000000000001000, false); (0xC000000000001004, false); (0xC000000000001008, true); (0xC000000000001108, false)].
Proof. vm_compute. split; reflexivity. Qed.

(** Not so if the end is an end of file: the word read then is whatever the
    buffer contains (C30), and completes the record before it. *)
Theorem C79_eof_refuted : ~ forall bytes n s t, n mod 8 = 0 ->
  htm_decode Tlb_Props.isort quiet no_junk true (firstn (N.to_nat n) bytes) false = HOk s ->
  htm_decode Tlb_Props.isort quiet no_junk true bytes false = HOk t -> starts (h_out s) (h_out t).
Proof.
  intros Q. specialize (Q (bytes_of (flat_map words8 ex8)) 80).
  destruct (htm_decode Tlb_Props.isort quiet no_junk true (firstn (N.to_nat 80) (bytes_of (flat_map words8 ex8))) false) as [s|e] eqn:E1;
    [|vm_compute in E1; discriminate E1].
  destruct (htm_decode Tlb_Props.isort quiet no_junk true (bytes_of (flat_map words8 ex8)) false) as [t|e] eqn:E2;
    [|vm_compute in E2; discriminate E2].
  destruct (Q s t eq_refl eq_refl eq_refl) as [rest E].
  assert (A1 : addresses (h_out s) = [0xC000000000001000; 0xC000000000001004; 0xC000000000001008; 0]).
  { transitivity (addresses (outs 80 false)); [|vm_compute; reflexivity]. unfold outs. change 80%nat with (N.to_nat 80).
    rewrite E1. reflexivity. }
  assert (A2 : addresses (h_out t) = [0xC000000000001000; 0xC000000000001004; 0xC000000000001008; 0xC000000000001108]).
  { transitivity (addresses (outs 104 false)); [|vm_compute; reflexivity]. unfold outs.
    change (firstn 104 (bytes_of (flat_map words8 ex8))) with (firstn (length (bytes_of (flat_map words8 ex8))) (bytes_of (flat_map words8 ex8))).
    rewrite firstn_all, E2. reflexivity. }
  rewrite E in A2. unfold addresses in A1, A2. rewrite flat_map_app, map_app in A2.
  change (map q_insn_addr (flat_map to_write (h_out s)) = [0xC000000000001000; 0xC000000000001004; 0xC000000000001008; 0]) in A1.
  rewrite A1 in A2. discriminate A2.
Qed.
Print Assumptions C79_eof_refuted.

(** Nor does a beginning always decode if the whole does: after 101 errors in
    succession the record that is cut is one too many. *)
Theorem C79_limit_refuted : ~ forall bytes n t,
  htm_decode Tlb_Props.isort quiet no_junk true bytes true = HOk t ->
  exists s, htm_decode Tlb_Props.isort quiet no_junk true (firstn n bytes) true = HOk s.
Proof.
  intros Q. pose (b := bytes_of (repeat 0xACEFF50000000000 101 ++ insn_words ex_target)).
  destruct (htm_decode Tlb_Props.isort quiet no_junk true b true) as [t|e] eqn:E1; [|vm_compute in E1; discriminate E1].
  destruct (Q b 816%nat t E1) as [s E2]. vm_compute in E2. discriminate E2.
Qed.
Print Assumptions C79_limit_refuted.
