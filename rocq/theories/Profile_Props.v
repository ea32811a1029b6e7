(** C78: qtrace-bbv profiles the instructions of the trace. *)
Require Import NArith ZArith List Bool Permutation.
Require Import Verif.Storage_Spec Verif.Step_Model Verif.Step_Spec Verif.Pids_Model Verif.Pids_Spec.
Require Import Verif.Tracer_Model Verif.Tracer_Spec Verif.Tracer_Proofs3 Verif.Tracer_Proofs4.
Require Import Verif.Word Verif.Codec_Types Verif.Branch_Spec Verif.Codec_Spec Verif.HtmBits_Spec Verif.Writer_Model Verif.Reader_Model Verif.Htm_Model.
Require Import Verif.Trace_Spec Verif.Trace8_Proofs5 Verif.Trace8_Props Verif.Trace10_Spec Verif.Trace10_Proofs7 Verif.Trace10_Props.
Require Import Verif.Convert_Model Verif.Convert_Spec Verif.Convert_Proofs4 Verif.Tools_Proofs3.
Require Import Verif.Matrix_Model Verif.Matrix_Spec.
Require Import Verif.Bbv_Model Verif.Bbv_Spec Verif.Bbv_Props.
Require Import Verif.Profile_Model Verif.Profile_Spec Verif.Profile_Proofs Verif.Profile_Proofs2.
Require Verif.Tlb_Model Verif.Tlb_Spec Verif.Tlb_Props Verif.Tools_Model.
Import ListNotations.
Local Open Scope N_scope.

(** For every trace qtwriter writes: the tool opens the file and reads it to its
    end, and sees the instructions; a block ends at every branch and at every
    jump, and nowhere else. *)
Theorem C78_written : forall magic rs slack,
  magic < 2 ^ 32 -> frames rs -> closes rs -> (4 <= length slack)%nat ->
  exists file recs, write_trace magic rs = inr file /\ profiled slack file = Some recs
    /\ profile (map of_written rs) recs.
Proof. exact written_profile. Qed.
Print Assumptions C78_written.
(** For every POWER8 or POWER9 trace converted by htmdecoder as in C57.  Whether
    an instruction is a branch is not known (C55_junk_refuted), so blocks may
    be split, but never run over a jump. *)
Theorem C78_power8 : forall qs stale junk bad items slack, (forall n, quiet8 (junk n)) ->
  Tlb_Spec.sorter qs -> (forall z, length (stale z) = 8%nat) ->
  let ws := flat_map words8 items in
  (Z.of_nat (length ws) < 2 ^ 30)%Z -> trace8_ok 0 items ->
  Tlb_Spec.no_mixed_overlap (pages8 0 items) -> Tlb_Spec.top_unused [] (pages8 0 items) ->
  bad = true \/ other (be_val (stale (Z.of_nat (length ws)))) -> (4 <= length slack)%nat ->
  exists file recs, htmdecoder qs stale junk (bytes_of ws) bad = COk file /\ profiled slack file = Some recs
    /\ profile (map (fun x => (fst x, None)) (insns8 0 items)) recs.
Proof. exact profile8. Qed.
Print Assumptions C78_power8.
(** For every POWER10 trace; the two words of a prefixed instruction count as
    two. *)
Theorem C78_power10 : forall qs stale junk bad items slack, (forall n, quiet10 (junk n)) ->
  (forall z, length (stale z) = 8%nat) ->
  let ws := file10 true start10 items in
  (Z.of_nat (length ws) < 2 ^ 30)%Z -> trace10_ok true start10 items -> Forall worded10 items ->
  bad = true \/ other (be_val (stale (Z.of_nat (length ws)))) -> (4 <= length slack)%nat ->
  exists file recs, htmdecoder qs stale junk (bytes_of ws) bad = COk file /\ profiled slack file = Some recs
    /\ profile (map of_given (flat_map given_of (records10 true start10 items))) recs.
Proof. exact profile10. Qed.
Print Assumptions C78_power10.
(** For every run of ptracer that ends, as in C58. *)
Theorem C78_tracer : forall be xl max tp skip left l0 t evs ks slack,
  left < 2 ^ 64 -> Pids_Spec.holds max t l0 -> (length l0 <= max)%nat -> Forall2 (is_kind xl tp) evs ks ->
  (4 <= length slack)%nat ->
  let '(p, ended) := session tp skip left 0 (combine evs ks) in
  let w := wanted skip left (flat_map saw p) in
  ended = true -> N.of_nat (length w) < 2 ^ 31 -> Forall (fun x => s_word x <> 0) w ->
  exists file recs, ptracer_file (main_loop be max xl tp (Tracer_Model.start skip left t tp) evs) = FClosed file
    /\ profiled slack file = Some recs
    /\ profile (map (fun s => (s_addr s, Some (isa_bo_branch (s_word s) \/ isa_always_branch (s_word s)))) w) recs.
Proof. exact profile_tracer. Qed.
Print Assumptions C78_tracer.

(** So whatever the source, the instructions of a block follow each other in
    memory: its address and length tell which they are. *)
Theorem C78_stretches : forall l recs bs rest, profile l recs -> trace recs bs rest -> Forall stretch (bs ++ [rest]).
Proof. exact stretches. Qed.
Print Assumptions C78_stretches.
(** The vectors account for every instruction of the complete intervals, except
    for those of the block that has not ended. *)
Theorem C78_accounts : forall P recs bs rest, P <> 0 -> trace recs bs rest -> N.of_nat (length recs) < 2 ^ 32 ->
  let I := N.of_nat (length recs) / P in
  total P (timed 0 bs) I + N.of_nat (open_end (firstn (N.to_nat (P * I)) recs)) = P * I.
Proof. exact accounts. Qed.
Print Assumptions C78_accounts.
(** The matrix the tool makes of a file is that of the blocks of its
    instructions (C41). *)
Theorem C78_vectors : forall junk walk rows0 cols0 period,
  (forall l, Permutation (walk l) l) -> period < 2 ^ 64 -> rows0 <> 0 -> cols0 <> 0 ->
  forall coin slack file recs bs rest, profiled slack file = Some recs ->
  trace recs bs rest -> Forall (fun r => fst r <> MINUS1) recs ->
  let P := N.max period 1 in
  let ks := timed 0 bs in let I := N.of_nat (length recs) / P in
  grows_slowly P cols0 ks I -> fits rows0 cols0 ks I -> I <> 0 ->
  exists m, file_vectors junk walk rows0 cols0 period coin 0 slack file = Some (MOk m) /\
    Matrix_Spec.holds m I (N.of_nat (length (Bbv_Spec.firsts (map k_addr ks))) + 1) (vector P ks).
Proof.
  intros junk walk rows0 cols0 period HW HP HR HC coin slack file recs bs rest HF HT HM P ks I HG HFi HI.
  destruct (C41_vectors junk walk rows0 cols0 period HW HP HR HC coin recs bs rest HT HM HG HFi HI) as (m & E & H).
  exists m. unfold file_vectors. rewrite HF. cbn [option_map]. rewrite E. split; [reflexivity|exact H].
Qed.
Print Assumptions C78_vectors.

(** The traces of C55, C56 and C58, profiled in intervals of two instructions. *)
Definition of_file (f : list N) := option_map (fun r => match r with
  | MOk m => Some (m_rows m, m_cols m, m_data m) | MErr _ => None end)
  (file_vectors jnk (fun l => l) 4 4 2 coin0 0 (repeat 0 4) f).
Example C78_ex8 : let f := file_of (conv (flat_map words8 ex8)) in
  profiled (repeat 0 4) f = Some [(0xC000000000001000, false); (0xC000000000001004, false);
                                  (0xC000000000001008, true); (0xC000000000001108, false)]
  /\ of_file f = Some (Some (2, 2, [0; 0;  3; 0])).
Proof. split; vm_compute; reflexivity. Qed.
Example C78_ex10 : let f := file_of (conv (file10 true start10 ex10)) in
  option_map (map snd) (profiled (repeat 0 4) f) = Some [false; false; true; true; true]
  /\ of_file f = Some (Some (2, 4, [0; 0; 0; 0;  3; 1; 0; 0])).
Proof. split; vm_compute; reflexivity. Qed.
Example C78_ex_tracer : match ptracer_file (ex_run 0 100) with
  | FClosed f => option_map (map snd) (profiled (repeat 0 4) f) = Some [false; false; false; false; false; true]
      /\ of_file f = Some (Some (3, 2, [0; 0;  0; 0;  6; 0]))
  | _ => False end.
Proof. vm_compute. split; reflexivity. Qed.
(** The trace of C41 in intervals of 4 and of 5. *)
Example C78_ex_accounts : total 4 (timed 0 ex_bs) 3 = 12 /\ open_end (firstn 12 ex_recs) = O
  /\ total 5 (timed 0 ex_bs) 2 = 9 /\ open_end (firstn 10 ex_recs) = 1%nat.
Proof. repeat split; vm_compute; reflexivity. Qed.

(** A prefixed instruction counts twice, so the lengths of blocks are not numbers
    of instructions as qtdis lists them. *)
Theorem C78_prefix_refuted : ~ forall file recs lines, profiled (repeat 0 4) file = Some recs ->
  Tools_Model.qtdis_lines (repeat 0 4) file = Some lines -> length recs = length lines.
Proof.
  intros H. specialize (H (file_of (conv (file10 true start10 ex10)))).
  destruct (profiled (repeat 0 4) (file_of (conv (file10 true start10 ex10)))) as [recs|] eqn:E1; [|vm_compute in E1; discriminate E1].
  destruct (Tools_Model.qtdis_lines (repeat 0 4) (file_of (conv (file10 true start10 ex10)))) as [lines|] eqn:E2;
    [|vm_compute in E2; discriminate E2].
  specialize (H recs lines eq_refl eq_refl). vm_compute in E1, E2. injection E1 as <-. injection E2 as <-.
  vm_compute in H. discriminate H.
Qed.
Print Assumptions C78_prefix_refuted.
