(** qtdis and the statistics script in a pipe: traces of ptracer. *)
Require Import NArith ZArith List Bool Lia.
Require Import ZifyBool ZifyN ZifyNat.
Require Import Verif.Word Verif.Codec_Types Verif.Codec_Spec Verif.Writer_Model Verif.Reader_Model.
Require Import Verif.Stats_Model Verif.Stats_Spec Verif.Opcode_Table Verif.Opcode_Spec.
Require Import Verif.Storage_Spec Verif.Step_Model Verif.Step_Spec Verif.Pids_Model Verif.Pids_Spec.
Require Import Verif.Convert_Spec Verif.Convert_Proofs Verif.Tracer_Model Verif.Tracer_Spec Verif.Tracer_Proofs2 Verif.Tracer_Proofs3 Verif.Tracer_Proofs4.
Require Import Verif.Tools_Model Verif.Tools_Spec Verif.Tools_Proofs.
Require Import Verif.Tools_Proofs2 Verif.Pipe_Model Verif.Pipe_Spec Verif.Pipe_Proofs.
Import ListNotations.
Local Open Scope N_scope.

Lemma tracer_records : forall be xl max tp skip left l0 t evs ks,
  left < 2 ^ 64 -> holds max t l0 -> (length l0 <= max)%nat -> Forall2 (is_kind xl tp) evs ks ->
  let '(p, ended) := session tp skip left 0 (combine evs ks) in
  let w := wanted skip left (flat_map saw p) in
  ended = true -> N.of_nat (length w) < 2 ^ 31 -> Forall (fun x => s_word x <> 0 /\ whole_word (s_word x)) w ->
  let xs := List.map (fun s => (s_addr s, s_word s)) w in
  exists qs, ptracer_file (main_loop be max xl tp (start skip left t tp) evs)
             = match write_trace 0 qs with inr file => FClosed file | inl e => FFailed e end
    /\ frames qs /\ closes qs /\ List.map pr qs = xs /\ Forall (fun x => whole_word (snd x)) xs.
Proof.
  intros be xl max tp skip left l0 t evs ks LB H L0 F.
  pose proof (loop_ok be xl max tp skip left l0 LB L0 evs ks [] (start skip left t tp) F
    (big_start xl max tp skip left l0 LB L0 t H)) as LK. cbn [flat_map app nlen length] in LK.
  change (nlen []) with 0 in LK.
  destruct (session tp skip left 0 (combine evs ks)) as [p c]. intros w -> BD NZ xs. subst w.
  destruct (LK BD) as (s & E & R). rewrite E. cbn [ptracer_file]. clear LK.
  destruct R as (R1 & _ & _). destruct R1 as (_ & _ & gs & h & I3 & I4 & I5 & I6 & I7).
  pose proof (told_said _ _ _ _ _ I3) as TS. pose proof (agrees_pr _ _ _ I4) as PR. rewrite TS in PR.
  assert (WG : words_good gs).
  { apply words_nonzero. apply told_words in I3. apply Forall_forall. intros g G.
    apply (in_map g_insn) in G. rewrite I3 in G. apply in_map_iff in G. destruct G as (x & <- & G).
    eapply Forall_forall in NZ; [exact (proj1 NZ)|exact G]. }
  destruct (frames_agree false gs (t_out s) I4 WG) as [FR CL].
  { intros g q _ HQ _. destruct (t_out s) as [|q' qs]; [discriminate|]. injection HQ as ->.
    inversion I7 as [|? ? Z _]; subst. rewrite Z. reflexivity. }
  assert (WH : Forall (fun x => whole_word (snd x)) xs).
  { unfold xs. rewrite Forall_forall in *. intros x I. apply in_map_iff in I. destruct I as (y & <- & I). apply (NZ y I). }
  exists (t_out s). split; [reflexivity|]. split; [exact FR|]. split; [exact CL|]. split; [exact PR|exact WH].
Qed.
Theorem pipe_tracer : forall sym dis be xl max tp skip left l0 t evs ks slack, plain_names sym -> plain_texts dis ->
  left < 2 ^ 64 -> holds max t l0 -> (length l0 <= max)%nat -> Forall2 (is_kind xl tp) evs ks ->
  (4 <= length slack)%nat ->
  let '(p, ended) := session tp skip left 0 (combine evs ks) in
  let w := wanted skip left (flat_map saw p) in
  ended = true -> N.of_nat (length w) < 2 ^ 31 -> Forall (fun x => s_word x <> 0 /\ whole_word (s_word x)) w ->
  exists file s, ptracer_file (main_loop be max xl tp (start skip left t tp) evs) = FClosed file
    /\ piped sym dis slack file = Some s /\ numbers (List.map s_addr w) s
    /\ (Forall (fun x => s_addr x < 13 * 2 ^ 60) w -> exists t m, qtdis_stats slack file = Some (Some t, m) /\ same t s).
Proof.
  intros sym dis be xl max tp skip left l0 t evs ks slack NS TX LB H L0 F SL.
  pose proof (tracer_records be xl max tp skip left l0 t evs ks LB H L0 F) as TR.
  destruct (session tp skip left 0 (combine evs ks)) as [p c]. intros w C BD NZ.
  destruct (TR C BD NZ) as (qs & E & FR & CL & G & WI). destruct (pfirsts_id _ WI) as [PF PC].
  destruct (pipe_pr sym dis qs slack NS TX FR CL SL) as (file & s & W & A & B & D); [rewrite G; exact PC|].
  rewrite G, PF in *. rewrite E, W. exists file, s. split; [reflexivity|]. split; [exact A|].
  rewrite map_map in B. split; [exact B|]. intros L. apply D. rewrite Forall_map. exact L.
Qed.
