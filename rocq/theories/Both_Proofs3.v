(** The ASCII log of a session (C74). *)
Require Import Arith NArith ZArith List Bool Lia.
Require Import Verif.Word Verif.Codec_Types Verif.Codec_Spec Verif.Storage_Spec Verif.Step_Model Verif.Step_Spec.
Require Import Verif.Pids_Model Verif.Pids_Spec Verif.Convert_Spec Verif.Convert_Proofs.
Require Import Verif.Tracer_Model Verif.Tracer_Spec Verif.Tracer_Proofs Verif.Tracer_Proofs2 Verif.Tracer_Proofs3.
Require Import Verif.Both_Model Verif.Both_Spec Verif.Both_Proofs Verif.Both_Proofs2.
Require Verif.Regs_Model Verif.Regs_Spec.
Import ListNotations.
Local Open Scope N_scope.

Lemma told_addrs : forall xl h l gs h', told xl h l gs h' ->
  List.map (fun g => (g_addr g, g_insn g)) gs = List.map (fun x => (s_addr x, s_word x)) l.
Proof.
  intros xl h l gs h' T. induction T as [|h s g h1 l gs h2 S1 T IH]; [reflexivity|].
  cbn [List.map]. rewrite IH. destruct S1 as (-> & -> & _). reflexivity.
Qed.
Lemma agree_addrs : forall w gs qs, Forall2 (agrees w) gs qs ->
  List.map (fun q => (q_insn_addr q, q_insn q)) qs = List.map (fun g => (g_addr g, g_insn g)) gs.
Proof.
  intros w gs qs F. induction F as [|g q gs qs A _ IH]; [reflexivity|]. cbn [List.map]. rewrite IH.
  destruct A as (-> & -> & _). reflexivity.
Qed.

Theorem session_log : forall be xl max tp skip left l0 t evs ks dump ans,
  left < 2 ^ 64 -> holds max t l0 -> (length l0 <= max)%nat -> Forall2 (is_kind xl tp) evs ks ->
  (forall e pc, ans e pc <> None) ->
  let '(p, c) := session tp skip left 0 (combine evs ks) in
  let w := wanted skip left (flat_map saw p) in
  N.of_nat (length w) < 2 ^ 31 ->
  exists s, alive (bloop be max xl true true dump ans tp (bstart tp skip left t) evs) = Some (s, c)
    /\ in_log s = List.map (fun x => (s_addr x, s_word x)) w.
Proof.
  intros be xl max tp skip left l0 t evs ks dump ans LB H L0 F AN.
  pose proof (loop_ok be xl max tp skip left l0 LB L0 evs ks [] (start skip left t tp) F
    (big_start xl max tp skip left l0 LB L0 t H)) as LK. cbn [flat_map app nlen length] in LK.
  change (nlen []) with 0 in LK.
  destruct (session tp skip left 0 (combine evs ks)) as [p c]. intros w BD. subst w.
  destruct (LK BD) as (s & E & R).
  assert (I : inv xl skip left (flat_map saw p) s) by (destruct c; apply R).
  pose proof (loop_side be max xl true dump ans tp AN evs (bstart tp skip left t)) as LS.
  change (b_t (bstart tp skip left t)) with (start skip left t tp) in LS. rewrite E in LS.
  assert (AL : exists s1, alive (bloop be max xl true true dump ans tp (bstart tp skip left t) evs) = Some (s1, c) /\ b_t s1 = s).
  { destruct (bloop be max xl true true dump ans tp (bstart tp skip left t) evs) as [x|x|x]; destruct c; try discriminate LS;
      exists x; (split; [reflexivity|]); cbn [traced] in LS; congruence. }
  destruct AL as (s1 & AL & BT). exists s1. split; [exact AL|].
  rewrite (same_insns be max xl tp dump ans skip left t evs s1 c AL). unfold in_file. rewrite BT.
  destruct I as (_ & _ & gs & h & I3 & I4 & _). rewrite (agree_addrs _ _ _ I4). exact (told_addrs _ _ _ _ _ I3).
Qed.
