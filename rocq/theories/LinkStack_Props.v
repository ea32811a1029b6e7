(** Properties C18, C19: the link-stack tool (branch/link_stack.c). *)
Require Import NArith List Bool.
Require Import Verif.Word Verif.LinkStack_Model Verif.LinkStack_Spec Verif.LinkStack_Proofs.
Import ListNotations.
Local Open Scope N_scope.

(** C18: after any trace prefix, a well-matched continuation whose nesting
    fits the stack is predicted without a single miss. *)
Theorem C18_matched_returns_hit : forall depth pre rs, 0 < depth < 2 ^ 64 ->
  matched (N.to_nat depth) (events rs) ->
  exists p0 out0 p out, ls_main depth pre = Some (p0, out0) /\
    ls_main depth (pre ++ rs) = Some (p, out ++ out0) /\
    Forall (fun b => b = true) out /\
    length out = length (filter is_ret (events rs)) /\
    ls_mispredictions p = ls_mispredictions p0.
Proof. exact main_matched. Qed.
Print Assumptions C18_matched_returns_hit.

(** A non-trivial matched history: two nested calls and a sequential one. *)
Example C18_ex_matched :
  matched 2 [Call 0x100; Call 0x200; Ret 0x204; Call 0x300; Ret 0x304; Ret 0x104].
Proof.
  apply (m_call 1 0x100 [Call 0x200; Ret 0x204; Call 0x300; Ret 0x304] []).
  - apply (m_call 0 0x200 [] [Call 0x300; Ret 0x304]); [constructor|].
    apply (m_call 0 0x300 [] []); constructor.
  - constructor.
Qed.
Example C18_ex_run :
  let rs := [mk_lsr true LCall 0x100 0; mk_lsr true LCall 0x200 0;
             mk_lsr true LReturn 0 0x204; mk_lsr false LReturn 0 0x999;
             mk_lsr true LReturn 0 0x104] in
  option_map snd (ls_main 2 rs) = Some [true; true].
Proof. vm_compute. reflexivity. Qed.
(** The nesting bound is needed: depth 1 misses the outer return. *)
Example C18_ex_too_deep :
  let rs := [mk_lsr true LCall 0x100 0; mk_lsr true LCall 0x200 0;
             mk_lsr true LReturn 0 0x204; mk_lsr true LReturn 0 0x104] in
  option_map snd (ls_main 1 rs) = Some [false; true].
Proof. vm_compute. reflexivity. Qed.

(** C19: exact behaviour on every trace: a ring of [depth] addresses; no
    out-of-bounds access; counters are the number of returns / misses. *)
Theorem C19_exact_ring : forall depth rs, 0 < depth < 2 ^ 64 ->
  exists p out, ls_main depth rs = Some (p, out) /\
    ls_depth p = depth /\ ls_offset p < depth /\
    snd (ring_run (repeat 0 (N.to_nat depth)) (events rs)) = out /\
    ls_predictions p = N.of_nat (length out) mod 2 ^ 64 /\
    ls_mispredictions p = count_false out mod 2 ^ 64.
Proof. exact main_exact. Qed.
Print Assumptions C19_exact_ring.

(** Wherever a stack that remembers only the [depth] newest calls knows the
    answer, the tool gives that answer. *)
Theorem C19_lossy_stack : forall depth rs, 0 < depth < 2 ^ 64 ->
  exists p out, ls_main depth rs = Some (p, out) /\
    Forall2 agrees (snd (lossy_run (N.to_nat depth) (events rs))) out.
Proof. exact main_lossy. Qed.
Print Assumptions C19_lossy_stack.

Theorem C19_misses_le_predictions : forall l, count_false l <= N.of_nat (length l).
Proof. exact count_false_le. Qed.
Print Assumptions C19_misses_le_predictions.

(** The depth hypothesis is needed: with depth 0 the first call is an
    out-of-bounds store. *)
Theorem C19_depth_zero_refuted : forall a n,
  ls_main 0 [mk_lsr true LCall a n] = None.
Proof. intros. reflexivity. Qed.
Print Assumptions C19_depth_zero_refuted.

(** The overflow scenario of the built-in self test (lines 104-119). *)
Example C19_ex_overflow :
  let rs := [mk_lsr true LCall 0x10000000 0; mk_lsr true LCall 0x10000010 0;
             mk_lsr true LCall 0x10000020 0; mk_lsr true LReturn 0 0x10000024;
             mk_lsr true LReturn 0 0x10000014; mk_lsr true LReturn 0 0x10000004] in
  option_map snd (ls_main 2 rs) = Some [false; true; true].
Proof. vm_compute. reflexivity. Qed.
