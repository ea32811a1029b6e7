(** Proofs for C63: the walk shown, and walks of the hypervisor. *)
Require Import Arith NArith List Bool Lia.
Require Import Verif.Word Verif.Codec_Types Verif.Writer_Model Verif.Reader_Model Verif.Codec_Spec Verif.Xlate_Model.
Require Import Verif.Qtdis_Model Verif.Qtdis_Spec Verif.Qtdis_Proofs3 Verif.Verbose_Model Verif.Verbose_Spec.
Import ListNotations.
Local Open Scope N_scope.

Definition one_walk (a b c d : N) : radix :=
  mk_radix HOST_RADIX 4 1 [[a; b; c; d]; repeat 0 4; repeat 0 4; repeat 0 4; repeat 0 4] (repeat 0 4) (repeat 0 5).
Definition walked_rec (insn addr ra : N) (branch : bool) (w : radix) : qrec :=
  mk_qrec insn addr true ra true 16 false 0 false 0 false 0 branch false false 0 false 0 w zero_radix.
Definition ex_from : qrec := walked_rec 0x48000ff8 0x10004 0x2350004 true (one_walk 1 2 3 4).
Definition ex_to : qrec := walked_rec 0x60000000 0x30000 0x7770000 false (one_walk 5 6 7 8).

Lemma ex_frames : frames [ex_from; ex_to] /\ closes [ex_from; ex_to].
Proof.
  assert (TR : forall a b c d, a < 2 ^ 64 -> b < 2 ^ 64 -> c < 2 ^ 64 -> d < 2 ^ 64 -> typed_radix (one_walk a b c d)).
  { intros a b c d A B C D. unfold typed_radix, word64s, one_walk. cbn [rx_host_ptes rx_host_real rx_guest_real repeat].
    repeat (apply conj || constructor || assumption || reflexivity). }
  assert (TZ : typed_radix zero_radix).
  { unfold typed_radix, word64s, zero_radix. cbn [rx_host_ptes rx_host_real rx_guest_real repeat].
    repeat (apply conj || constructor || reflexivity). }
  assert (T1 : typed ex_from).
  { unfold typed, ex_from, walked_rec. cbn [q_insn q_insn_addr q_insn_ra q_data_addr q_data_ra q_radix_insn q_radix_data].
    repeat split; try reflexivity; try apply TR; try apply TZ; reflexivity. }
  assert (T2 : typed ex_to).
  { unfold typed, ex_to, walked_rec. cbn [q_insn q_insn_addr q_insn_ra q_data_addr q_data_ra q_radix_insn q_radix_data].
    repeat split; try reflexivity; try apply TR; try apply TZ; reflexivity. }
  split.
  - unfold frames, chain_frames. split; [exact T1|]. split; [unfold shifts_ok; cbn; repeat split; intros; lia|].
    split; [cbn; discriminate|]. split.
    { unfold header_frames, storable. cbn. repeat split; intros; auto; lia. }
    split; [exact T2|]. split; [unfold shifts_ok; cbn; repeat split; intros; lia|].
    split; [cbn; discriminate|]. split; [|exact Logic.I].
    unfold pair_frames, storable. cbn. repeat split; intros; auto; try lia; try discriminate.
  - unfold closes. cbn. discriminate.
Qed.

Lemma walk_wrong : ~ forall p c bytes x w, frames [p; c] -> closes [p; c] ->
  write_trace 0 [p; c] = inr bytes -> read_verbose [0; 0; 0; 0] bytes = (x, QDone) ->
  In (SInsnWalk w) (flat_map seen (v_notes (hd (0, [], false, []) x))) ->
  walk_of (rx_type (q_radix_insn c)) (q_radix_insn c) = Some w.
Proof.
  intros H. destruct ex_frames as [F C].
  specialize (H ex_from ex_to (ex_bytes [ex_from; ex_to]) (fst (read_verbose [0; 0; 0; 0] (ex_bytes [ex_from; ex_to])))
    (mk_wk (Some HOST_RADIX) [[1; 2; 3; 4]] [] []) F C).
  assert (W : write_trace 0 [ex_from; ex_to] = inr (ex_bytes [ex_from; ex_to])) by (vm_compute; reflexivity).
  assert (R : read_verbose [0; 0; 0; 0] (ex_bytes [ex_from; ex_to])
    = (fst (read_verbose [0; 0; 0; 0] (ex_bytes [ex_from; ex_to])), QDone)) by (vm_compute; reflexivity).
  specialize (H W R). clear W R.
  assert (I : In (SInsnWalk (mk_wk (Some HOST_RADIX) [[1; 2; 3; 4]] [] []))
    (flat_map seen (v_notes (hd (0, [], false, []) (fst (read_verbose [0; 0; 0; 0] (ex_bytes [ex_from; ex_to]))))))).
  { vm_compute. right. left. reflexivity. }
  specialize (H I). vm_compute in H. discriminate H.
Qed.

Lemma hypervisor_walk : forall st x m a r, m_hv m = true -> exists e, xlate_decode st x m true a r = XErr e.
Proof.
  intros st x m a r H. unfold xlate_decode.
  destruct (partial_lookup (xs_partial st) x) as [[found plist]|e]; [|eexists; reflexivity].
  cbv zeta. rewrite H. cbn [andb].
  destruct (if xlate_complete _ then _ else _); eexists; reflexivity.
Qed.
