(** Property C69: copying a trace. *)
Require Import NArith List Bool.
Require Import Verif.Codec_Types Verif.Writer_Model Verif.Reader_Model Verif.Codec_Spec
  Verif.Copy_Model Verif.Copy_Proofs3 Verif.Codec_Props.
Import ListNotations.
Local Open Scope N_scope.

(** A trace the format can carry is copied to the very bytes that the writer
    would have produced for the original records without a magic number. *)
Theorem C69_identical : forall magic rs slack,
  magic < 2 ^ 32 -> frames rs -> closes rs -> recoverable rs -> (4 <= length slack)%nat ->
  exists b b0, write_trace magic rs = inr b /\ write_trace 0 rs = inr b0 /\ copy slack b = CDone b0.
Proof. exact copy_same. Qed.
Print Assumptions C69_identical.

(** Any file, whoever wrote it: every field that the writer looks at reads the
    same from the copy. *)
Theorem C69_any : forall slack slack' b l s b',
  qtreader_initialize b = ROk (s, b') -> read_trace false false slack b = (l, EndFalse) ->
  frames (map o_q l) -> closes (map o_q l) -> recoverable (map o_q l) -> (4 <= length slack')%nat ->
  exists out l', copy slack b = CDone out /\ read_trace false false slack' out = (l', EndFalse) /\
    Forall2 (fun r r' => own_view (o_q r) 0 false = own_view (o_q r') 0 false) l l'.
Proof. exact copy_any. Qed.
Print Assumptions C69_any.

(** Copying a copy changes nothing. *)
Theorem C69_again : forall magic rs slack slack',
  magic < 2 ^ 32 -> frames rs -> closes rs -> recoverable rs ->
  (4 <= length slack)%nat -> (4 <= length slack')%nat ->
  exists b out, write_trace magic rs = inr b /\ copy slack b = CDone out /\ copy slack' out = CDone out.
Proof.
  intros m rs sl sl' Hm F C X L L'.
  destruct (copy_same m rs sl Hm F C X L) as (b & b0 & E & E0 & Ec).
  destruct (copy_same 0 rs sl' ltac:(reflexivity) F C X L') as (b1 & b2 & E1 & E2 & Ec2).
  exists b, b0. split; [assumption|]. split; [assumption|]. congruence.
Qed.
Print Assumptions C69_again.

(** Not every trace that was written is copied faithfully: where the page
    shifts of the data and of the next guest instruction are stored together
    they change places, and change places again when the copy is read. *)
Definition shifty : list qrec :=
  [ mk_qrec 0x48001000 0x1000 false 0 false 0 true 0x5000 false 0 true 12 true false
            false 0 false 0 zero_radix zero_radix;
    mk_qrec 0x60000000 0x2000 false 0 false 0 false 0 false 0 false 0 false false
            true 21 false 0 zero_radix zero_radix ].
Theorem C69_shifts_refuted : ~ forall rs slack b,
  frames rs -> closes rs -> (4 <= length slack)%nat ->
  write_trace 0 rs = inr b -> copy slack b = CDone b.
Proof.
  intros H. specialize (H shifty [0; 0; 0; 0]).
  destruct (write_trace 0 shifty) as [e|b] eqn:E; [vm_compute in E; discriminate E|].
  specialize (H b). vm_compute in E.
  assert (F : frames shifty).
  { unfold frames, shifty. crush. }
  assert (C : closes shifty).
  { unfold closes, shifty. crush. }
  specialize (H F C (le_n 4) eq_refl). injection E as <-. vm_compute in H. discriminate H.
Qed.
Print Assumptions C69_shifts_refuted.

(** A file the reader takes without complaint: one walk, in the notation of
    several.  The kind of that walk is unknown, and the writer insists on it. *)
Definition odd_file : list N :=
  [0;0;0;0; 0;1; 0;3; 0;0; 0x68;0; 7;1;0;0; 0;0;0;0;0;0;0x10;0; 4;1] ++ repeat 5 32
  ++ [0;0;0;7; 0x60;0;0;0; 0;0].
Theorem C69_abort_refuted : ~ forall b l slack,
  (4 <= length slack)%nat -> read_trace false false slack b = (l, EndFalse) -> l <> [] ->
  exists out, copy slack b = CDone out.
Proof.
  intros H.
  destruct (H odd_file (fst (read_trace false false [0;0;0;0] odd_file)) [0;0;0;0] (le_n 4)) as [out E].
  - vm_compute. reflexivity.
  - vm_compute. discriminate.
  - vm_compute in E. discriminate E.
Qed.
Print Assumptions C69_abort_refuted.

Example C69_ex :
  match write_trace 0xA1B2 ex_trace with
  | inr b =>
      match copy pad b with
      | CDone out => (length b, length out) = (189, 185)%nat /\ copy pad out = CDone out
      | _ => False
      end
  | inl _ => False
  end.
Proof. vm_compute. split; reflexivity. Qed.
Example C69_ex_abort : copy pad odd_file = CAbort WAssert.
Proof. vm_compute. reflexivity. Qed.
(** The shifts 12 and 21 trade places in the copy's records. *)
Example C69_ex_shifts :
  match write_trace 0 shifty with
  | inr b =>
      match copy pad b with
      | CDone out =>
          map (fun r => (q_data_ps (o_q r), q_ginsn_ps (o_q r))) (fst (read_trace false false pad b))
          = [(21, 0); (0, 12)] /\
          map (fun r => (q_data_ps (o_q r), q_ginsn_ps (o_q r))) (fst (read_trace false false pad out))
          = [(12, 0); (0, 21)]
      | _ => False
      end
  | inl _ => False
  end.
Proof. vm_compute. split; reflexivity. Qed.
