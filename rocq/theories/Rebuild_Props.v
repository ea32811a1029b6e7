(** C54: `qtdis -b` and qtbuild are inverse to each other. *)
Require Import NArith List Bool.
Require Import Verif.Codec_Types Verif.Branch_Spec Verif.Writer_Model Verif.Reader_Model Verif.Codec_Spec
  Verif.Build_Model Verif.Build_Spec Verif.Rebuild_Model Verif.Rebuild_Spec Verif.Rebuild_Proofs Verif.Build_Proofs3.
Import ListNotations.
Local Open Scope N_scope.

(** Taking apart an execution and assembling the words again gives a trace with
    the same addresses, data addresses and instructions; only the targets of
    branches that are not taken may differ. *)
Theorem C54_rebuild : forall g rs text, (forall r, g r < 2 ^ 64) -> rs <> [] -> executed rs ->
  Forall2 assembled (map d_insn rs) text ->
  exists qs, build g text (insnmap_of rs) (ldstmap_of rs) = BOk qs /\ rebuilt rs qs.
Proof. exact rebuild_ok. Qed.
Print Assumptions C54_rebuild.

(** If all such branches are taken, the rebuilt file reads as the trace that
    was taken apart. *)
Theorem C54_file : forall g rs text slack, (forall r, g r < 2 ^ 64) -> rs <> [] -> executed rs -> all_taken rs ->
  Forall (fun r => match d_data r with Some d => d < 2 ^ 64 | None => True end) rs ->
  Forall2 assembled (map d_insn rs) text -> (4 <= length slack)%nat ->
  exists qs bytes,
    build g text (insnmap_of rs) (ldstmap_of rs) = BOk qs /\ write_trace 0 qs = inr bytes /\
    map (fun r => (q_insn (o_q r), q_insn_addr (o_q r))) (fst (read_trace false false slack bytes))
      = map (fun r => (d_insn r, d_ea r)) rs /\
    map (fun r => optb (q_data_addr_valid (o_q r)) (q_data_addr (o_q r))) (fst (read_trace false false slack bytes))
      = map d_data rs.
Proof. exact rebuild_file. Qed.
Print Assumptions C54_file.

(** li r3,5; beq .+0xfc; ld r3,0(r4); blr; nop.  The assembler leaves the
    target of beq as zero. *)
Definition ex_rs := [mk_drec 0x38600005 0x10000000 None; mk_drec 0x418200fc 0x10000004 None;
  mk_drec 0xE8640000 0x10000100 (Some 0xdeadbe00); mk_drec 0x4E800020 0x10000104 None;
  mk_drec 0x60000000 0x20000000 None].
Definition ex_text := [0x38600005; 0x41820000; 0xE8640000; 0x4E800020; 0x60000000].
Example C54_ex : exists qs, build (fun _ => 0) ex_text (insnmap_of ex_rs) (ldstmap_of ex_rs) = BOk qs /\
  map (fun q => mk_drec (q_insn q) (q_insn_addr q) (optb (q_data_addr_valid q) (q_data_addr q))) qs = ex_rs.
Proof. eexists. split; [vm_compute; reflexivity|]. vm_compute. reflexivity. Qed.
Example C54_ex_ok : executed ex_rs /\ all_taken ex_rs /\ Forall2 assembled (map d_insn ex_rs) ex_text.
Proof.
  split; [|split].
  - vm_compute. repeat split; try discriminate; auto; intros; try discriminate;
      match goal with H : _ \/ _ |- _ => destruct H as [H|H]; discriminate H end.
  - vm_compute. repeat split; try discriminate; intros;
      match goal with H : _ \/ _ |- _ => destruct H as [H|H]; discriminate H end.
  - repeat constructor; vm_compute; auto; try (intros [H|H]; discriminate H);
      try (intro H; elim H; auto; fail); intros; repeat split; auto.
Qed.

(** A branch that is not taken loses its target. *)
Theorem C54_target_lost_refuted : exists rs text qs,
  executed rs /\ Forall2 assembled (map d_insn rs) text /\
  build (fun _ => 0) text (insnmap_of rs) (ldstmap_of rs) = BOk qs /\
  map q_insn qs <> map d_insn rs.
Proof.
  eexists [mk_drec 0x418200fc 0x10000000 None; mk_drec 0x60000000 0x10000004 None], [0x41820000; 0x60000000], _.
  split; [vm_compute; repeat split; try discriminate; auto; intro H; elim H; reflexivity|].
  split.
  - repeat constructor; vm_compute; auto; try (intros [H|H]; discriminate H);
      try (intro H; elim H; auto; fail); intros; repeat split; auto.
  - split; [vm_compute; reflexivity|]. vm_compute. discriminate.
Qed.
Print Assumptions C54_target_lost_refuted.
