(** When a trace taken apart by `qtdis -b` can be put together again. *)
Require Import NArith List Bool.
Require Import Verif.Codec_Types Verif.Branch_Spec Verif.Build_Model Verif.Build_Spec Verif.Rebuild_Model.
Import ListNotations.
Local Open Scope N_scope.

(** Disassembling and assembling keeps a word; of a branch with a target in it
    everything but the target, which is printed as a symbol nobody defines. *)
Definition assembled (w w' : N) : Prop :=
  w' < 2 ^ 32 /\ (~ direct w -> w' = w) /\
  (direct w -> isa_opcd w' = isa_opcd w /\ isa_AA w' = isa_AA w /\ isa_LK w' = isa_LK w /\
     (isa_opcd w = 16 -> isa_BO w' = isa_BO w /\ isa_BI w' = isa_BI w)).

(** An execution: known non-zero words; accesses have an address; a branch
    with a target in it that is taken goes there. *)
Definition sane (r : drec) : Prop :=
  d_insn r < 2 ^ 32 /\ d_insn r <> 0 /\ d_ea r < 2 ^ 64 /\ unsupported (d_insn r) = false /\
  accesses (d_insn r) = match d_data r with Some _ => true | None => false end.
Definition jumps (r r' : drec) : Prop := d_ea r' <> (d_ea r + 4) mod 2 ^ 64.
Fixpoint executed (rs : list drec) : Prop :=
  match rs with
  | [] => True
  | r :: rest =>
      sane r /\
      match rest with
      | [] => True
      | r' :: _ => jumps r r' -> direct (d_insn r) -> isa_branch_target (d_insn r) (d_ea r) = Some (d_ea r')
      end /\ executed rest
  end.

(** The record again; [taken] says whether its target was kept. *)
Definition same_record (taken : Prop) (r : drec) (q : qrec) : Prop :=
  q_insn_addr q = d_ea r /\
  (if q_data_addr_valid q then Some (q_data_addr q) else None) = d_data r /\
  (taken \/ ~ direct (d_insn r) -> q_insn q = d_insn r) /\
  assembled (d_insn r) (q_insn q).
Fixpoint rebuilt (rs : list drec) (qs : list qrec) : Prop :=
  match rs, qs with
  | [], [] => True
  | r :: rest, q :: qs =>
      same_record (match rest with [] => False | r' :: _ => jumps r r' end) r q /\ rebuilt rest qs
  | _, _ => False
  end.
(** All branches with a target in them are taken. *)
Fixpoint all_taken (rs : list drec) : Prop :=
  match rs with
  | [] => True
  | r :: rest =>
      (direct (d_insn r) -> match rest with [] => False | r' :: _ => jumps r r' end) /\ all_taken rest
  end.
