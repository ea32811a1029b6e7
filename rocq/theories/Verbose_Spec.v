(** What qtdis -v is to show behind the instructions of a written trace. *)
Require Import NArith List Bool.
Require Import Verif.Codec_Types Verif.Codec_Spec Verif.Branch_Model Verif.Reader_Model Verif.Qtdis_Model Verif.Qtdis_Spec Verif.Verbose_Model.
Import ListNotations.
Local Open Scope N_scope.

Definition v_ea (v : vline) : N := fst (fst (fst v)).
Definition v_words (v : vline) : list N := snd (fst (fst v)).
Definition v_mark (v : vline) : bool := snd (fst v).
Definition v_notes (v : vline) : list note := snd v.
(** The line without -v *)
Definition bare (v : vline) : N * list N := (v_ea v, v_words v).

(** Annotations as read by a user: table walks by their entries; one without
    rows is not seen. *)
Inductive shown :=
| SData (a : N) | SDataRpn (n : N) | SDataWalk (w : wk) | SDataSize (s : N)
| SInsnRpn (n : N) | SInsnWalk (w : wk) | SInsnSize (s : N) | SNode (n : N) | STerm (node code : N).
Definition list_of {A B} (f : A -> B) (o : option A) : list B := match o with Some x => [f x] | None => [] end.
Definition seen (n : note) : list shown :=
  match n with
  | NData a => [SData a] | NDataRpn n => [SDataRpn n] | NDataSize s => [SDataSize s]
  | NDataRadix w => list_of SDataWalk (walk_of (rx_type w) w)
  | NInsnRpn n => [SInsnRpn n] | NInsnSize s => [SInsnSize s]
  | NInsnRadix w => list_of SInsnWalk (walk_of (rx_type w) w)
  | NNode n => [SNode n] | NTerm n c => [STerm n c]
  end.

(** Data: of the record itself *)
Definition data_seen (v : view) : list shown :=
  list_of SData (v_daddr v)
  ++ list_of (fun ra => SDataRpn (ra / 2 ^ dflt (v_dps v) 16)) (v_dra v)
  ++ list_of SDataWalk (v_dwalk v) ++ list_of SDataSize (v_dps v).
(** Page of the instruction: of the next record, if it is reached by a jump and
    has a real address or page size.  But the walk is that of this record. *)
Definition insn_seen (walk : option wk) (jump : bool) (next : qrec) : list shown :=
  if jump then
    let ps := optb (q_insn_ps_valid next) (q_insn_ps next) in
    (if q_insn_ra_valid next then SInsnRpn (rpn_of (q_insn_ra next) ps) :: list_of SInsnWalk walk else [])
    ++ list_of SInsnSize ps
  else [].
(** Branches, and records followed by a jump: the kind of termination *)
Definition term_seen (p : qrec) (jump : bool) : list shown :=
  if q_branch p || jump
  then [SNode 0; STerm 0 (if q_branch p then (if q_cond p then 0x80 else 0x08) else 0x10)]
  else if is_conditional_branch (q_insn p) then [STerm 0 0] else [].

Definition notes_of (t : trans) (p c : qrec) : list shown :=
  data_seen (expected_one t p c) ++ insn_seen (t_walk t) (discontinuity p c) c ++ term_seen p (discontinuity p c).
(** Of the records of a trace; only the first records of instructions are shown. *)
Fixpoint notes_from (t : trans) (p : qrec) (rs : list qrec) : list (list shown) :=
  match rs with
  | [] => [notes_of t p (successor p)]
  | c :: rs' =>
      notes_of t p c ::
      (if is_prefix_word (q_insn p) then
         match rs' with [] => [] | c2 :: rs'' => notes_from (next_trans (next_trans t p c) c c2) c2 rs'' end
       else notes_from (next_trans t p c) c rs')
  end.
Definition trace_notes (rs : list qrec) : list (list shown) :=
  match rs with [] => [] | r :: rs' => notes_from (first_trans r) r rs' end.
