(** When a call to the trace writer aborts the program. *)
Require Import NArith List Bool.
Require Import Verif.Codec_Types Verif.Writer_Model.
Import ListNotations.
Local Open Scope N_scope.

(** A page-table walk the format has no room for. *)
Definition unstorable (r : radix) : Prop :=
  rx_nr_ptes r <> 0 /\
  ((rx_walks r = 1 /\ rx_type r <> GUEST_REAL /\ rx_type r <> HOST_RADIX) \/
   (1 < rx_walks r /\ (4 < rx_nr_ptes r \/ 5 < rx_walks r))).

(** A page shift, truncated to a byte, that a 64-bit value cannot be shifted by. *)
Definition bad_shift (valid : bool) (ps : N) : Prop := valid = true /\ 64 <= ps mod 256.

(** [cur] does not directly follow [prev]. *)
Definition jump (prev cur : qrec) : Prop := q_insn_addr cur <> (q_insn_addr prev + 4) mod 2 ^ 64.

Definition first_unstorable (cur : qrec) : Prop := unstorable (q_radix_insn cur).
Definition next_unstorable (prev cur : qrec) : Prop :=
  (q_data_ra_valid prev = true /\ unstorable (q_radix_data prev)) \/
  (q_insn_ra_valid cur = true /\ jump prev cur /\ unstorable (q_radix_insn cur)).

Definition first_bad_shift (cur : qrec) : Prop :=
  q_insn_ra_valid cur = true /\ bad_shift (q_insn_ps_valid cur) (q_insn_ps cur).
Definition next_bad_shift (prev cur : qrec) : Prop :=
  (q_data_ra_valid prev = true /\ bad_shift (q_data_ps_valid prev) (q_data_ps prev)) \/
  (q_insn_ra_valid cur = true /\ jump prev cur /\
   bad_shift (q_insn_ps_valid cur) (q_insn_ps cur)).

(** The records that reached the writer in a run: those whose call returned true. *)
Fixpoint outcomes (st : wstate) (l : list (qrec * bool)) : list bool :=
  match l with
  | [] => []
  | (r, g) :: l' =>
      match qtwriter_write_record st g r with
      | WOk st' => true :: outcomes st' l'
      | WFail st' => false :: outcomes st' l'
      | WErr _ => []
      end
  end.
Definition accepted (st : wstate) (l : list (qrec * bool)) : list qrec :=
  map (fun x => fst (fst x)) (filter snd (combine l (outcomes st l))).
