(** Model of qtlib/tests/test3.c: a trace is read and written again. *)
Require Import NArith List Bool.
Require Import Verif.Codec_Types Verif.Writer_Model Verif.Reader_Model.
Import ListNotations.
Local Open Scope N_scope.

(** How a run ends. *)
Inductive copied :=
| CDone (out : list N)    (** the file named second holds [out] *)
| CRefused                (** lines 26-29: the header is not understood *)
| CFailed                 (** lines 37-40: a record cannot be written *)
| CAbort (e : werr)       (** the writer does not survive *)
| CFault (f : rfault).    (** the reader does not survive *)

(* qtlib/tests/test3.c:36-43.  Files open and can be extended.  The record is
   the part the writer looks at. *)
Fixpoint copy_loop (fuel : nat) (slack : list N) (s : rstate) (b : list N) (st : wstate) : copied :=
  match fuel with
  | O => CFault FFuel
  | S fuel' =>
      match qtreader_next_record slack s b with
      | ROk ((r, s'), b') =>
          match qtwriter_write_record st true (o_q r) with
          | WOk st' => copy_loop fuel' slack s' b' st'
          | WFail _ => CFailed
          | WErr e => CAbort e
          end
      | RErr =>
          match qtwriter_close st true with
          | inr out => CDone out
          | inl e => CAbort e
          end
      | RFault f => CFault f
      end
  end.

(* qtlib/tests/test3.c:13-46: the writer is opened without a magic number. *)
Definition copy (slack b : list N) : copied :=
  match qtreader_initialize b with
  | ROk (s, b') => copy_loop (S (length b')) slack s b' (qtwriter_open 0)
  | RErr => CRefused
  | RFault f => CFault f
  end.
