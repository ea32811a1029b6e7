(** Model of htm/htmdecoder.c: a hardware trace is written as a qtrace file. *)
Require Import NArith ZArith List Bool.
Require Import Verif.Codec_Types Verif.Writer_Model Verif.Htm_Model.
Require Verif.Tlb_Model.
Import ListNotations.
Local Open Scope N_scope.

(* htm/htmdecoder.c:105-153: the instruction records are written, with the
   result of the call ignored; the others are printed at most *)
Definition to_write (r : hrec) : list qrec := match r with RInsn q => [q] | _ => [] end.

Inductive cres :=
| COk (file : list N)
| CDecode (e : herr)    (** the program dies in the decoder, *)
| CWrite (e : werr).    (** or in the writer *)

(* htm/htmdecoder.c:299-331 without -s, -i and -b: the file is opened with magic
   0, and closed also if the trace was read only in part; the result of
   htm_decode is ignored.  The file can always be extended. *)
Definition htmdecoder (qs : Tlb_Model.qsort) (stale : Z -> list N) (junk : Z -> qrec)
    (input : list N) (bad : bool) : cres :=
  match htm_decode qs stale junk true input bad with
  | HErr e => CDecode e
  | HOk s =>
      match write_trace 0 (flat_map to_write (h_out s)) with
      | inl e => CWrite e
      | inr file => COk file
      end
  end.
