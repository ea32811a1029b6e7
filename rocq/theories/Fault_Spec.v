(** How decoding a hardware trace may end before the file does. *)
Require Import NArith ZArith List Bool.
Require Import Verif.Codec_Types Verif.Xlate_Model Verif.Htm_Model.
Require Verif.Tlb_Model Verif.Bb_Model.

(** With a callback ([full]): a failed assert in htm.c, in the translation code
    or in the TLB, and an access outside the arrays of xlate records or of the
    38 walk records.  Without one the TLB is not used and no walk is decoded. *)
Definition stops (full : bool) (e : herr) : Prop :=
  match e with
  | HAssert | HOob | HXlate XOob => True
  | HXlate XAssert | HTlb Tlb_Model.TAssert => full = true
  | _ => False
  end.
Definition bytes_ok (l : list N) : Prop := Forall (fun b => (b < 256)%N) l.

(** A counter or an array size left the range of int. *)
Definition overflows (e : herr) : Prop :=
  e = HOverflow \/ e = HTlb Tlb_Model.TOverflow \/ e = HBb Bb_Model.BOverflow.
