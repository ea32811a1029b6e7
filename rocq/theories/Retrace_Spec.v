(** Two POWER10 traces of the same execution: the walks of one leave out other
    steps than those of the other. *)
Require Import NArith ZArith List Bool.
Require Import Verif.Word Verif.Codec_Types Verif.Xlate_Spec Verif.Htm_Model Verif.Trace_Spec Verif.Trace10_Spec.
Import ListNotations.
Local Open Scope N_scope.

(** The same complete walk, real address at its end and stamps. *)
Definition same_xl (y y' : xl) : Prop :=
  y_walk y = y_walk y' /\ (forall r, ends_at r y = ends_at r y')
  /\ stamps_of (xl_words y) = stamps_of (xl_words y').
Definition same_insn (i i' : insn10) : Prop :=
  Forall2 same_xl (t_ixl i) (t_ixl i') /\ t_addr i = t_addr i' /\ Forall2 same_xl (t_dxl i) (t_dxl i')
  /\ t_stamps i = t_stamps i' /\ t_insn i = t_insn i' /\ t_raw i = t_raw i' /\ t_branch i = t_branch i'
  /\ t_off i = t_off i' /\ t_esid i = t_esid i' /\ t_msr i = t_msr i' /\ t_prefix i = t_prefix i'
  /\ t_data i = t_data i'.
Definition same_item (x x' : item10) : Prop :=
  match x, x' with
  | JStamp w r, JStamp w' r' => w = w' /\ r = r'
  | JInsn i, JInsn i' => same_insn i i'
  | JOther w, JOther w' => w = w'
  | _, _ => False
  end.
