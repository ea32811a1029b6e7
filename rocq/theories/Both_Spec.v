(** Comparing runs of ptracer with different logs. *)
Require Import NArith ZArith List Bool.
Require Import Verif.Codec_Types Verif.Tracer_Model Verif.Both_Model.
Require Verif.Regs_Model Verif.Regs_Spec.
Import ListNotations.
Local Open Scope N_scope.

(** What happens apart from the ASCII log. *)
Definition traced (r : bres) : tres :=
  match r with BDied s => TDied (b_t s) | BClosed s => TClosed (b_t s) | BWaits s => TWaits (b_t s) end.
(** The tracer did not exit with an error. *)
Definition alive (r : bres) : option (both * bool) :=
  match r with BDied _ => None | BClosed s => Some (s, true) | BWaits s => Some (s, false) end.
(** Address and word of every instruction, in the ASCII log and in the records. *)
Definition in_log (s : both) : list (N * N) := Regs_Spec.insns (b_log s).
Definition in_file (s : both) : list (N * N) := List.map (fun q => (q_insn_addr q, q_insn q)) (t_out (b_t s)).
(** The limit as a number of instructions. *)
Definition limit (left : N) : option nat := if left =? 18446744073709551615 then None else Some (N.to_nat left).
