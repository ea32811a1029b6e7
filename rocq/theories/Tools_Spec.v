(** What the counting tools should say of a trace. *)
Require Import NArith ZArith List Bool.
Require Import Verif.Codec_Types Verif.HtmBits_Spec Verif.Stats_Model Verif.Stats_Spec Verif.Opcode_Table Verif.Opcode_Spec.
Require Import Verif.Trace_Spec Verif.Trace10_Spec.
Import ListNotations.
Local Open Scope N_scope.

(** The statistics of instructions, see C32, and the mix, see C66. *)
Definition statistics (xs : list (N * N)) (r : option stt * option mix) : Prop :=
  exists s x, r = (Some s, Some x) /\ rel (rev xs) s
  /\ (forall k, (k < length opcodes)%nat -> nth_error (x_count x) k =
        Some (N.of_nat (length (filter (fun w => match first_hit dialect (removelast ppc_opcodes) w with
                                                 | Some j => Nat.eqb k j | None => false end) (List.map snd xs))) mod 2 ^ 64))
  /\ x_unknown x = N.of_nat (length (filter (fun w => match mnemonic w with
                                                      | Some _ => false | None => true end) (List.map snd xs))) mod 2 ^ 64.

(** Words that are no prefixes. *)
Definition whole_word (w : N) : Prop := w / 2 ^ 26 <> 1.
Definition whole8 (x : item8) : Prop := match x with IInsn i => whole_word (s_insn i) | _ => True end.
Definition whole10 (x : item10) : Prop :=
  match x with JInsn i => match t_prefix i with None => whole_word (t_insn i) | Some _ => True end | _ => True end.
Definition unprefixed10 (x : item10) : Prop := match x with JInsn i => t_prefix i = None | _ => True end.
(** At most one data address. *)
Definition one_data10 (x : item10) : Prop := match x with JInsn i => (length (t_data i) <= 1)%nat | _ => True end.
(** The first word of an instruction, in the upper half of the prefix word of the trace. *)
Definition first_word (i : insn10) : N :=
  match t_prefix i with Some p => field 64 (snd p) 0 31 | None => t_insn i end.
(** Address and first word of each instruction. *)
Fixpoint heads10 (z : st10) (l : list item10) : list (N * N) :=
  match l with
  | [] => []
  | x :: l' => match x with JInsn i => [(ea10 i z, first_word i)] | _ => [] end ++ heads10 (step10 true z x) l'
  end.
