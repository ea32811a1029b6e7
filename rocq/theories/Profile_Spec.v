(** What qtrace-bbv should make of a trace. *)
Require Import NArith List Bool.
Require Import Verif.Branch_Spec Verif.Codec_Types Verif.Convert_Spec.
Require Import Verif.Bbv_Model Verif.Bbv_Spec Verif.Matrix_Spec.
Import ListNotations.
Local Open Scope N_scope.

(** An instruction: its address and, if known, whether it is a branch. *)
Definition step := (N * option Prop)%type.
Definition jump (a : N) (l : list step) : Prop :=
  match l with [] => False | x :: _ => fst x <> (a + 4) mod 2 ^ 64 end.
(** The records: instructions that are branches, or not followed by the next
    one in memory, end blocks. *)
Fixpoint profile (l : list step) (recs : list rec) : Prop :=
  match l, recs with
  | [], [] => True
  | (a, p) :: l, (a', b) :: recs =>
      a' = a
      /\ match p with
         | Some p => b = true <-> p \/ jump a l
         | None => jump a l -> b = true
         end
      /\ profile l recs
  | _, _ => False
  end.
(** Instructions of a written trace, and of a hardware trace (see C57). *)
Definition of_written (q : qrec) : step := (q_insn_addr q, Some (q_branch q = true \/ conditional (q_insn q))).
Definition of_given (g : given) : step :=
  (g_addr g, option_map (fun b => b \/ conditional (g_insn g)) (g_branch g)).

(** Instructions that follow each other in memory *)
Definition stretch (b : list rec) : Prop :=
  forall k r r', nth_error b k = Some r -> nth_error b (S k) = Some r' -> fst r' = (fst r + 4) mod 2 ^ 64.

(** The number of instructions behind the last branch *)
Fixpoint open_end (recs : list rec) : nat :=
  match recs with
  | [] => O
  | r :: l => if existsb snd recs then open_end l else length recs
  end.
(** The sum of the entries of the first [rows] vectors *)
Definition total (P : N) (ks : list block) (rows : N) : N :=
  sum_to (N.to_nat rows) (fun i => sum_to (length (firsts (List.map k_addr ks)) + 1) (vector P ks i)).
