(** How a trace moves from address to address: interrupts and the other
    places reached from elsewhere. *)
Require Import NArith List Bool.
Require Import Verif.Htm_Model Verif.Trace_Spec.
Import ListNotations.
Local Open Scope N_scope.

(** System calls and returns from interrupts: rfscv, rfid, hrfid, sc with level
    0 and 1, scv. *)
Definition system_insn (i : N) : bool :=
  existsb (N.eqb i) [0x4c0000a4; 0x4c000024; 0x4c000224; 0x44000002; 0x44000022]
  || ((i / 4096) mod 2 ^ 20 =? 0x44000) && N.odd i.
(** The interrupt vectors: every 128 bytes from 0 to 0xf80. *)
Definition vector (a : N) : bool := (a mod 128 =? 0) && (a <? 4096).
(** From p to c is not the next word.  Address 0 stands for no address. *)
Definition elsewhere (p c : N) : bool :=
  negb (p =? 0) && negb (c =? 0) && negb ((p + 4) mod 2 ^ 64 =? c).

(** Instructions: address, and whether marked as a branch or one of the system
    instructions. *)
Definition visit : Type := N * bool.
(** The addresses reached from elsewhere, each with whether the instruction
    before was a branch, or reached from elsewhere itself. *)
Fixpoint landings (p : N) (loose : bool) (l : list visit) : list (N * bool) :=
  match l with
  | [] => []
  | (a, leaves) :: l' =>
      (if elsewhere p a then [(a, loose)] else [])
      ++ landings a (leaves || elsewhere p a) l'
  end.
Definition number {A} (f : A -> bool) (l : list A) : N := N.of_nat (length (filter f l)).
(** Vectors reached from elsewhere behind other instructions. *)
Definition interrupts (l : list visit) : N :=
  number (fun x => negb (snd x) && vector (fst x)) (landings 0 false l).
(** Places reached from elsewhere behind branches and such places. *)
Definition after_branches (l : list visit) : N := number (fun x => snd x) (landings 0 false l).

Definition leaves8 (i : insn8) : bool := s_branch i || system_insn (s_insn i).
Fixpoint visits8 (prev : N) (l : list item8) : list visit :=
  match l with
  | [] => []
  | IInsn i :: l' => (addr8 i prev, leaves8 i) :: visits8 (addr8 i prev) l'
  | _ :: l' => visits8 prev l'
  end.
