(** What a register dump should tell. *)
Require Import Arith NArith List Bool.
Require Import Verif.Regs_Model.
Import ListNotations.
Local Open Scope N_scope.

(** Registers that exist, in the order of the dump. *)
Definition all_regs : list reg :=
  List.map GPR (seq 0 32) ++ List.map VR (seq 0 32) ++ [VSCR; VRSAVE]
  ++ List.map VSR (seq 0 32) ++ [CTR; LR; XER; CR; FPSCR].
Definition reg_eqb (a b : reg) : bool :=
  match a, b with
  | GPR i, GPR j | VR i, VR j | VSR i, VSR j => Nat.eqb i j
  | VSCR, VSCR | VRSAVE, VRSAVE | CTR, CTR | LR, LR | XER, XER | CR, CR | FPSCR, FPSCR => true
  | _, _ => false
  end.
Definition digits (r : reg) : width :=
  match r with
  | GPR _ | CTR | LR | XER | FPSCR => W64
  | VR _ | VSR _ => W128
  | VSCR | VRSAVE | CR => W32
  end.

(** What the kernel can answer. *)
Definition answers (a : answer) : Prop :=
  length (a_vr a) = 33%nat /\
  (forall i, nth i (a_gpr a) 0 < 2 ^ 64) /\ (forall i, nth i (a_vr a) 0 < 2 ^ 128) /\
  (forall i, nth i (a_fpr a) 0 < 2 ^ 64) /\ (forall i, nth i (a_vsx a) 0 < 2 ^ 64) /\
  a_ctr a < 2 ^ 64 /\ a_link a < 2 ^ 64 /\ a_xer a < 2 ^ 64 /\ a_ccr a < 2 ^ 64 /\ a_vrsave a < 2 ^ 32.

(** The value of a register, from the answer. *)
Definition value (le : bool) (a : answer) (r : reg) : N :=
  match r with
  | GPR i => nth i (a_gpr a) 0
  | VR i => nth i (a_vr a) 0
  | VSCR => nth 32 (a_vr a) 0 mod 2 ^ 32
  | VRSAVE => a_vrsave a
  | VSR i => if le then nth i (a_vsx a) 0 * 2 ^ 64 + nth i (a_fpr a) 0
             else nth i (a_fpr a) 0 * 2 ^ 64 + nth i (a_vsx a) 0
  | CTR => a_ctr a
  | LR => a_link a
  | XER => a_xer a
  | CR => a_ccr a mod 2 ^ 32
  | FPSCR => nth 32 (a_fpr a) 0 mod 2 ^ 32
  end.

(** The instructions recorded: [skip] are passed over, then at most [left]. *)
Definition recorded {A} (skip : nat) (left : option nat) (l : list A) : list A :=
  match left with Some n => firstn n (skipn skip l) | None => skipn skip l end.

(** Before every instruction the registers that changed since the one before. *)
Fixpoint story (le : bool) (before : reg -> N) (l : list (N * N * answer)) : list item :=
  match l with
  | [] => []
  | (pc, insn, a) :: l' =>
      List.map (fun r => IReg (mk_line r (digits r) (value le a r)))
        (filter (fun r => negb (before r =? value le a r)) all_regs)
      ++ IInsn pc insn :: story le (value le a) l'
  end.

(** What somebody reading the log knows: the last value seen, or zero. *)
Fixpoint known (known0 : reg -> N) (l : list item) (r : reg) : N :=
  match l with
  | [] => known0 r
  | IReg x :: l' => known (fun r' => if reg_eqb r' (l_reg x) then l_val x else known0 r') l' r
  | IInsn _ _ :: l' => known known0 l' r
  end.
Definition insns (l : list item) : list (N * N) :=
  flat_map (fun i => match i with IInsn pc w => [(pc, w)] | IReg _ => [] end) l.

(** Calls all of which the kernel answers. *)
Definition calls (l : list (N * N * answer)) : list (N * N * option answer) :=
  List.map (fun x => (fst (fst x), snd (fst x), Some (snd x))) l.

(** A line of the dump: a register, its digits, a value that fits. *)
Definition proper (x : line) : Prop :=
  In (l_reg x) all_regs /\ l_width x = digits (l_reg x) /\
  l_val x < match l_width x with W32 => 2 ^ 32 | W64 => 2 ^ 64 | W128 => 2 ^ 128 end.

(** The architecture: the floating point register is doubleword 0 of the
    vector-scalar register, the more significant half. *)
Definition vsr (a : answer) (i : nat) : N := nth i (a_fpr a) 0 * 2 ^ 64 + nth i (a_vsx a) 0.
