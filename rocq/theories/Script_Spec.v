(** What the script should count. *)
Require Import Arith NArith List Bool.
Require Import Verif.Args_Model Verif.Script_Model.
Import ListNotations.
Local Open Scope N_scope.

(** Lines of qtdis: addresses of 64 bits, names without white space, and a
    disassembly that is one line starting with something printed, as the
    mnemonics of the disassembler do. *)
Definition printable (c : N) : Prop := py_space c = false.
Definition proper (x : listed) : Prop :=
  q_ea x < 2 ^ 64
  /\ match q_sym x with Some (n, off) => Forall printable n /\ off < 2 ^ 64 | None => True end
  /\ Forall (fun c => c <> 10) (q_text x) /\ printable (hd 0 (q_text x)) /\ hd 0 (q_text x) <> 60.
(** The name in front of the offset; a plus sign in the name ends it. *)
Fixpoint until_plus (n : word) : word :=
  match n with [] => [] | c :: n' => if c =? 43 then [] else c :: until_plus n' end.
Definition name_of (x : listed) : word := match q_sym x with Some (n, _) => until_plus n | None => [] end.

(** Kinds of lines, by address, name and instruction *)
Definition kernel_c (x : pline) : bool := (12 * 2 ^ 60 <=? pl_addr x) && (pl_addr x <? 13 * 2 ^ 60).
Definition opal_c (x : pline) : bool := pl_addr x / 2 ^ 24 =? 0x30.
Definition user_c (x : pline) : bool := negb (kernel_c x) && negb (opal_c x).
Definition enters (k : N) (x : pline) : bool := (pl_addr x =? k) || (pl_addr x =? 12 * 2 ^ 60 + 0x4000 + k).
Definition idle_c (x : pline) : bool := contains snooze (pl_fn x).
Definition switch_c (x : pline) : bool := contains switch_to (pl_fn x) && contains mflr (pl_insn x).
Definition is_bctrl (x : pline) : bool := word_eqb (pl_insn x) bctrl.

Definition count {A} (f : A -> bool) (l : list A) : N := N.of_nat (length (filter f l)).
Fixpoint lookup {A} (eqb : A -> A -> bool) (k : A) (l : list (A * N)) : N :=
  match l with [] => 0 | (x, n) :: l' => if eqb k x then n else lookup eqb k l' end.

(** A system call's function starts behind the first bctrl from the entry on.
    [p] are the lines before, the newest first: the newest is a bctrl, and there
    is an entry at or before it without another bctrl from there on. *)
Definition called (p : list pline) : Prop :=
  exists b r mid e r', p = b :: r /\ is_bctrl b = true
    /\ p = mid ++ e :: r' /\ enters 0xc00 e = true
    /\ Forall (fun x => is_bctrl x = false) (tl (mid ++ [e])).
(** The same, computed. *)
Fixpoint pending (p : list pline) : bool :=
  match p with [] => false | x :: p' => negb (is_bctrl x) && (enters 0xc00 x || pending p') end.
Definition called_b (p : list pline) : bool :=
  match p with [] => false | b :: r => is_bctrl b && (enters 0xc00 b || pending r) end.
(** How often the function [n] was called so; the newest line first. *)
Fixpoint calls_of (n : word) (p : list pline) : N :=
  match p with
  | [] => 0
  | x :: p' => (if called_b p' && word_eqb n (pl_fn x) then 1 else 0) + calls_of n p'
  end.

(** The state after some lines, the newest first *)
Record tells (p : list pline) (s : pst) : Prop := mk_tells {
  t_sys : i_system s = count kernel_c p;
  t_opal : i_opal s = count opal_c p;
  t_user : i_user s = count user_c p;
  t_idle : i_idle s = count idle_c p;
  t_switches : i_switches s = count switch_c p;
  t_exc : forall k, In k exception_lookup -> lookup N.eqb k (i_exc s) = count (enters k) p;
  t_exc0 : forall k, ~ In k exception_lookup -> lookup N.eqb k (i_exc s) = 0;
  t_calls : forall n, lookup word_eqb n (i_calls s) = calls_of n p;
  t_entry : i_entry s = pending p;
  t_branch : i_branch s = called_b p
}.
