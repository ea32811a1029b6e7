(** C73, every line that qtrace_statistics.py can be given. *)
Require Import NArith PeanoNat String List Bool Lia.
Require Import Verif.Script_Model Verif.Regex_Proofs.
Require Verif.Tlbdump_Spec.
Import ListNotations.
Local Open Scope N_scope.
Local Open Scope list_scope.
Local Notation codes := Tlbdump_Spec.codes.

Theorem C73_sym : forall l h name i, r_sym l = Some (h, name, i) <-> sym_match l h name i.
Proof. exact sym_iff. Qed.
Print Assumptions C73_sym.
Theorem C73_no_sym : forall l h i, r_no_sym l = Some (h, i) <-> no_sym_match l h i.
Proof. exact no_sym_iff. Qed.
Print Assumptions C73_no_sym.
Theorem C73_rejects : forall l, parse_line l = None <-> ~ exists h s r, l = h ++ s ++ r /\ some_of hexa h /\ some_of white s.
Proof. exact rejects. Qed.
Print Assumptions C73_rejects.
Theorem C73_digits : forall c, hexa c ->
  nth_error (codes "0123456789abcdef") (N.to_nat (hex_digit c)) = Some c \/ nth_error (codes "0123456789ABCDEF") (N.to_nat (hex_digit c)) = Some c.
Proof. exact digits. Qed.
Print Assumptions C73_digits.

(** A name with > in it, and one that is not closed *)
Example C73_odd_names : r_sym (codes "c0de <a->b+0x4>  mflr r0" ++ [10]) = Some (codes "c0de", codes "a->b+0x4", codes "mflr r0")
  /\ r_sym (codes "C0DE <a b> nop") = None /\ r_no_sym (codes "C0DE <a b> nop") = Some (codes "C0DE", codes "<a b> nop")
  /\ parse_line (codes "`c0de nop") = None.
Proof. vm_compute. auto. Qed.
