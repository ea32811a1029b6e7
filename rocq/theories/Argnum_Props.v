(** C71, any text given for a number; C73, the dictionaries and names of the statistics script. *)
Require Import Arith ZArith NArith String List Bool Lia.
Require Import Verif.Args_Model Verif.Args_Spec Verif.Script_Model Verif.Script_Spec Verif.Argnum_Proofs.
Require Verif.Tlbdump_Spec.
Import ListNotations.
Local Open Scope N_scope.
Local Open Scope list_scope.
Local Notation codes := Tlbdump_Spec.codes.

(** White space, a sign and what follows the digits: the values saturate, and
    a minus sign is arithmetic modulo 2^64 for the unsigned ones. *)
Theorem C71_decimal : forall w neg ds, decimal w neg ds ->
  strtol w = (if neg then Z.max (- 2 ^ 63) (- Z.of_N (value_of ds)) else Z.min (2 ^ 63 - 1) (Z.of_N (value_of ds)))%Z
  /\ strtoul w = if 2 ^ 64 <=? value_of ds then 2 ^ 64 - 1
                 else Z.to_N ((if neg then - Z.of_N (value_of ds) else Z.of_N (value_of ds)) mod 2 ^ 64).
Proof. exact any_decimal. Qed.
Print Assumptions C71_decimal.
(** Any other text is zero. *)
Theorem C71_no_decimal : forall w, (forall neg ds, ~ decimal w neg ds) -> strtol w = 0%Z /\ strtoul w = 0.
Proof. exact no_decimal. Qed.
Print Assumptions C71_no_decimal.
(** ptracer fast-forwards on its own only when it attaches to several threads
    and was given no number, or zero, to skip. *)
Theorem C71_skip : forall p n, skip_of p n =
  match pl_target p with
  | Attach _ => if pl_skip p =? 0 then if Nat.leb n 1 then 0 else 1000000 else pl_skip p
  | Exec _ => pl_skip p
  end.
Proof. exact skips. Qed.
Print Assumptions C71_skip.
Example C71_decimal_ex : decimal (codes " -12x") true [1; 2] /\ strtol (codes " -12x") = (-12)%Z /\ strtoul (codes " -12x") = 2 ^ 64 - 12
  /\ strtoul (codes "+7") = 7 /\ strtol (codes "- 7") = 0%Z /\ strtoul (codes "-18446744073709551616") = 2 ^ 64 - 1
  /\ strtol (codes "-9223372036854775809") = (- 2 ^ 63)%Z.
Proof.
  split; [|vm_compute; repeat split; reflexivity].
  exists (codes " "), (codes "-"), (codes "x"). split; [reflexivity|]. split; [constructor; [left; reflexivity|constructor]|].
  split; [left; split; reflexivity|]. split; [repeat constructor|]. split; [discriminate|].
  intros c r E. injection E as <- _. vm_compute. intros [_ H]. apply H. reflexivity.
Qed.

(** The names the script looks for, as texts *)
Theorem C73_kinds : forall x,
  (idle_c x = true <-> exists a b, pl_fn x = a ++ codes "snooze_loop" ++ b) /\
  (switch_c x = true <-> (exists a b, pl_fn x = a ++ codes "__switch_to" ++ b) /\ exists a b, pl_insn x = a ++ codes "mflr" ++ b) /\
  (is_bctrl x = true <-> pl_insn x = codes "bctrl").
Proof. exact names. Qed.
Print Assumptions C73_kinds.
(** Each key is in its dictionary once, with a count that is not zero. *)
Theorem C73_once : forall l s, s = fold_left parse_one l pst0 ->
  NoDup (List.map fst (i_exc s)) /\ Forall (fun e => 0 < snd e) (i_exc s) /\
  NoDup (List.map fst (i_calls s)) /\ Forall (fun e => 0 < snd e) (i_calls s).
Proof. exact once. Qed.
Print Assumptions C73_once.
Example C73_once_ex : i_exc (fold_left parse_one (List.map (fun a => mk_pline a (codes "nop") []) [0x500; 0xc000000000004c00; 0x500; 0x504]) pst0)
  = [(0x500, 2); (0xc00, 1)].
Proof. vm_compute. reflexivity. Qed.
