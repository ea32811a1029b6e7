(** C91: the report and the exit status of a test program tell what its tests did. *)
Require Import NArith PeanoNat String List Bool Lia.
Require Import Verif.Tap_Model Verif.Tap_Spec Verif.Tap_Proofs.
Require Verif.Tlbdump_Spec.
Import ListNotations.
Local Open Scope N_scope.
Local Open Scope list_scope.
Local Notation codes := Tlbdump_Spec.codes.

Theorem C91_planned : forall n cs, 0 < n < 2 ^ 31 -> proper false cs -> Forall clean cs -> N.of_nat (length (expected None 0 cs)) < 2 ^ 31 ->
  exists out r, tap_run tap0 (TPlan n :: cs) = Some (out, r) /\ results_of out = expected None 0 cs /\ plans_of out = [n] /\ r <= 255 /\
    (r = 0 <-> N.of_nat (length (expected None 0 cs)) = n /\ Forall (fun x => ~ bad x) (expected None 0 cs)).
Proof. exact planned. Qed.
Print Assumptions C91_planned.

Theorem C91_unplanned : forall cs, proper false cs -> Forall clean cs -> N.of_nat (length (expected None 0 cs)) < 2 ^ 31 ->
  exists out r, tap_run tap0 (TNoPlan :: cs) = Some (out, r) /\ results_of out = expected None 0 cs /\
    plans_of out = [N.of_nat (length (expected None 0 cs))] /\ r <= 255 /\ (r = 0 <-> Forall (fun x => ~ bad x) (expected None 0 cs)).
Proof. exact unplanned. Qed.
Print Assumptions C91_unplanned.

Theorem C91_plan_once : forall s n cs, t_have_plan s = true \/ n = 0 ->
  exists out, tap_run s (TPlan n :: cs) = Some (out, 255) /\ results_of out = [] /\ plans_of out = [].
Proof. exact plan_once. Qed.
Print Assumptions C91_plan_once.

(** A passed test with a number sign in its title, a failed one that was to be
    done, two skipped ones, and a failed one *)
Definition calls1 : list call :=
  [TOk true (codes "main") (codes "run.c") 12 (Some (Some (codes "add #1 entry")));
   TTodo (Some (codes "slow")); TOk false (codes "main") (codes "run.c") 14 (Some (Some (codes "fast"))); TTodoEnd;
   TDiag (codes "no server"); TSkip 2 (Some (codes "network"));
   TOk false (codes "main") (codes "run.c") 19 None].
Example C91_report : tap_run tap0 (TPlan 5 :: calls1) = Some (codes
"1..5
ok 1 - add \#1 entry
not ok 2 - fast # TODO slow
#     Failed (TODO) test (run.c:main() at line 14)
# no server
ok 3 # skip network
ok 4 # skip network
not ok 5
#     Failed test (run.c:main() at line 19)
# Looks like you failed 1 tests of 5.
", 1).
Proof. vm_compute. reflexivity. Qed.
Example C91_expected : expected None 0 calls1
  = [mk_result true 1 (Some (codes "add #1 entry")) None; mk_result false 2 (Some (codes "fast")) (Some (Todo (codes "slow")));
     mk_result true 3 None (Some (Skipped (codes "network"))); mk_result true 4 None (Some (Skipped (codes "network")));
     mk_result false 5 None None] /\ proper false calls1 /\ Forall clean calls1.
Proof.
  split; [reflexivity|]. split; [cbn; auto|].
  repeat constructor; intros I; vm_compute in I; intuition discriminate.
Qed.
Example C91_short : option_map snd (tap_run tap0 (TPlan 7 :: calls1)) = Some 3 /\ option_map snd (tap_run tap0 (TNoPlan :: calls1)) = Some 1 /\
  tap_run tap0 [TPlan 2; TPlan 2] = Some (codes
"1..2
# Looks like your test died just after 0.
", 255).
Proof. vm_compute. auto. Qed.

(** The condition on line feeds is needed: only number signs are escaped in a
    title, and a line feed in it begins a result that no test had. *)
Theorem C91_newline_refuted :
  ~ (forall cs out r, proper false cs -> tap_run tap0 (TNoPlan :: cs) = Some (out, r) -> results_of out = expected None 0 cs).
Proof.
  intros H. specialize (H [TOk false [] [] 1 (Some (Some (10 :: codes "ok 2 - made up")))] _ _ I eq_refl). vm_compute in H. discriminate H.
Qed.
Print Assumptions C91_newline_refuted.

(** todo_end leaves its pointer as it is: a second call frees the message again. *)
Theorem C91_double_end_refuted : ~ (forall cs, ~ In TTodoEnd (firstn 1 cs) -> tap_run tap0 (TNoPlan :: cs) <> None).
Proof.
  intros H. apply (H [TTodo (Some (codes "later")); TTodoEnd; TTodoEnd]); [|reflexivity]. cbn. intros [E|[]]. discriminate E.
Qed.
Print Assumptions C91_double_end_refuted.
