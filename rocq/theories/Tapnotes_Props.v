(** C91, the notes in the report of a test program. *)
Require Import NArith PeanoNat String List Bool Lia.
Require Import Verif.Tap_Model Verif.Tap_Spec Verif.Tapnotes_Spec Verif.Tapnotes_Proofs.
Require Verif.Tlbdump_Spec.
Import ListNotations.
Local Open Scope N_scope.
Local Open Scope list_scope.
Local Notation codes := Tlbdump_Spec.codes.

(** Together with C91_planned, which says that the program ends, and what the
    other lines are *)
Theorem C91_planned_notes : forall n cs out r, 0 < n < 2 ^ 31 -> proper false cs -> Forall clean cs -> Forall short_line cs ->
  N.of_nat (List.length (expected None 0 cs)) < 2 ^ 31 -> tap_run tap0 (TPlan n :: cs) = Some (out, r) ->
  notes_of out = expected_notes false cs ++ summary (Some n) (N.of_nat (List.length (expected None 0 cs))) (count_bad (expected None 0 cs)).
Proof. exact planned_notes. Qed.
Print Assumptions C91_planned_notes.

Theorem C91_unplanned_notes : forall cs out r, proper false cs -> Forall clean cs -> Forall short_line cs ->
  N.of_nat (List.length (expected None 0 cs)) < 2 ^ 31 -> tap_run tap0 (TNoPlan :: cs) = Some (out, r) ->
  notes_of out = expected_notes false cs ++ summary None (N.of_nat (List.length (expected None 0 cs))) (count_bad (expected None 0 cs)).
Proof. exact unplanned_notes. Qed.
Print Assumptions C91_unplanned_notes.

(** The calls of the example beside C91_planned *)
Definition calls1 : list call :=
  [TOk true (codes "main") (codes "run.c") 12 (Some (Some (codes "add #1 entry")));
   TTodo (Some (codes "slow")); TOk false (codes "main") (codes "run.c") 14 (Some (Some (codes "fast"))); TTodoEnd;
   TDiag (codes "no server"); TSkip 2 (Some (codes "network"));
   TOk false (codes "main") (codes "run.c") 19 None].
Example C91_notes : option_map (fun x => notes_of (fst x)) (tap_run tap0 (TPlan 7 :: calls1)) = Some
  [codes "    Failed (TODO) test (run.c:main() at line 14)"; codes "no server"; codes "    Failed test (run.c:main() at line 19)";
   codes "Looks like you planned 7 tests but only ran 5."; codes "Looks like you failed 1 tests of 5 run."].
Proof. vm_compute. reflexivity. Qed.
Example C91_number_name : option_map (fun x => notes_of (fst x)) (tap_run tap0 [TNoPlan; TOk true [] [] 1 (Some (Some (codes "1 2")))]) = Some
  [codes "    You named your test '1 2'.  You shouldn't use numbers for your test names."; codes "    Very confusing."].
Proof. vm_compute. reflexivity. Qed.
