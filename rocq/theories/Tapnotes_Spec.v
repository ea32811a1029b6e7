(** The notes (lines that begin with a number sign) in the report of a test
    program. *)
Require Import NArith List Bool String.
Require Import Verif.Tap_Model Verif.Tap_Spec.
Require Verif.Vtext_Spec Verif.Tlbdump_Spec Verif.Tlbdump_Model.
Import ListNotations.
Local Open Scope N_scope.
Local Open Scope list_scope.
Local Notation codes := Tlbdump_Spec.codes.
(** Decimal, without leading zeros (C72) *)
Local Notation dec := Tlbdump_Model.dec.

Definition line_note (t : list N) : option (list N) := after (codes "# ") t.
Definition notes_of (t : list N) : list (list N) := some line_note (Vtext_Spec.split 10 t).
(** Digits and white space *)
Definition confusing (t : list N) : bool := forallb (fun c => existsb (N.eqb c) (codes "0123456789 " ++ [9; 10; 11; 12; 13])) t.
Fixpoint expected_notes (todo : bool) (cs : list call) : list (list N) :=
  match cs with
  | [] => []
  | TOk ok func file line name :: cs' =>
      match name with
      | Some (Some t) =>
          if confusing t then
            [codes "    You named your test '" ++ t ++ codes "'.  You shouldn't use numbers for your test names."; codes "    Very confusing."]
          else []
      | _ => []
      end
      ++ (if ok then []
          else [codes (if todo then "    Failed (TODO) test (" else "    Failed test (") ++ file ++ codes ":" ++ func ++ codes "() at line "
                ++ dec line ++ codes ")"])
      ++ expected_notes todo cs'
  | TDiag t :: cs' => t :: expected_notes todo cs'
  | TTodo _ :: cs' => expected_notes true cs'
  | TTodoEnd :: cs' => expected_notes false cs'
  | _ :: cs' => expected_notes todo cs'
  end.
(** What it says at the end: [count] tests were run, [bad] of them failed *)
Definition summary (plan : option N) (count bad : N) : list (list N) :=
  let failed rest := if bad =? 0 then [] else [codes "Looks like you failed " ++ dec bad ++ codes " tests of " ++ dec count ++ codes rest] in
  match plan with
  | None => failed "."%string
  | Some n =>
      if n <? count then [codes "Looks like you planned " ++ dec n ++ codes " tests but ran " ++ dec (count - n) ++ codes " extra."]
      else if count <? n then (codes "Looks like you planned " ++ dec n ++ codes " tests but only ran " ++ dec count ++ codes ".") :: failed " run."%string
      else failed "."%string
  end.
Definition short_line (c : call) : Prop := match c with TOk _ _ _ line _ => line < 2 ^ 31 | _ => True end.
Definition is_bad (r : result) : bool := negb (passed r) && match marked r with Some (Todo _) => false | _ => true end.
Definition count_bad (l : list result) : N := N.of_nat (List.length (filter is_bad l)).
