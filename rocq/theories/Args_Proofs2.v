(** Numbers on command lines (C71). *)
Require Import Arith ZArith NArith List Bool Lia ZifyBool ZifyN ZifyNat.
Require Import Verif.Args_Model Verif.Args_Spec Verif.Args_Proofs.
Import ListNotations.
Local Open Scope N_scope.

Lemma digits_text ds rest : Forall (fun d => d < 10) ds ->
  match rest with c :: _ => is_digit c = false | [] => True end -> forall acc,
  digits_val acc (text_of ds ++ rest) = fold_left (fun a d => 10 * a + d) ds acc.
Proof.
  intros F R. induction F as [|d ds D _ IH]; intros acc.
  - cbn. destruct rest as [|c r]; [reflexivity|]. cbn. now rewrite R.
  - cbn [text_of List.map app digits_val fold_left]. unfold is_digit.
    replace ((48 <=? 48 + d) && (48 + d <=? 57)) with true by lia.
    replace (48 + d - 48) with d by lia. apply IH.
Qed.

Lemma start_text ds rest : Forall (fun d => d < 10) ds -> ds <> [] ->
  sign_of (skip_space (text_of ds ++ rest)) = (false, text_of ds ++ rest).
Proof.
  intros F NE. destruct F as [|d ds D F]; [now destruct NE|]. cbn [text_of List.map app skip_space].
  unfold is_space. replace ((48 + d =? 32) || ((9 <=? 48 + d) && (48 + d <=? 13))) with false by lia.
  assert (C : d = 0 \/ d = 1 \/ d = 2 \/ d = 3 \/ d = 4 \/ d = 5 \/ d = 6 \/ d = 7 \/ d = 8 \/ d = 9) by lia.
  decompose [or] C; subst; reflexivity.
Qed.

Definition ended (rest : word) : Prop := match rest with c :: _ => is_digit c = false | [] => True end.

Theorem strtol_text ds rest : Forall (fun d => d < 10) ds -> ds <> [] -> ended rest ->
  strtol (text_of ds ++ rest) = Z.min (2 ^ 63 - 1) (Z.of_N (value_of ds)).
Proof. intros F NE R. unfold strtol. rewrite (start_text ds rest F NE). rewrite (digits_text ds rest F R). reflexivity. Qed.
Theorem strtoul_text ds rest : Forall (fun d => d < 10) ds -> ds <> [] -> ended rest ->
  strtoul (text_of ds ++ rest) = N.min (2 ^ 64 - 1) (value_of ds).
Proof.
  intros F NE R. unfold strtoul. rewrite (start_text ds rest F NE). rewrite (digits_text ds rest F R).
  fold (value_of ds). destruct (N.ltb_spec (2 ^ 64 - 1) (value_of ds)); lia.
Qed.
Theorem count_text ds : Forall (fun d => d < 10) ds -> ds <> [] -> value_of ds < 2 ^ 63 ->
  ulong_of (strtol (text_of ds)) = value_of ds.
Proof.
  intros F NE V. rewrite <- (app_nil_r (text_of ds)), (strtol_text ds [] F NE I). unfold ulong_of.
  change (2 ^ 63) with 9223372036854775808 in V. change (2 ^ 63)%Z with 9223372036854775808%Z. change (2 ^ 64)%Z with 18446744073709551616%Z.
  rewrite Z.min_r by lia. rewrite Z.mod_small by lia. lia.
Qed.
Theorem pid_text ds : Forall (fun d => d < 10) ds -> ds <> [] -> value_of ds < 2 ^ 31 ->
  atoi (text_of ds) = Z.of_N (value_of ds).
Proof.
  intros F NE V. unfold atoi. rewrite <- (app_nil_r (text_of ds)), (strtol_text ds [] F NE I).
  change (2 ^ 31) with 2147483648 in V. change (2 ^ 63)%Z with 9223372036854775808%Z.
  change (2 ^ 31)%Z with 2147483648%Z. change (2 ^ 32)%Z with 4294967296%Z.
  rewrite Z.min_r by lia. rewrite Z.mod_small by lia. lia.
Qed.
