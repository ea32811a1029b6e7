(** C92: the string helpers of CCAN. *)
Require Import NArith PeanoNat List Bool Lia.
Require Import Verif.Cstr_Model Verif.Cstr_Proofs.
Import ListNotations.
Local Open Scope N_scope.

Theorem C92_streq : forall a b ra rb, cstring a -> cstring b ->
  exists r, streq (a ++ 0 :: ra) (b ++ 0 :: rb) = Some r /\ (r = true <-> a = b).
Proof. exact strcmp_ok. Qed.
Print Assumptions C92_streq.

Theorem C92_strstarts : forall a b ra rb, cstring a -> cstring b ->
  exists r, strstarts (a ++ 0 :: ra) (b ++ 0 :: rb) = Some r /\ (r = true <-> exists u, a = b ++ u).
Proof. exact starts. Qed.
Print Assumptions C92_strstarts.

Theorem C92_strends : forall a b ra rb, cstring a -> cstring b ->
  exists r, strends (a ++ 0 :: ra) (b ++ 0 :: rb) = Some r /\ (r = true <-> exists u, a = u ++ b).
Proof. exact ends. Qed.
Print Assumptions C92_strends.

(** "run.c" and ".c", at the end of their memory *)
Example C92_ends : strends [114; 117; 110; 46; 99; 0] [46; 99; 0] = Some true /\ strends [46; 99; 0] [114; 117; 110; 46; 99; 0] = Some false
  /\ strstarts [114; 117; 110; 46; 99; 0] [114; 117; 0; 7] = Some true /\ strstarts [114; 0] [114; 117; 0] = Some false.
Proof. vm_compute. auto. Qed.

(** A number of [size] bytes in base 8, 10 or more with a sign (or the 0 of
    octal numbers) and the final 0, and in base 16 with 0x *)
Theorem C92_max_chars : forall size base ds, 1 <= size -> 8 <= base -> numeral base ds -> number base ds < 2 ^ (8 * size) ->
  1 + N.of_nat (length ds) + 1 <= str_max_chars size.
Proof. exact fits. Qed.
Print Assumptions C92_max_chars.
Theorem C92_max_chars_hex : forall size ds, 1 <= size -> numeral 16 ds -> number 16 ds < 2 ^ (8 * size) ->
  2 + N.of_nat (length ds) + 1 <= str_max_chars size.
Proof. exact fits_hex. Qed.
Print Assumptions C92_max_chars_hex.
(** Nothing is wasted for a byte, and little for 8 bytes. *)
Example C92_sizes : map str_max_chars [1; 2; 4; 8] = [5; 8; 14; 26] /\ number 10 [1; 2; 8] = 128 /\ numeral 10 [1; 2; 8].
Proof. split; [reflexivity|]. split; [reflexivity|]. split; [repeat constructor|]. right. exists 1, [2; 8]. split; reflexivity. Qed.

Theorem C92_asprintf : forall malloc t, N.of_nat (length t) < 2 ^ 31 - 1 ->
  asprintf malloc (Some t) = (if malloc (N.of_nat (length t) + 1) then AReturn (Some (N.of_nat (length t))) (PTo (t ++ [0])) else AReturn None PNull)
  /\ afmt malloc (Some t) = (if malloc (N.of_nat (length t) + 1) then FText (t ++ [0]) else FNull).
Proof. exact asprintf_ok. Qed.
Print Assumptions C92_asprintf.

(** For any text: nothing is stored behind the memory, and only a text of
    INT_MAX characters is too long without being reported. *)
Theorem C92_asprintf_any : forall malloc text, asprintf malloc text <> AFault /\
  (asprintf malloc text = AOverflow <-> exists t, text = Some t /\ N.of_nat (length t) = 2 ^ 31 - 1) /\
  (afmt malloc text = FUndefined -> asprintf malloc text = AOverflow).
Proof. exact asprintf_any. Qed.
Print Assumptions C92_asprintf_any.
Example C92_formats : asprintf (fun _ => true) (Some [104; 105]) = AReturn (Some 2) (PTo [104; 105; 0])
  /\ asprintf (fun n => n <=? 2) (Some [104; 105]) = AReturn None PNull /\ asprintf (fun _ => true) None = AReturn None PUnset.
Proof. vm_compute. auto. Qed.
