(** C67: hexadecimal and base32 strings, and counting in strings. *)
Require Import NArith List Bool.
Require Import Verif.Str_Model Verif.Str_Spec Verif.Str_Proofs Verif.Str_Proofs2 Verif.Str_Proofs3.
Import ListNotations.
Local Open Scope N_scope.

(** hex_encode writes two lower case digits for every byte and a zero exactly
    if they fit, and nothing otherwise; it never aborts. *)
Theorem C67_hex_encode : forall buf destsize, Forall byte buf ->
  ((2 * length buf + 1 <= destsize)%nat ->
   exists s, hex_encode buf destsize = Some (true, s ++ [0]) /\ spells lower_digit s buf)
  /\ ((destsize < 2 * length buf + 1)%nat -> hex_encode buf destsize = Some (false, [])).
Proof. exact hex_encode_ok. Qed.
Print Assumptions C67_hex_encode.
(** hex_decode succeeds exactly if the string has two digits for each byte of
    the buffer, and then gives those bytes. *)
Theorem C67_hex_decode : forall str size w,
  hex_decode str size = (true, w) <-> spells digit str w /\ length w = size.
Proof. exact hex_decode_iff. Qed.
Print Assumptions C67_hex_decode.
Theorem C67_hex_bound : forall str size, (length (snd (hex_decode str size)) <= size)%nat.
Proof. intros str size. exact (hex_decode_bound (length str) str size (le_n _)). Qed.
Print Assumptions C67_hex_bound.
Theorem C67_hex_round : forall buf destsize s, Forall byte buf -> hex_encode buf destsize = Some (true, s) ->
  hex_decode (removelast s) (hex_data_size (length (removelast s))) = (true, buf).
Proof. exact hex_round. Qed.
Print Assumptions C67_hex_round.
(** "1f2f" *)
Example C67_hex_ex : hex_encode [0x1f; 0x2f] 5 = Some (true, [49; 102; 50; 102; 0])
  /\ hex_decode [49; 70; 50; 102] 2 = (true, [0x1f; 0x2f]) /\ hex_decode [49; 71] 1 = (false, [])
  /\ hex_decode [49; 70; 50; 102] 1 = (false, [0x1f]) /\ hex_encode [0x1f; 0x2f] 4 = Some (false, []).
Proof. vm_compute. repeat split; reflexivity. Qed.

(** base32_encode writes the encoding of RFC 4648 and a zero into a buffer of
    the size that base32_str_size gives; it never aborts. *)
Theorem C67_base32_encode : forall buf, Forall byte buf ->
  exists s, base32_encode (length buf) buf (base32_str_size (length buf)) = Some (true, s ++ [0])
    /\ is_base32 s buf /\ length s = (base32_str_size (length buf) - 1)%nat.
Proof. exact encode_ok. Qed.
Print Assumptions C67_base32_encode.
(** In a buffer of any other size it fails, within that buffer. *)
Theorem C67_base32_refuses : forall buf destsize, Forall byte buf -> destsize <> base32_str_size (length buf) ->
  exists w, base32_encode (length buf) buf destsize = Some (false, w) /\ (length w <= destsize)%nat.
Proof. intros buf destsize. exact (encode_refuses (length buf) buf destsize (le_n _)). Qed.
Print Assumptions C67_base32_refuses.
Theorem C67_base32_decode : forall str size w,
  base32_decode (length str) str size = (true, w) <-> reads str w /\ length w = size.
Proof. intros str size w. exact (decode_iff (length str) str size w (le_n _)). Qed.
Print Assumptions C67_base32_decode.
Theorem C67_base32_bound : forall str size, (length (snd (base32_decode (length str) str size)) <= size)%nat.
Proof. intros str. exact (decode_bound (length str) str). Qed.
Print Assumptions C67_base32_bound.
Theorem C67_base32_size : forall s buf, is_base32 s buf -> base32_data_size s = length buf.
Proof. exact data_size_ok. Qed.
Print Assumptions C67_base32_size.
Theorem C67_base32_round : forall buf s, Forall byte buf ->
  base32_encode (length buf) buf (base32_str_size (length buf)) = Some (true, s) ->
  base32_decode (length (removelast s)) (removelast s) (base32_data_size (removelast s)) = (true, buf).
Proof. exact base32_round. Qed.
Print Assumptions C67_base32_round.
(** The test vectors of RFC 4648: "" is "", "f" MY======, "fo" MZXQ====,
    "foobar" MZXW6YTBOI====== *)
Example C67_base32_ex :
  base32_encode 1 [102] 9 = Some (true, [77; 89; 61; 61; 61; 61; 61; 61; 0])
  /\ base32_encode 2 [102; 111] 9 = Some (true, [77; 90; 88; 81; 61; 61; 61; 61; 0])
  /\ base32_encode 6 [102; 111; 111; 98; 97; 114] 17 =
     Some (true, [77; 90; 88; 87; 54; 89; 84; 66; 79; 73; 61; 61; 61; 61; 61; 61; 0])
  /\ base32_decode 8 [77; 90; 88; 81; 61; 61; 61; 61] 2 = (true, [102; 111])
  /\ base32_decode 8 [77; 90; 88; 49; 61; 61; 61; 61] 2 = (false, []).
Proof. vm_compute. repeat split; reflexivity. Qed.

(** The header says that encoding succeeds if the string fits. *)
Theorem C67_base32_fits_refuted : exists buf destsize, Forall byte buf /\ (base32_str_size (length buf) <= destsize)%nat
  /\ forall s, base32_encode (length buf) buf destsize <> Some (true, s).
Proof.
  exists [102], 10%nat. split; [repeat constructor|]. split; [apply le_S; apply le_n|].
  intros s. vm_compute. discriminate.
Qed.
Print Assumptions C67_base32_fits_refuted.
(** and that decoding fails if there are invalid encodings: MZ====== has bits
    behind the byte, A======= is no encoding of anything, and padding may be
    in the middle. *)
Theorem C67_base32_strict_refuted : exists s buf,
  base32_decode (length s) s (base32_data_size s) = (true, buf) /\ Forall byte buf
  /\ base32_encode (length buf) buf (base32_str_size (length buf)) <> Some (true, s ++ [0]).
Proof.
  exists [77; 90; 61; 61; 61; 61; 61; 61], [102]. split; [vm_compute; reflexivity|].
  split; [repeat constructor|vm_compute; discriminate].
Qed.
Print Assumptions C67_base32_strict_refuted.
Example C67_base32_loose_ex :
  base32_decode 8 [65; 61; 61; 61; 61; 61; 61; 61] 0 = (true, [])
  /\ base32_decode 8 [61; 61; 61; 61; 61; 61; 61; 61] 0 = (true, [])
  /\ base32_decode 16 [77; 89; 61; 61; 61; 61; 61; 61; 77; 89; 61; 61; 61; 61; 61; 61] 2 = (true, [102; 102]).
Proof. vm_compute. repeat split; reflexivity. Qed.

(** strcount gives the largest number of occurrences that do not overlap. *)
Theorem C67_strcount : forall s needle, needle <> [] ->
  exists ps, strcount (length s) s needle = Some (length ps) /\ apart (length needle) 0 ps
    /\ Forall (occurs_at needle s) ps
    /\ forall qs, apart (length needle) 0 qs -> Forall (occurs_at needle s) qs -> (length qs <= length ps)%nat.
Proof. intros s needle Hn. exact (strcount_ok (length s) s needle Hn (le_n _)). Qed.
Print Assumptions C67_strcount.
(** "banana" and "ana"; "aaaa" and "aa" *)
Example C67_strcount_ex : strcount 6 [98; 97; 110; 97; 110; 97] [97; 110; 97] = Some 1%nat
  /\ strcount 4 [97; 97; 97; 97] [97; 97] = Some 2%nat.
Proof. vm_compute. split; reflexivity. Qed.
(** With an empty needle it never ends. *)
Theorem C67_strcount_refuted : forall fuel s, strcount fuel s [] = None.
Proof. exact strcount_empty. Qed.
Print Assumptions C67_strcount_refuted.
