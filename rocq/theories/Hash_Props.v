(** C62: hashing *)
Require Import Arith NArith String Ascii List Bool.
Require Import Verif.Word Verif.Codec_Types Verif.Hash_Model Verif.Hash_Spec Verif.Hash_Proofs Verif.Hash_Proofs2 Verif.Hash_Proofs3 Verif.Hash_Proofs4.
Import ListNotations.
Local Open Scope N_scope.

(** Whatever the alignment, nothing behind the key is read and the hash is
    that of lookup3 on the host's words. *)
Theorem C62_hash_any : forall (little : bool) addr key base, Forall is_byte key ->
  hash_any little addr key base = Some (fst (lookup3_bytes (if little then little_endian else big_endian) key base)).
Proof. exact hash_any_ok. Qed.
Print Assumptions C62_hash_any.

Theorem C62_hash64_any : forall (little : bool) addr key base, Forall is_byte key ->
  hash64_any little addr key base =
  Some (both (lookup3_bytes (if little then little_endian else big_endian) key ((base + base / W32) mod W32))).
Proof. exact hash64_any_ok. Qed.
Print Assumptions C62_hash64_any.

Theorem C62_low_half : forall (little : bool) addr key base r, Forall is_byte key -> base < W32 ->
  hash64_any little addr key base = Some r -> hash_any little addr key base = Some (r mod W32).
Proof. exact hash64_any_low. Qed.
Print Assumptions C62_low_half.

(** The stable hash of bytes is the same on all hosts. *)
Theorem C62_stable_8 : forall (little : bool) addr key base, Forall is_byte key ->
  hash64_stable_8 little addr key base = Some (both (lookup3_bytes little_endian key ((base + base / W32) mod W32))).
Proof. exact hash64_stable_8_ok. Qed.
Print Assumptions C62_stable_8.

Theorem C62_stable_8_short : forall (little : bool) addr key base, Forall is_byte key ->
  hash_stable_8 little addr key base = Some (fst (lookup3_bytes little_endian key base)).
Proof. exact hash_stable_8_ok. Qed.
Print Assumptions C62_stable_8_short.

Theorem C62_hash_u32 : forall key initval,
  hash_u32 key initval = Some (fst (lookup3 key (N.of_nat (List.length key) * 4) initval)).
Proof. exact hash_u32_ok. Qed.
Print Assumptions C62_hash_u32.

(** Hashing words is hashing their bytes. *)
Theorem C62_words_as_bytes : forall (little : bool) addr key base, Forall (fun x => x < W32) key ->
  hash_u32 key base = hash_any little addr (flat_map (in_memory little 4) key) base.
Proof. exact hash_u32_any. Qed.
Print Assumptions C62_words_as_bytes.

(** Arrays whose last block is partial hash like their little endian bytes. *)
Theorem C62_stable_64 : forall key base (little : bool) addr,
  Forall (fun v => v < 18446744073709551616) key -> (List.length key mod 3 <> 0)%nat ->
  hash64_stable_64 key base = hash64_stable_8 little addr (flat_map (bytes_of 8) key) base.
Proof.
  intros key base little addr F R. rewrite stable_64_ok by (right; exact R).
  rewrite (stable_bytes 8 (words64 key)); [destruct key; [destruct (R eq_refl)|reflexivity]|destruct key; [destruct (R eq_refl)|discriminate]|].
  apply words_memory64, F.
Qed.
Print Assumptions C62_stable_64.

Theorem C62_stable_32 : forall key base (little : bool) addr,
  Forall (fun v => v < W32) key -> (List.length key mod 3 <> 0)%nat ->
  hash64_stable_32 key base = hash64_stable_8 little addr (flat_map (bytes_of 4) key) base.
Proof.
  intros key base little addr F R. rewrite stable_32_ok by (right; exact R).
  rewrite (stable_bytes 4 key); [destruct key; [destruct (R eq_refl)|reflexivity]|destruct key; [destruct (R eq_refl)|discriminate]|].
  apply words_memory32, F.
Qed.
Print Assumptions C62_stable_32.

Theorem C62_stable_16 : forall key base (little : bool) addr,
  Forall (fun v => v < 65536) key -> (List.length key mod 6 <> 0)%nat ->
  hash64_stable_16 key base = hash64_stable_8 little addr (flat_map (bytes_of 2) key) base.
Proof.
  intros key base little addr F R. rewrite stable_16_ok by (try exact F; right; exact R).
  rewrite (stable_bytes 2 (words16 key)); [destruct key; [destruct (R eq_refl)|reflexivity]|destruct key; [destruct (R eq_refl)|discriminate]|].
  apply words_memory16, F.
Qed.
Print Assumptions C62_stable_16.

(** No array: no mixing, and half of the result only. *)
Theorem C62_stable_empty : forall base,
  let h := (0xdeadbeef + base + base / W32) mod W32 in
  hash64_stable_64 [] base = Some h /\ hash64_stable_32 [] base = Some h /\ hash64_stable_16 [] base = Some h.
Proof.
  intros base h. repeat split; [apply stable_64_ok|apply stable_32_ok|apply stable_16_ok]; (left; reflexivity) || constructor.
Qed.
Print Assumptions C62_stable_empty.

(** The last three (or six) elements of a complete last block do not count. *)
Theorem C62_stable_refuted : forall m (pre x x' : list N) base,
  (List.length pre = 3 * m -> length x = 3 -> length x' = 3 ->
   (exists h, hash64_stable_64 (pre ++ x) base = Some h /\ hash64_stable_64 (pre ++ x') base = Some h) /\
   (exists h, hash64_stable_32 (pre ++ x) base = Some h /\ hash64_stable_32 (pre ++ x') base = Some h))%nat /\
  (List.length pre = 6 * m -> length x = 6 -> length x' = 6 ->
   exists h, hash64_stable_16 (pre ++ x) base = Some h /\ hash64_stable_16 (pre ++ x') base = Some h)%nat.
Proof.
  intros m pre x x' base. split.
  - intros L1 L2 L3. split; [exact (ignored_64 m pre x x' base L1 L2 L3)|exact (ignored_32 m pre x x' base L1 L2 L3)].
  - exact (ignored_16 m pre x x' base).
Qed.
Print Assumptions C62_stable_refuted.

(** No information is lost in mixing. *)
Theorem C62_mix_bijective :
  (forall s t, is_triple s -> is_triple t -> mix s = mix t -> s = t) /\
  (forall s, is_triple s -> exists t, is_triple t /\ mix t = s).
Proof. split; [exact mix_inj|exact mix_surj]. Qed.
Print Assumptions C62_mix_bijective.

Theorem C62_final_bijective :
  (forall s t, is_triple s -> is_triple t -> final s = final t -> s = t) /\
  (forall s, is_triple s -> exists t, is_triple t /\ final t = s).
Proof. split; [exact final_inj|exact final_surj]. Qed.
Print Assumptions C62_final_bijective.

(** ** Examples: the vectors published with lookup3 *)
Definition text (s : string) : list N := List.map N_of_ascii (list_ascii_of_string s).
Definition four_score : list N := text "Four score and seven years ago".
Example four_score_0 : hashlittle true 0 four_score 0 = Some (0x17770551, 0xce7226e6). Proof. vm_compute. reflexivity. Qed.
Example four_score_1 : hashlittle true 3 four_score 1 = Some (0xcd628161, 0x6cbea4b3). Proof. vm_compute. reflexivity. Qed.
Example four_score_alignment :
  List.map (fun a => hash_any true a four_score 1) [0; 1; 2; 3] = repeat (Some 0xcd628161) 4.
Proof. vm_compute. reflexivity. Qed.
Example nothing : hash_any true 0 [] 0 = Some 0xdeadbeef /\ hash64_any true 0 [] 0x100000002 = Some 0x3deadbef2.
Proof. vm_compute. split; reflexivity. Qed.
Example words : hash_u32 [1; 2; 3; 4] 0 = hash_any false 1 [0;0;0;1; 0;0;0;2; 0;0;0;3; 0;0;0;4] 0 /\
  hash_u32 [1; 2; 3; 4] 0 = hash_any true 0 [1;0;0;0; 2;0;0;0; 3;0;0;0; 4;0;0;0] 0 /\ hash_u32 [1; 2; 3; 4] 0 <> hash_u32 [1; 2; 4; 3] 0.
Proof. vm_compute. repeat split; try reflexivity. discriminate. Qed.
Example three_elements :
  hash64_stable_32 [1; 2; 3] 0 = hash64_stable_32 [4; 5; 6] 0 /\
  hash64_stable_8 true 0 [1;0;0;0; 2;0;0;0; 3;0;0;0] 0 <> hash64_stable_8 true 0 [4;0;0;0; 5;0;0;0; 6;0;0;0] 0.
Proof. vm_compute. split; [reflexivity|discriminate]. Qed.
(** struct eara_key of htm/erat.c 47-51 has four bytes of padding behind its
    first member; they are hashed too, so that equal keys are found only if
    the compiler clears them. *)
Definition eara_bytes (page_shift address real_address : N) (padding : list N) : list N :=
  (bytes_of 4 page_shift ++ padding ++ bytes_of 8 address ++ bytes_of 8 real_address)%list.
Example padding_counts :
  hash64_any true 0 (eara_bytes 12 0x10000 0x20000 [0; 0; 0; 0]) 0 <> hash64_any true 0 (eara_bytes 12 0x10000 0x20000 [1; 0; 0; 0]) 0.
Proof. vm_compute. discriminate. Qed.
