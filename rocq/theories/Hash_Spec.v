(** What the hash functions compute: Bob Jenkins' lookup3, as published. *)
Require Import NArith List Bool.
Require Import Verif.Codec_Types.
Import ListNotations.
Local Open Scope N_scope.

Definition W32 : N := 4294967296.
Definition triple : Type := N * N * N.
(** Rotation of 32 bits to the left *)
Definition rotl (x k : N) : N := (x * 2 ^ k) mod W32 + x / 2 ^ (32 - k).
(** One step of mix: x -= z; x ^= z <<< k; z += y; the next step is about y *)
Definition mix_step (s : triple) (k : N) : triple :=
  let '(x, y, z) := s in (y, (z + y) mod W32, N.lxor ((x + W32 - z) mod W32) (rotl z k)).
Definition spec_mix (s : triple) : triple := fold_left mix_step [4; 6; 8; 16; 19; 4] s.
(** One step of final: x ^= z; x -= z <<< k; the next step is about y *)
Definition final_step (s : triple) (k : N) : triple :=
  let '(x, y, z) := s in (y, z, (N.lxor x z + W32 - rotl z k) mod W32).
Definition spec_final (s : triple) : triple :=
  let '(a, b, c) := s in
  let '(a, b, c) := fold_left final_step [14; 11; 25; 16; 4; 14; 24] (c, a, b) in
  (a, b, c).
Definition spec_add (s : triple) (x y z : N) : triple :=
  let '(a, b, c) := s in ((a + x) mod W32, (b + y) mod W32, (c + z) mod W32).
(** Three words at a time; missing words of the last group are zero *)
Fixpoint absorb (ws : list N) (s : triple) : triple :=
  match ws with
  | [] => spec_final s
  | [x] => spec_final (spec_add s x 0 0)
  | [x; y] => spec_final (spec_add s x y 0)
  | x :: y :: z :: r =>
      match r with
      | [] => spec_final (spec_add s x y z)
      | _ => absorb r (spec_mix (spec_add s x y z))
      end
  end.
(** The words of a key of bytes, the last one filled up with zero bytes *)
Fixpoint words_of (order : list N -> list N) (key : list N) : list N :=
  match key with
  | [] => []
  | [x] => [be_val (order [x; 0; 0; 0])]
  | [x; y] => [be_val (order [x; y; 0; 0])]
  | [x; y; z] => [be_val (order [x; y; z; 0])]
  | x :: y :: z :: w :: r => be_val (order [x; y; z; w]) :: words_of order r
  end.
Definition little_endian (l : list N) : list N := rev l.
Definition big_endian (l : list N) : list N := l.
(** Hash and second hash of a sequence of words that takes [bytes] bytes;
    nothing is mixed if there are none *)
Definition lookup3 (ws : list N) (bytes : N) (start : N) : N * N :=
  let v := (0xdeadbeef + bytes + start) mod W32 in
  match ws with
  | [] => (v, start)
  | _ => let '(a, b, c) := absorb ws (v, v, v) in (c, b)
  end.
Definition lookup3_bytes (order : list N -> list N) (key : list N) (start : N) : N * N :=
  lookup3 (words_of order key) (N.of_nat (length key)) start.
Definition both (r : N * N) : N := snd r * W32 + fst r.

(** Bytes of elements, least significant first *)
Fixpoint bytes_of (w : nat) (v : N) : list N :=
  match w with O => [] | S w => v mod 256 :: bytes_of w (v / 256) end.
Definition is_byte (x : N) : Prop := x < 256.
Definition is_triple (s : triple) : Prop := let '(a, b, c) := s in a < W32 /\ b < W32 /\ c < W32.
