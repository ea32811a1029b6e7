(** Model of qtrace-bbv/ccan/str: hex.c, base32.c and strcount.  Strings and
    buffers are lists of bytes; a pointer into one is the rest of the list.
    The output of a function is the list of bytes it has written from the start
    of the destination, also where it fails half-way. *)
Require Import NArith List Bool.
Import ListNotations.
Local Open Scope N_scope.

(** ** hex.c *)
(* hex/hex.c:7-22, signed or unsigned char alike: the ranges are of ASCII *)
Definition char_to_hex (c : N) : option N :=
  if (48 <=? c) && (c <=? 57) then Some (c - 48)
  else if (97 <=? c) && (c <=? 102) then Some (c - 97 + 10)
  else if (65 <=? c) && (c <=? 70) then Some (c - 65 + 10)
  else None.
(* hex/hex.c:24-40: the result and what was written *)
Fixpoint hex_decode (str : list N) (bufsize : nat) : bool * list N :=
  match str with
  | a :: b :: str' =>
      match char_to_hex a, char_to_hex b with
      | Some v1, Some v2 =>
          match bufsize with
          | O => (false, [])
          | S k => let '(r, w) := hex_decode str' k in
                   (r, N.land (N.lor (N.shiftl v1 4) v2) 0xff :: w)
          end
      | _, _ => (false, [])
      end
  | [] => (match bufsize with O => true | _ => false end, [])
  | [_] => (false, [])
  end.
(* hex/hex.c:42-49; [None] is abort *)
Definition hexchar (v : N) : option N :=
  if v <? 10 then Some (48 + v) else if v <? 16 then Some (97 + v - 10) else None.
Fixpoint hex_digits (buf : list N) : option (list N) :=
  match buf with
  | [] => Some [0]
  | c :: r => match hexchar (N.shiftr c 4), hexchar (N.land c 0xf), hex_digits r with
              | Some a, Some b, Some l => Some (a :: b :: l)
              | _, _, _ => None
              end
  end.
(* hex/hex.h:53-56, hex/hex.c:51-66; sizes do not overflow *)
Definition hex_str_size (bytes : nat) : nat := 2 * bytes + 1.
Definition hex_data_size (strlen : nat) : nat := Nat.div strlen 2.
Definition hex_encode (buf : list N) (destsize : nat) : option (bool * list N) :=
  if Nat.ltb destsize (hex_str_size (length buf)) then Some (false, [])
  else match hex_digits buf with Some l => Some (true, l) | None => None end.

(** ** base32.c *)
(* base32/base32.c:7 *)
Definition base32_chars : list N :=
  [65; 66; 67; 68; 69; 70; 71; 72; 73; 74; 75; 76; 77; 78; 79; 80; 81; 82; 83; 84; 85; 86; 87; 88; 89; 90;
   50; 51; 52; 53; 54; 55; 61].
Definition pad : N := 61.
(* base32/base32.c:29-46; [None] is abort *)
Definition padlen (remainder : nat) : option nat :=
  match remainder with
  | O => Some 0 | 1 => Some 6 | 2 => Some 4 | 3 => Some 3 | 4 => Some 1 | _ => None
  end%nat.
(* base32/base32.c:48-51 *)
Definition base32_str_size (bytes : nat) : nat := Nat.div (bytes + 4) 5 * 8 + 1.
(* base32/base32.c:53-66: the trailing padding, at most six *)
Fixpoint trailing (l : list N) (limit : nat) : nat :=
  match l, limit with
  | c :: r, S k => if c =? pad then S (trailing r k) else O
  | _, _ => O
  end.
Definition base32_data_size (str : list N) : nat :=
  let max := (Nat.div (length str + 7) 8 * 5)%nat in
  (max - Nat.div (trailing (rev str) 6 * 5 + 7) 8)%nat.

(* memchr in the first 32 characters: the place *)
Fixpoint place (c : N) (l : list N) : option N :=
  match l with
  | [] => None
  | x :: r => if x =? c then Some 0 else match place c r with Some i => Some (i + 1) | None => None end
  end.
(* base32/base32.c:68-98, the loop *)
Fixpoint decode_chars (cs : list N) (acc : N) (num_pad : nat) : option (N * nat) :=
  match cs with
  | [] => Some (acc, num_pad)
  | c :: r =>
      let acc := N.land (N.shiftl acc 5) 0xffffffffffffffff in
      match place c (firstn 32 base32_chars) with
      | None => if c =? pad then decode_chars r acc (S num_pad) else None
      | Some p => match num_pad with O => decode_chars r (N.lor acc p) O | _ => None end
      end
  end.
(** Bytes 3 to 7 of a 64-bit number, most significant first *)
Definition low_bytes (v : N) : list N :=
  [N.land (N.shiftr v 32) 0xff; N.land (N.shiftr v 24) 0xff; N.land (N.shiftr v 16) 0xff;
   N.land (N.shiftr v 8) 0xff; N.land v 0xff].
Definition decode_8_chars (cs : list N) : option (list N * nat) :=
  match decode_chars cs 0 0 with
  | None => None
  | Some (acc, num_pad) =>
      if (Nat.eqb num_pad 5) || (Nat.eqb num_pad 2) then None
      else Some (low_bytes acc, Nat.div (40 - num_pad * 5) 8)
  end.
(* base32/base32.c:100-118; [fuel]: at most length/8 rounds *)
Fixpoint base32_decode (fuel : nat) (str : list N) (bufsize : nat) : bool * list N :=
  if Nat.ltb (length str) 8 then
    (match str, bufsize with [], O => true | _, _ => false end, [])
  else match fuel with
       | O => (false, [])
       | S fuel' =>
           match decode_8_chars (firstn 8 str) with
           | None => (false, [])
           | Some (val, bytes) =>
               if Nat.ltb bufsize bytes then (false, [])
               else let '(r, w) := base32_decode fuel' (skipn 8 str) (bufsize - bytes) in
                    (r, firstn bytes val ++ w)
           end
       end.

(* base32/base32.c:120-139, the loop; [bits] counts down by five *)
Fixpoint encode_chars (fuel : nat) (res : N) (bits : nat) : option (list N) :=
  match bits with
  | O => Some []
  | _ => match fuel with
         | O => None
         | S fuel' =>
             match nth_error base32_chars (N.to_nat (N.land (N.shiftr res 35) 0x1f)),
                   encode_chars fuel' (N.land (N.shiftl res 5) 0xffffffffffffffff) (bits - 5) with
             | Some c, Some l => Some (c :: l)
             | _, _ => None
             end
         end
  end.
(** The number of which [buf] is bytes 3 on, most significant first *)
Definition be40 (buf : list N) : N :=
  fold_left (fun a b => a * 256 + b) (buf ++ repeat 0 (5 - length buf)) 0.
Definition encode_8_chars (buf : list N) : option (list N) :=
  if Nat.eqb (length buf) 0 || Nat.ltb 5 (length buf) then None
  else match encode_chars 8 (be40 buf) (length buf * 8) with
       | None => None
       | Some l =>
           if Nat.eqb (length buf) 5 then Some l
           else match padlen (length buf) with Some n => Some (l ++ repeat pad n) | None => None end
       end.
(* base32/base32.c:141-160; [None]: an assertion or abort *)
Fixpoint base32_encode (fuel : nat) (buf : list N) (destsize : nat) : option (bool * list N) :=
  match buf with
  | [] => Some (if Nat.eqb destsize 1 then (true, [0]) else (false, []))
  | _ =>
      match fuel with
      | O => None
      | S fuel' =>
          if Nat.ltb destsize 8 then Some (false, [])
          else match encode_8_chars (firstn 5 buf) with
               | None => None
               | Some l => match base32_encode fuel' (skipn 5 buf) (destsize - 8) with
                           | Some (r, w) => Some (r, l ++ w)
                           | None => None
                           end
               end
      end
  end.

(** ** str.c *)
(** strstr: the rest from the first occurrence on *)
Fixpoint prefix (needle s : list N) : bool :=
  match needle, s with
  | [], _ => true
  | a :: n, b :: r => (a =? b) && prefix n r
  | _ :: _, [] => false
  end.
Fixpoint strstr (s needle : list N) : option (list N) :=
  if prefix needle s then Some s
  else match s with [] => None | _ :: r => strstr r needle end.
(* str.c:4-13; [None]: not done after [fuel] rounds *)
Fixpoint strcount (fuel : nat) (haystack needle : list N) : option nat :=
  match strstr haystack needle with
  | None => Some O
  | Some h => match fuel with
              | O => None
              | S fuel' => option_map S (strcount fuel' (skipn (length needle) h) needle)
              end
  end.
