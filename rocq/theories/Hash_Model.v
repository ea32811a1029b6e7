(** Model of qtrace-bbv/ccan/hash: Jenkins' lookup3 hash of byte and word
    arrays.  Line numbers are those of qtrace-bbv/ccan/hash/hash.c. *)
Require Import NArith List Bool.
Require Import Verif.Word Verif.Codec_Types.
Import ListNotations.
Local Open Scope N_scope.

(** The internal state: a, b, c *)
Definition st3 : Type := N * N * N.
Definition sub32 (a b : N) : N := (a + w32 - b mod w32) mod w32.
(* hash.c:84 *)
Definition rot (x k : N) : N := N.lor (u32 (x * 2 ^ k)) (N.shiftr x (32 - k)).

(* hash.c:130-138 *)
Definition mix (s : st3) : st3 :=
  let '(a, b, c) := s in
  let a := sub32 a c in let a := N.lxor a (rot c 4) in let c := u32 (c + b) in
  let b := sub32 b a in let b := N.lxor b (rot a 6) in let a := u32 (a + c) in
  let c := sub32 c b in let c := N.lxor c (rot b 8) in let b := u32 (b + a) in
  let a := sub32 a c in let a := N.lxor a (rot c 16) in let c := u32 (c + b) in
  let b := sub32 b a in let b := N.lxor b (rot a 19) in let a := u32 (a + c) in
  let c := sub32 c b in let c := N.lxor c (rot b 4) in let b := u32 (b + a) in
  (a, b, c).
(* hash.c:165-174 *)
Definition final (s : st3) : st3 :=
  let '(a, b, c) := s in
  let c := N.lxor c b in let c := sub32 c (rot b 14) in
  let a := N.lxor a c in let a := sub32 a (rot c 11) in
  let b := N.lxor b a in let b := sub32 b (rot a 25) in
  let c := N.lxor c b in let c := sub32 c (rot b 16) in
  let a := N.lxor a c in let a := sub32 a (rot c 4) in
  let b := N.lxor b a in let b := sub32 b (rot a 14) in
  let c := N.lxor c b in let c := sub32 c (rot b 24) in
  (a, b, c).

(** ** Statements.  [None]: an element outside of the array is read. *)
Definition stmt : Type := st3 -> option st3.
Definition add_a (v : N) (s : st3) : st3 := let '(a, b, c) := s in (u32 (a + v), b, c).
Definition add_b (v : N) (s : st3) : st3 := let '(a, b, c) := s in (a, u32 (b + v), c).
Definition add_c (v : N) (s : st3) : st3 := let '(a, b, c) := s in (a, b, u32 (c + v)).
(** x += v *)
Definition plus (x : N -> st3 -> st3) (v : option N) : stmt :=
  fun s => match v with Some v => Some (x v s) | None => None end.
(** ((uint32_t)v) << sh *)
Definition shl (v : option N) (sh : N) : option N := option_map (fun v => u32 (v * 2 ^ sh)) v.
(** v + (w << 16) *)
Definition pair16 (v w : option N) : option N :=
  match v, w with Some v, Some w => Some (u32 (v + u32 (w * 2 ^ 16))) | _, _ => None end.

(** A switch whose cases fall through *)
Inductive item := Case (n : nat) | Do (f : stmt) | Break | Return.
(** The state, and whether the function returns at once *)
Fixpoint execute (l : list item) (s : st3) : option (st3 * bool) :=
  match l with
  | [] => Some (s, false)
  | Case _ :: l => execute l s
  | Do f :: l => match f s with Some s => execute l s | None => None end
  | Break :: _ => Some (s, false)
  | Return :: _ => Some (s, true)
  end.
Fixpoint switch (n : nat) (l : list item) (s : st3) : option (st3 * bool) :=
  match l with
  | [] => Some (s, false)
  | Case m :: l' => if Nat.eqb n m then execute l' s else switch n l' s
  | _ :: l' => switch n l' s
  end.
(** do block; length -= step; k += step while length > step, and what is left *)
Fixpoint blocks {A} (fuel : nat) (step : nat) (block : list A -> stmt) (k : list A) (s : st3) : option (list A * st3) :=
  match fuel with
  | O => None
  | S fuel =>
      if Nat.ltb step (length k) then
        match block k s with
        | None => None
        | Some s => blocks fuel step block (skipn step k) (mix s)
        end
      else Some (k, s)
  end.
Definition seq3 (f g h : stmt) : stmt :=
  fun s => match f s with None => None | Some s => match g s with None => None | Some s => h s end end.

(** ** Reading a key of bytes *)
Section KEY.
  (** The host's byte order *)
  Variable little : bool.
  Variable k : list N.
  Definition k8 (i : nat) : option N := nth_error k i.
  Definition host_word (l : list N) : N := if little then be_val (rev l) else be_val l.
  Definition word_at (w i : nat) : option N :=
    let l := firstn w (skipn (w * i) k) in if Nat.eqb (length l) w then Some (host_word l) else None.
  Definition k16 (i : nat) : option N := word_at 2 i.
  Definition k32 (i : nat) : option N := word_at 4 i.

  Definition A (v : option N) : item := Do (plus add_a v).
  Definition B (v : option N) : item := Do (plus add_b v).
  Definition C (v : option N) : item := Do (plus add_c v).

  (* hash.c:266-274, 309-325 *)
  Definition block32 : stmt := seq3 (plus add_a (k32 0)) (plus add_b (k32 1)) (plus add_c (k32 2)).
  Definition last32_little : list item :=
    [Case 12; C (k32 2); B (k32 1); A (k32 0); Break;
     Case 11; C (shl (k8 10) 16);
     Case 10; C (shl (k8 9) 8);
     Case 9; C (k8 8);
     Case 8; B (k32 1); A (k32 0); Break;
     Case 7; B (shl (k8 6) 16);
     Case 6; B (shl (k8 5) 8);
     Case 5; B (k8 4);
     Case 4; A (k32 0); Break;
     Case 3; A (shl (k8 2) 16);
     Case 2; A (shl (k8 1) 8);
     Case 1; A (k8 0); Break;
     Case 0; Return].
  (* hash.c:333-341, 345-374 *)
  Definition block16 : stmt :=
    seq3 (plus add_a (pair16 (k16 0) (k16 1))) (plus add_b (pair16 (k16 2) (k16 3))) (plus add_c (pair16 (k16 4) (k16 5))).
  Definition last16 : list item :=
    [Case 12; C (pair16 (k16 4) (k16 5)); B (pair16 (k16 2) (k16 3)); A (pair16 (k16 0) (k16 1)); Break;
     Case 11; C (shl (k8 10) 16);
     Case 10; C (k16 4); B (pair16 (k16 2) (k16 3)); A (pair16 (k16 0) (k16 1)); Break;
     Case 9; C (k8 8);
     Case 8; B (pair16 (k16 2) (k16 3)); A (pair16 (k16 0) (k16 1)); Break;
     Case 7; B (shl (k8 6) 16);
     Case 6; B (k16 2); A (pair16 (k16 0) (k16 1)); Break;
     Case 5; B (k8 4);
     Case 4; A (pair16 (k16 0) (k16 1)); Break;
     Case 3; A (shl (k8 2) 16);
     Case 2; A (k16 0); Break;
     Case 1; A (k8 0); Break;
     Case 0; Return].
  (* hash.c:379-396, 399-415 *)
  Definition four (x : N -> st3 -> st3) (i : nat) (s0 s1 s2 s3 : N) : stmt :=
    fun s => match seq3 (plus x (shl (k8 i) s0)) (plus x (shl (k8 (i + 1)) s1)) (plus x (shl (k8 (i + 2)) s2)) s with
             | None => None
             | Some s => plus x (shl (k8 (i + 3)) s3) s
             end.
  Definition block8_little : stmt := seq3 (four add_a 0 0 8 16 24) (four add_b 4 0 8 16 24) (four add_c 8 0 8 16 24).
  Definition last8_little : list item :=
    [Case 12; C (shl (k8 11) 24); Case 11; C (shl (k8 10) 16); Case 10; C (shl (k8 9) 8); Case 9; C (k8 8);
     Case 8; B (shl (k8 7) 24); Case 7; B (shl (k8 6) 16); Case 6; B (shl (k8 5) 8); Case 5; B (k8 4);
     Case 4; A (shl (k8 3) 24); Case 3; A (shl (k8 2) 16); Case 2; A (shl (k8 1) 8); Case 1; A (k8 0); Break;
     Case 0; Return].
  (* hash.c:486-502 *)
  Definition last32_big : list item :=
    [Case 12; C (k32 2); B (k32 1); A (k32 0); Break;
     Case 11; C (shl (k8 10) 8);
     Case 10; C (shl (k8 9) 16);
     Case 9; C (shl (k8 8) 24);
     Case 8; B (k32 1); A (k32 0); Break;
     Case 7; B (shl (k8 6) 8);
     Case 6; B (shl (k8 5) 16);
     Case 5; B (shl (k8 4) 24);
     Case 4; A (k32 0); Break;
     Case 3; A (shl (k8 2) 8);
     Case 2; A (shl (k8 1) 16);
     Case 1; A (shl (k8 0) 24); Break;
     Case 0; Return].
  (* hash.c:509-526, 529-545 *)
  Definition block8_big : stmt := seq3 (four add_a 0 24 16 8 0) (four add_b 4 24 16 8 0) (four add_c 8 24 16 8 0).
  Definition last8_big : list item :=
    [Case 12; C (k8 11); Case 11; C (shl (k8 10) 8); Case 10; C (shl (k8 9) 16); Case 9; C (shl (k8 8) 24);
     Case 8; B (k8 7); Case 7; B (shl (k8 6) 8); Case 6; B (shl (k8 5) 16); Case 5; B (shl (k8 4) 24);
     Case 4; A (k8 3); Case 3; A (shl (k8 2) 8); Case 2; A (shl (k8 1) 16); Case 1; A (shl (k8 0) 24); Break;
     Case 0; Return].
End KEY.

Definition init3 (v : N) : st3 := (u32 v, u32 v, u32 v).
(** Loop, switch, and final unless the function returned: the hash and the
    second hash, [val2] if it is not set. *)
Definition run {X} (step : nat) (block : list X -> stmt) (last : list X -> list item) (key : list X) (s : st3) (val2 : N)
  : option (N * N) :=
  match blocks (S (length key)) step block key s with
  | None => None
  | Some (k, s) =>
      match switch (length k) (last k) s with
      | None => None
      | Some ((a, b, c), true) => Some (c, val2)
      | Some (s, false) => let '(a, b, c) := final s in Some (c, b)
      end
  end.

(* hash.c:252-421; [addr] is the address of the key *)
Definition hashlittle (little : bool) (addr : N) (key : list N) (val2 : N) : option (N * N) :=
  let s := init3 (0xdeadbeef + u32 (N.of_nat (length key)) + val2) in
  if little && (N.land addr 3 =? 0) then run 12 (block32 little) (last32_little little) key s val2
  else if little && (N.land addr 1 =? 0) then run 12 (block16 little) (last16 little) key s val2
  else run 12 block8_little last8_little key s val2.
(* hash.c:429-552 *)
Definition hashbig (little : bool) (addr : N) (key : list N) (val2 : N) : option (N * N) :=
  let s := init3 (0xdeadbeef + u32 (N.of_nat (length key)) + val2) in
  if negb little && (N.land addr 3 =? 0) then run 12 (block32 little) (last32_big little) key s val2
  else run 12 block8_big last8_big key s val2.

(** ** Arrays of words *)
Section WORDS.
  Variable k : list N.
  Definition kw (i : nat) : option N := nth_error k i.
  Definition low (v : option N) : option N := option_map u32 v.
  Definition high (v : option N) : option N := option_map (fun v => u32 (N.shiftr v 32)) v.
  (* hash.c:200-219 *)
  Definition block_u32 : stmt := seq3 (plus add_a (kw 0)) (plus add_b (kw 1)) (plus add_c (kw 2)).
  Definition last_u32 : list item :=
    [Case 3; C (kw 2); Case 2; B (kw 1); Case 1; A (kw 0); Break; Case 0; Return].
  (* hash.c:565-592 *)
  Definition block_s64 : stmt := fun s =>
    match seq3 (plus add_a (low (kw 0))) (plus add_b (high (kw 0))) (plus add_c (low (kw 1))) s with
    | None => None
    | Some s => seq3 (plus add_a (high (kw 1))) (plus add_b (low (kw 2))) (plus add_c (high (kw 2))) (mix s)
    end.
  Definition last_s64 : list item :=
    [Case 2; A (low (kw 0)); B (high (kw 0)); C (low (kw 1)); Do (fun s => Some (mix s)); A (high (kw 1)); Break;
     Case 1; A (low (kw 0)); B (high (kw 0)); Break;
     Case 0; Return].
  (* hash.c:604-622 *)
  Definition last_s32 : list item := [Case 2; B (kw 1); Case 1; A (kw 0); Break; Case 0; Return].
  (* hash.c:634-659 *)
  Definition block_s16 : stmt :=
    seq3 (plus add_a (pair16 (kw 0) (kw 1))) (plus add_b (pair16 (kw 2) (kw 3))) (plus add_c (pair16 (kw 4) (kw 5))).
  Definition last_s16 : list item :=
    [Case 5; C (kw 4); Case 4; B (shl (kw 3) 16); Case 3; B (kw 2); Case 2; A (shl (kw 1) 16); Case 1; A (kw 0); Break;
     Case 0; Return].
End WORDS.
(** Behind case 1 of the C code final falls through to the break of case 0 *)
(* hash.c:189-222: the result is c also behind the return *)
Definition hash_u32 (key : list N) (initval : N) : option N :=
  option_map fst (run 3 block_u32 last_u32 key (init3 (0xdeadbeef + u32 (u32 (N.of_nat (length key)) * 4) + initval)) 0).

Definition two (b c : N) : N := N.lor (b * 2 ^ 32) c.
(** hash64_stable: c alone is returned for an empty array *)
Definition stable {X} (step : nat) (block : list X -> stmt) (last : list X -> list item) (width : N) (key : list X) (base : N)
  : option N :=
  option_map (fun r => two (snd r) (fst r))
    (run step block last key
       (init3 (0xdeadbeef + u32 (u32 (N.of_nat (length key)) * width) + N.shiftr base 32 + base)) 0).
(* hash.c:557-661 *)
Definition hash64_stable_64 : list N -> N -> option N := stable 3 block_s64 last_s64 8.
Definition hash64_stable_32 : list N -> N -> option N := stable 3 block_u32 last_s32 4.
Definition hash64_stable_16 : list N -> N -> option N := stable 6 block_s16 last_s16 2.
Definition b32_of (base : N) : N := u32 (base + N.shiftr base 32).
(* hash.c:663-669 *)
Definition hash64_stable_8 (little : bool) (addr : N) (key : list N) (base : N) : option N :=
  option_map (fun r => two (snd r) (fst r)) (hashlittle little addr key (b32_of base)).
(* hash.c:671-697 *)
Definition hash_any (little : bool) (addr : N) (key : list N) (base : N) : option N :=
  option_map fst ((if little then hashlittle else hashbig) little addr key base).
Definition hash_stable_64 (key : list N) (base : N) : option N := option_map u32 (hash64_stable_64 key base).
Definition hash_stable_32 (key : list N) (base : N) : option N := option_map u32 (hash64_stable_32 key base).
Definition hash_stable_16 (key : list N) (base : N) : option N := option_map u32 (hash64_stable_16 key base).
Definition hash_stable_8 (little : bool) (addr : N) (key : list N) (base : N) : option N :=
  option_map fst (hashlittle little addr key base).
(* hash.c:701-712 *)
Definition hash64_any (little : bool) (addr : N) (key : list N) (base : N) : option N :=
  option_map (fun r => two (snd r) (fst r))
    ((if little then hashlittle else hashbig) little addr key (b32_of base)).
