(** How a user reads the listing of qtdis -v. *)
Require Import NArith List Bool String.
Require Import Verif.Codec_Types Verif.Verbose_Model Verif.Verbose_Spec.
Require Verif.Tlbdump_Spec.
Import ListNotations.
Local Open Scope N_scope.
Local Open Scope list_scope.

(** ** Reading text: fields between separators, and words between spaces. *)
Fixpoint split (sep : N) (t : list N) : list (list N) :=
  match t with
  | [] => [[]]
  | c :: t' => if c =? sep then [] :: split sep t'
               else match split sep t' with f :: fs => (c :: f) :: fs | [] => [[c]] end
  end.
Definition blank (f : list N) : bool := match f with [] => true | _ => false end.
Definition tokens (t : list N) : list (list N) := filter (fun f => negb (blank f)) (split 32 t).
Fixpoint same (a b : list N) : bool :=
  match a, b with [], [] => true | x :: a', y :: b' => (x =? y) && same a' b' | _, _ => false end.
Definition is (s : string) (t : list N) : bool := same (Tlbdump_Spec.codes s) t.
(** Numbers: hexadecimal with or without 0x, decimal behind an L *)
Definition digit (c : N) : N := if c <? 58 then c - 48 else c - 87.
Definition hexadecimal (t : list N) : N := fold_left (fun a c => 16 * a + digit c) t 0.
Definition prefixed (t : list N) : N := hexadecimal (skipn 2 t).
Definition decimal (t : list N) : N := fold_left (fun a c => 10 * a + (c - 48)) t 0.
Definition level (t : list N) : N := decimal (skipn 1 t).

(** ** What is behind the #.  Walks are read piece by piece. *)
Inductive piece :=
| PData (a : N) | PDataRpn (n : N) | PDataWalk | PDataSize (s : N)
| PInsnRpn (n : N) | PInsnWalk | PInsnSize (s : N) | PNode (n : N) | PTerm (node code : N)
| PGuest (l a : N) | PHost (l p : N) | PReal (a : N).
Fixpoint pieces (ts : list (list N)) : list piece :=
  match ts with
  | [] => []
  | t :: r =>
      if is "DATA" t then
        match r with
        | u :: ((x :: r') as r1) =>
            if is "RPN" u then PDataRpn (prefixed x) :: pieces r'
            else if is "RADIX" u then PDataWalk :: pieces r1
            else match r' with y :: r'' => PDataSize (decimal y) :: pieces r'' | [] => [] end
        | _ => [PDataWalk]
        end
      else if is "INSN" t then
        match r with
        | u :: ((x :: r') as r1) =>
            if is "RPN" u then PInsnRpn (prefixed x) :: pieces r'
            else if is "RADIX" u then PInsnWalk :: pieces r1
            else match r' with y :: r'' => PInsnSize (decimal y) :: pieces r'' | [] => [] end
        | _ => [PInsnWalk]
        end
      else if is "NODE" t then match r with x :: r' => PNode (prefixed x) :: pieces r' | _ => [] end
      else if is "TERM" t then
        match r with _ :: x :: _ :: _ :: y :: r' => PTerm (prefixed x) (prefixed y) :: pieces r' | _ => [] end
      else if is "GUEST" t then
        match r with
        | u :: x :: r' =>
            if is "HOST" u then match r' with y :: r'' => PReal (prefixed y) :: pieces r'' | [] => [] end
            else PGuest (level u) (hexadecimal x) :: pieces r'
        | _ => []
        end
      else if is "HOST" t then
        match r with u :: x :: r' => PHost (level u) (prefixed x) :: pieces r' | _ => [] end
      else PData (prefixed t) :: pieces r
  end.

(** Words of four bytes *)
Fixpoint words (le : bool) (bs : list N) : list N :=
  match bs with
  | a :: b :: c :: d :: bs' =>
      (if le then a + 256 * (b + 256 * (c + 256 * d)) else d + 256 * (c + 256 * (b + 256 * a))) :: words le bs'
  | _ => []
  end.
(** A line: address, words of -r, annotations *)
Definition reading (le raw : bool) (t : list N) : N * list N * list piece :=
  (hexadecimal (firstn 16 t),
   if raw then words le (List.map hexadecimal (tokens (nth 1 (split 9 t) []))) else [],
   match split 35 t with _ :: n :: _ => pieces (tokens n) | _ => [] end).
Definition readings (le raw : bool) (t : list N) : list (N * list N * list piece) :=
  List.map (reading le raw) (removelast (split 10 t)).

(** ** What there is to be read: values as far as the types of C hold them *)
Definition walk_pieces (w : radix) : list piece :=
  flat_map (fun j =>
    PGuest (N.of_nat (S j) mod 2 ^ 64) (nth j (rx_guest_real w) 0 mod 2 ^ 64)
    :: List.map (fun i => PHost (N.of_nat (S i) mod 2 ^ 64) (nth i (nth j (rx_host_ptes w) []) 0 mod 2 ^ 64)) (seq 0 (N.to_nat (rx_nr_ptes w)))
    ++ (if N.of_nat (S j) <? rx_walks w then [PReal (nth j (rx_host_real w) 0 mod 2 ^ 64)] else []))
    (seq 0 (N.to_nat (rx_walks w))).
Definition note_pieces (n : note) : list piece :=
  match n with
  | NData a => [PData (a mod 2 ^ 64)]
  | NDataRpn n => [PDataRpn (n mod 2 ^ 32)]
  | NDataRadix w => PDataWalk :: walk_pieces w
  | NDataSize s => [PDataSize (s mod 2 ^ 32)]
  | NInsnRpn n => [PInsnRpn (n mod 2 ^ 32)]
  | NInsnRadix w => PInsnWalk :: walk_pieces w
  | NInsnSize s => [PInsnSize (s mod 2 ^ 32)]
  | NNode n => [PNode (n mod 2 ^ 8)]
  | NTerm n c => [PTerm (n mod 2 ^ 8) (c mod 2 ^ 8)]
  end.
Definition line_reading (raw : bool) (v : vline) : N * list N * list piece :=
  (v_ea v mod 2 ^ 64, if raw then List.map (fun w => w mod 2 ^ 32) (v_words v) else [], flat_map note_pieces (v_notes v)).
(** The texts of others: no end of line and no #; symbols without tabs *)
Definition calm (t : list N) : Prop := ~ In 10 t /\ ~ In 35 t.
Definition plain (sym : N -> option (list N * N)) (dis : N -> list N -> list N) : Prop :=
  (forall a name off, sym a = Some (name, off) -> calm name /\ ~ In 9 name) /\ forall a ws, calm (dis a ws).

(** What is no walk; the annotations of C63 as pieces *)
Definition nowalk (p : piece) : bool :=
  match p with PDataWalk | PInsnWalk | PGuest _ _ | PHost _ _ | PReal _ => false | _ => true end.
Definition masked (s : shown) : list piece :=
  match s with
  | SData a => [PData (a mod 2 ^ 64)] | SDataRpn n => [PDataRpn (n mod 2 ^ 32)] | SDataSize s => [PDataSize (s mod 2 ^ 32)]
  | SInsnRpn n => [PInsnRpn (n mod 2 ^ 32)] | SInsnSize s => [PInsnSize (s mod 2 ^ 32)]
  | SNode n => [PNode (n mod 2 ^ 8)] | STerm n c => [PTerm (n mod 2 ^ 8) (c mod 2 ^ 8)]
  | SDataWalk _ | SInsnWalk _ => []
  end.

(** The first field is the address, perhaps with <name+0xoffset>; the last one
    in front of the annotations is the instruction. *)
Definition symbol (t : list N) : option (list N * N) :=
  match skipn 17 (nth 0 (split 9 t) []) with
  | [] => None
  | _ :: b =>
      let b := firstn (List.length b - 2) b in
      let off := last (split 120 b) [] in
      Some (firstn (List.length b - (3 + List.length off)) b, hexadecimal off)
  end.
Definition instruction (raw : bool) (t : list N) : list N := nth (if raw then 2 else 1) (split 9 t) [].
