(** Model of tools/qtrace_statistics.py, and of the lines of qtdis it reads
    (qtdis/qtdis.c 196-216, 386-393, 429-430).  Characters are their codes, all
    of them ASCII; numbers are unbounded as in Python. *)
Require Import Arith NArith List Bool.
Require Import Verif.Args_Model Verif.Regs_Model.
Import ListNotations.
Local Open Scope N_scope.

(** ** Strings *)
Definition py_space (c : N) : bool := ((9 <=? c) && (c <=? 13)) || ((28 <=? c) && (c <=? 32)).
Definition py_hex (c : N) : bool :=
  ((48 <=? c) && (c <=? 57)) || ((65 <=? c) && (c <=? 70)) || ((97 <=? c) && (c <=? 102)).
(** The longest prefix of characters with a property, and the rest. *)
Fixpoint span (f : N -> bool) (l : word) : word * word :=
  match l with
  | c :: l' => if f c then let (a, b) := span f l' in (c :: a, b) else ([], l)
  | [] => ([], [])
  end.
(** int(s, 16) *)
Definition hex_digit (c : N) : N := if c <? 58 then c - 48 else if c <? 71 then c - 55 else c - 87.
Definition int16 (l : word) : N := fold_left (fun a c => 16 * a + hex_digit c) l 0.
Fixpoint is_prefix (p l : word) : bool :=
  match p, l with
  | [], _ => true
  | x :: p', y :: l' => (x =? y) && is_prefix p' l'
  | _, [] => false
  end.
(** p in l *)
Fixpoint contains (p l : word) : bool :=
  is_prefix p l || match l with [] => false | _ :: l' => contains p l' end.
(** l.replace(p, ''); [k] characters of an occurrence are still to be dropped *)
Fixpoint drop_all (p : word) (k : nat) (l : word) : word :=
  match l with
  | [] => []
  | c :: l' =>
      match k with
      | S k' => drop_all p k' l'
      | O => if is_prefix p l then drop_all p (length p - 1) l' else c :: drop_all p 0 l'
      end
  end.
Fixpoint word_eqb (a b : word) : bool :=
  match a, b with
  | [], [] => true
  | x :: a', y :: b' => (x =? y) && word_eqb a' b'
  | _, _ => false
  end.

(** ** Parsing a line *)
(* tools/qtrace_statistics.py:132: hexadecimal digits, white space, <, a name
   without white space, >, white space, the rest of the line.  What lies
   between < and the next white space must end in >. *)
Definition r_sym (l : word) : option (word * word * word) :=
  let (h, l1) := span py_hex l in
  let (s1, l2) := span py_space l1 in
  match h, s1, l2 with
  | _ :: _, _ :: _, 60 :: l3 =>
      let (run, l4) := span (fun c => negb (py_space c)) l3 in
      let (s2, l5) := span py_space l4 in
      match s2 with
      | _ :: _ =>
          if (last run 0 =? 62) && Nat.ltb 1 (length run)
          then Some (h, removelast run, fst (span (fun c => negb (c =? 10)) l5))
          else None
      | [] => None
      end
  | _, _, _ => None
  end.
(* tools/qtrace_statistics.py:133: hexadecimal digits, white space, the rest *)
Definition r_no_sym (l : word) : option (word * word) :=
  let (h, l1) := span py_hex l in
  let (s1, l2) := span py_space l1 in
  match h, s1 with
  | _ :: _, _ :: _ => Some (h, fst (span (fun c => negb (c =? 10)) l2))
  | _, _ => None
  end.
(* 'sys_' and 'SyS_' *)
Definition sys_ : word := [115; 121; 115; 95].
Definition SyS_ : word := [83; 121; 83; 95].
(** address, instruction, function *)
Record pline := mk_pline { pl_addr : N; pl_insn : word; pl_fn : word }.
(* tools/qtrace_statistics.py:145-164 *)
Definition parse_line (l : word) : option pline :=
  match r_sym l with
  | Some (h, name, i) =>
      let fn := fst (span (fun c => negb (c =? 43)) name) in
      Some (mk_pline (int16 h) i (drop_all SyS_ 0 (drop_all sys_ 0 fn)))
  | None =>
      match r_no_sym l with
      | Some (h, i) => Some (mk_pline (int16 h) i [])
      | None => None
      end
  end.

(** ** Counting *)
(* tools/qtrace_statistics.py:16-49 *)
Definition exception_lookup : list N :=
  [0x100; 0x200; 0x300; 0x380; 0x400; 0x480; 0x500; 0x600; 0x700; 0x800; 0x900; 0x980; 0xa00; 0xb00;
   0xc00; 0xd00; 0xe00; 0xe20; 0xe40; 0xe60; 0xe80; 0xea0; 0xec0; 0xee0; 0xf00; 0xf20; 0xf40; 0xf60;
   0xf80; 0xfa0; 0xfc0; 0xfe0].
(** The dictionaries are lists in order of insertion. *)
Record pst := mk_pst {
  i_idle : N; i_system : N; i_user : N; i_opal : N; i_switches : N;
  i_exc : list (N * N); i_calls : list (word * N);
  i_entry : bool; i_branch : bool
}.
Definition pst0 : pst := mk_pst 0 0 0 0 0 [] [] false false.
Fixpoint add_one {A} (eqb : A -> A -> bool) (k : A) (l : list (A * N)) : list (A * N) :=
  match l with
  | [] => [(k, 1)]
  | (x, n) :: l' => if eqb k x then (x, n + 1) :: l' else (x, n) :: add_one eqb k l'
  end.
(* "snooze_loop", "__switch_to", "mflr", "bctrl" *)
Definition snooze : word := [115; 110; 111; 111; 122; 101; 95; 108; 111; 111; 112].
Definition switch_to : word := [95; 95; 115; 119; 105; 116; 99; 104; 95; 116; 111].
Definition mflr : word := [109; 102; 108; 114].
Definition bctrl : word := [98; 99; 116; 114; 108].
(* tools/qtrace_statistics.py:65-73 *)
Definition is_entry (a : N) : bool :=
  if negb (N.land a 0xfffffffffffff000 =? 0xc000000000004000) && negb (N.land a 0xfffffffffffff000 =? 0)
  then false
  else existsb (N.eqb (N.land a 0xfff)) exception_lookup.
(* tools/qtrace_statistics.py:76-106 *)
Definition parse_one (s : pst) (x : pline) : pst :=
  let a := pl_addr x in
  let idle := if contains snooze (pl_fn x) then i_idle s + 1 else i_idle s in
  let sys := N.shiftr a 60 =? 0xc in
  let opal := negb sys && (N.land a 0xffffffffff000000 =? 0x30000000) in
  let user := negb sys && negb opal in
  let one (b : bool) n := if b then n + 1 else n in
  let switches := one (contains switch_to (pl_fn x) && contains mflr (pl_insn x)) (i_switches s) in
  let exc := if is_entry a then add_one N.eqb (N.land a 0xfff) (i_exc s) else i_exc s in
  let entry := (is_entry a && (N.land a 0xfff =? 0xc00)) || i_entry s in
  let calls := if i_branch s then add_one word_eqb (pl_fn x) (i_calls s) else i_calls s in
  let hit := entry && word_eqb (pl_insn x) bctrl in
  mk_pst idle (one sys (i_system s)) (one user (i_user s)) (one opal (i_opal s)) switches exc calls
    (entry && negb hit) hit.
(* tools/qtrace_statistics.py:143-167; None: exit(1) at a line it cannot parse *)
Fixpoint script (s : pst) (lines : list word) : option pst :=
  match lines with
  | [] => Some s
  | l :: ls => match parse_line l with Some x => script (parse_one s x) ls | None => None end
  end.
(* tools/qtrace_statistics.py:109-112: the number called total instructions *)
Definition total (s : pst) : N := i_system s + i_user s.

(** ** The lines of qtdis *)
(** %lx *)
Fixpoint hexs (fuel : nat) (n : N) : word :=
  match fuel with
  | O => []
  | S f => (if n <? 16 then [] else hexs f (n / 16)) ++ [digit (n mod 16)]
  end.
(** An address, the symbol found for it with the offset, the disassembly. *)
Record listed := mk_listed { q_ea : N; q_sym : option (word * N); q_text : word }.
(* qtdis/qtdis.c:196-216: "%016lx <%s+0x%lx> " or "%016lx "; 389-393 without -r: a tab
   and the disassembly; 429-430 a newline *)
Definition listing (x : listed) : word :=
  hex 16 (q_ea x)
  ++ (match q_sym x with
      | Some (name, off) => [32; 60] ++ name ++ [43; 48; 120] ++ hexs 16 off ++ [62; 32]
      | None => [32]
      end)
  ++ [9] ++ q_text x ++ [10].
