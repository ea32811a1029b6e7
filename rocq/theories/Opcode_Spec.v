(** What the mnemonics of the opcode table stand for, from the Power ISA
    version 3.0B and not from the program's decoders. *)
Require Import NArith List Bool String.
Require Import Verif.Opcode_Table Verif.Stats_Model Verif.Stats_Spec.
Import ListNotations.
Local Open Scope N_scope.
Local Open Scope string_scope.

(** The table as C34 has it, and the part of it that is searched *)
Definition po_of (e : opcode) : popcode := mk_popcode (oc_opcode e) (oc_mask e) (oc_flags e).
Definition ppc_opcodes : list popcode := List.map po_of opcodes.

(** The mnemonic under which a word is counted *)
Definition mnemonic (w : N) : option string :=
  match first_hit dialect (removelast ppc_opcodes) w with
  | Some k => option_map oc_name (nth_error opcodes k)
  | None => None
  end.

Definition one_of (n : string) (l : list string) : bool := existsb (String.eqb n) l.

(** ** Branches
    Book I, 2.4 and appendix C.2: a b, the condition, where to, and a hint. *)
Definition plain_conditions : list string :=
  ["t"; "f"; "lt"; "le"; "eq"; "ge"; "gt"; "nl"; "ne"; "ng"; "so"; "ns"; "un"; "nu";
   "dnz"; "dz"; "dnzt"; "dnzf"; "dzt"; "dzf"].
Definition destinations : list string :=
  [""; "l"; "a"; "la"; "lr"; "lrl"; "ctr"; "ctrl"; "tar"; "tarl"].
Definition hints : list string := [""; "+"; "-"].
Definition with_conditions (cs : list string) : list string :=
  flat_map (fun c => flat_map (fun d => List.map (fun h => "b" ++ c ++ d ++ h) hints) destinations) cs.
(** bc, bclr, bcctr, bctar: the condition is an operand *)
Definition general_branches : list string := with_conditions ["c"].
Definition conditional_branches : list string := with_conditions plain_conditions.
Definition unconditional_branches : list string :=
  ["b"; "bl"; "ba"; "bla"; "blr"; "blrl"; "bctr"; "bctrl"].
(** Book I 2.5 (System Call), Book III 3.3.1 and 4.3.1, 3.0C (urfid), Book II
    7.2 (rfebb) *)
Definition system_branches : list string := ["sc"; "scv"; "rfid"; "rfi"; "rfscv"; "hrfid"].
Definition other_returns : list string := ["rfebb"; "urfid"].

(** ** Reservations, Book II 4.6 *)
Definition load_reserve : list string := ["lbarx"; "lharx"; "lwarx"; "ldarx"; "lqarx"].
Definition store_conditional : list string := ["stbcx."; "sthcx."; "stwcx."; "stdcx."; "stqcx."].

(** ** Storage accesses: mnemonics with an operand fixed *)
Definition storage_aliases : list (string * string) :=
  [("dcbfl", "dcbf"); ("dcbtstt", "dcbtst"); ("dcbtt", "dcbt"); ("dcbzl", "dcbz")].

(** ** Names
    The instructions that have a mnemonic for some values of an operand, which
    the table lists first: the words of all of them have that name. *)
Definition never_counted : list string :=
  ["or"; "or."; "nor"; "nor."; "vor"; "vnor"; "cror"; "crnor"; "crxor"; "creqv";
   "mfspr"; "xxpermdi"; "xvcpsgndp"; "xvcpsgnsp"; "mfpvr"; "mfppr"; "mfpmc1"; "mfupmc1";
   "mtsprg0"; "mfsprg0"; "sub"; "subc"; "la"; "beq"; "bne"; "blt"; "bgt"; "bge"; "ble"; "bdnz"; "bdz"].
