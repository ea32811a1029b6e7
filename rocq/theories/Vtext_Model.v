(** Model of the text of qtdis -v, with and without -r and -e. *)
Require Import NArith List Bool String Ascii.
Require Import Verif.Codec_Types Verif.Verbose_Model.
Require Verif.Tlbdump_Model Verif.Regs_Model Verif.Script_Model.
Import ListNotations.
Local Open Scope N_scope.
Local Open Scope list_scope.

Fixpoint chars (s : string) : list N :=
  match s with EmptyString => [] | String c s' => N_of_ascii c :: chars s' end.
Local Notation "' x" := (chars x%string) (at level 0, x at level 0).
Local Notation dec := Tlbdump_Model.dec.
Local Notation hex := Regs_Model.hex.

Section TEXT.
  (** The symbol table gives a name and an offset (see [Sym_Model]); the
      disassembler of binutils is any function.  [le]: the host is little
      endian.  [raw]: -r. *)
  Variables (sym : N -> option (list N * N)) (dis : N -> list N -> list N) (le raw : bool).

  (* qtdis.c:196-216: "%016lx <%s+0x%lx> " or "%016lx " *)
  Definition print_address (ea : N) : list N :=
    match sym ea with
    | Some (name, off) => hex 16 ea ++ '" <" ++ name ++ '"+0x" ++ Script_Model.hexs 16 off ++ '"> "
    | None => hex 16 ea ++ '" "
    end.
  (** A uint32_t in memory *)
  Definition memory (w : N) : list N :=
    let b := [w / 2 ^ 24 mod 256; w / 2 ^ 16 mod 256; w / 2 ^ 8 mod 256; w mod 256] in
    if le then rev b else b.
  (* qtdis.c:81-93: "\t", then "%02x " for every byte *)
  Definition print_raw_insn (buf : list N) : list N :=
    if raw then [9] ++ flat_map (fun b => hex 2 b ++ '" ") (flat_map memory buf) else [].

  (* qtdis.c:65-77; the counts are within the arrays *)
  Definition print_level (w : radix) (j i : nat) : list N :=
    '"HOST L" ++ dec (N.of_nat (S i) mod 2 ^ 64) ++ '" 0x" ++ hex 16 (nth i (nth j (rx_host_ptes w) []) 0) ++ '" ".
  Definition print_walk (w : radix) (j : nat) : list N :=
    '"GUEST L" ++ dec (N.of_nat (S j) mod 2 ^ 64) ++ '" " ++ hex 16 (nth j (rx_guest_real w) 0) ++ '" "
    ++ flat_map (print_level w j) (seq 0 (N.to_nat (rx_nr_ptes w)))
    ++ (if N.of_nat j <? rx_walks w - 1
        then '"GUEST HOST REAL 0x" ++ hex 16 (nth j (rx_host_real w) 0) ++ '" " else []).
  Definition print_radix_on_radix (w : radix) : list N :=
    flat_map (print_walk w) (seq 0 (N.to_nat (rx_walks w))).

  (* qtdis.c:388-425; page sizes are bytes of the file, as an unsigned int *)
  Definition print_note (n : note) : list N :=
    match n with
    | NData a => '" 0x" ++ hex 16 a
    | NDataRpn n => '" DATA RPN 0x" ++ hex 8 n
    | NDataRadix w => '" DATA RADIX " ++ print_radix_on_radix w
    | NDataSize s => '" DATA PAGE SIZE " ++ dec (s mod 2 ^ 32)
    | NInsnRpn n => '" INSN RPN 0x" ++ hex 8 n
    | NInsnRadix w => '" INSN RADIX " ++ print_radix_on_radix w
    | NInsnSize s => '" INSN PAGE SIZE " ++ dec (s mod 2 ^ 32)
    | NNode n => '" NODE 0x" ++ hex 2 n
    | NTerm n c => '" TERM NODE 0x" ++ hex 2 n ++ '" TERM CODE 0x" ++ hex 2 c
    end.
  (* qtdis.c:361-367, 380-430 *)
  Definition print_line (v : vline) : list N :=
    let '(ea, words, mark, notes) := v in
    print_address ea ++ print_raw_insn words ++ [9] ++ dis ea words
    ++ (if mark then [9] ++ '" #" else []) ++ flat_map print_note notes ++ [10].
  (* qtdis.c:432-467 with -v: what is printed until the end *)
  Definition qtdis_verbose (slack file : list N) : list N := flat_map print_line (fst (read_verbose slack file)).
End TEXT.
