(** Model of what the statistics print: qtlib/ppcstats.c ppcstats_print, and
    qtlib/bb.c bb_dump. *)
Require Import NArith ZArith List Bool String Ascii.
Require Import Verif.Word Verif.Stats_Model Verif.Opcode_Table Verif.Names_Model.
Require Verif.Bb_Model Verif.Tlbdump_Model Verif.Tools_Model Verif.Htm_Model.
Import ListNotations.
Local Open Scope N_scope.
Local Open Scope list_scope.

(** ** Numbers that are not whole
    IEEE 754 numbers that are not negative, as fractions.  Neither subnormal
    numbers nor overflow: the operands come from integers of 64 bits. *)
Definition fl := (N * N)%type.
(** The nearest integer, the even one of two *)
Definition to_even (n d : N) : N :=
  let q := n / d in
  let r := n mod d in
  if 2 * r <? d then q else if d <? 2 * r then q + 1 else q + q mod 2.
(** The nearest number with [p] bits *)
Definition round (p : N) (x : fl) : fl :=
  let '(n, d) := x in
  if n =? 0 then (0, 1) else
  let u := 2 ^ (p + N.log2 d - N.log2 n) in
  let v := 2 ^ (N.log2 n - (p + N.log2 d)) in
  if n * u <? 2 ^ p * (d * v) then (to_even (n * u) (d * v) * v, u)
  else (to_even (n * u) (d * v * 2) * (v * 2), u).
(** A uint64_t as a double; product and quotient of doubles; a double as a float *)
Definition double (n : N) : fl := round 53 (n, 1).
Definition times (x y : fl) : fl := round 53 (fst x * fst y, snd x * snd y).
Definition over (x y : fl) : fl := round 53 (fst x * snd y, snd x * fst y).
Definition float (x : fl) : fl := round 24 x.
Definition hundred : fl := (100, 1).

(** ** Formats *)
Fixpoint chars (s : string) : list N :=
  match s with EmptyString => [] | String c s' => N_of_ascii c :: chars s' end.
Local Notation "' x" := (chars x%string) (at level 0, x at level 0).
Definition eol : list N := [10].
Definition tab_ : list N := [9].
(** %Ns and %-Ns *)
Definition left (w : nat) (t : list N) : list N := repeat 32 (w - List.length t) ++ t.
Definition right (w : nat) (t : list N) : list N := t ++ repeat 32 (w - List.length t).
(** %li of a uint64_t, %PRIi64 *)
Definition li (n : N) : list N :=
  if n <? 2 ^ 63 then Tlbdump_Model.dec n else 45 :: Tlbdump_Model.dec (2 ^ 64 - n).
(** the flag for a space in the place of the sign *)
Definition spaced (n : N) : list N := if n <? 2 ^ 63 then 32 :: li n else li n.
(** %.2f: exact, ties to even *)
Definition fixed (x : fl) : list N :=
  let h := to_even (100 * fst x) (snd x) in
  Tlbdump_Model.dec (h / 100) ++ [46; 48 + h / 10 mod 10; 48 + h mod 10].

Section PRINT.
  (** The text of 0.0/0.0, with or without a sign *)
  Variable nan : list N.
  (** 100.0*a/b as a double, %.2f *)
  Definition share (a b : N) : list N :=
    if b =? 0 then (if a =? 0 then nan else '"inf")
    else fixed (over (times hundred (double a)) (double b)).
  (** the same with ?: for a zero *)
  Definition share0 (a b : N) : list N := if b =? 0 then fixed (0, 1) else share a b.

  (** ** ppcstats_print_stats *)
  (* qtlib/ppcstats.c:355-371: "%-*s%8li\t%6.2f%% of ...\n" *)
  Definition part (indent : list N) (w : nat) (name : list N) (n : N) (pct of : list N) : list N :=
    indent ++ right w name ++ left 8 (li n) ++ tab_ ++ left 6 pct ++ '"% of " ++ of ++ eol.
  (* qtlib/ppcstats.c:375-377: float f; the comparison is one of doubles *)
  Definition fuzzy (m n : N) : list N :=
    if n =? 0 then (if m =? 0 then [] else '"WARNING: Context Switches fuzzy by inf%)" ++ eol)
    else let f := float (over (times hundred (double m)) (double n)) in
         if 10 * snd f <? fst f then '"WARNING: Context Switches fuzzy by " ++ fixed f ++ '"%)" ++ eol
         else [].
  (* qtlib/ppcstats.c:383-386, 394-395, 403-404, 413-414: "\t%16s\t%li\n"; a
     table entry without a name does not exist *)
  Definition rows (names : list string) (r : list entry) : list N :=
    flat_map (fun e => tab_ ++ left 16 (chars (nth (fst e) names ""%string)) ++ tab_ ++ li (snd e) ++ eol) r.
  (* qtlib/ppcstats.c:351-417 *)
  Definition print_stats (qs : eqsort) (s : stt) : list N :=
    eol ++ '"Instructions:" ++ eol
    ++ '"  " ++ right 16 '"Total" ++ li (t_total s) ++ eol
    ++ part '"    " 14 '"System" (t_system s) (share (t_system s) (t_total s)) '"Total"
    ++ part '"      " 12 '"Idle" (t_idle s) (share0 (t_idle s) (t_system s)) '"System"
    ++ part '"    " 14 '"OPAL" (t_opal s) (share (t_opal s) (t_total s)) '"Total"
    ++ part '"    " 14 '"User" (t_user s) (share (t_user s) (t_total s)) '"Total"
    ++ part '"      " 12 '"Bin" (t_bin s) (share0 (t_bin s) (t_user s)) '"User"
    ++ part '"      " 12 '"Lib" (t_lib s) (share0 (t_lib s) (t_user s)) '"User"
    ++ eol ++ '"Context Switches: " ++ left 8 (li (t_ctx s)) ++ eol ++ fuzzy (t_ctx_mult s) (t_ctx s)
    ++ eol ++ '"Exceptions:       " ++ left 8 (li (t_excn s)) ++ eol
    ++ rows exception_names (report qs (t_exc s))
    ++ eol ++ '"Syscalls:         " ++ left 8 (li (t_sysn s)) ++ eol
    ++ rows syscall_names (report_until qs (t_sys s))
    ++ eol ++ '"OPAL Calls:       " ++ left 8 (li (t_opcn s)) ++ eol
    ++ rows opal_names (report qs (t_opc s))
    ++ eol ++ '"HCALLS Calls:     " ++ left 8 (li (t_hcn s)) ++ eol
    ++ rows hcall_names (report qs (t_hc s)).

  (** ** ppcstats_print_imix *)
  (* qtlib/ppcstats.c:431-442: "\t%16s\t% 9li %6.2f%%\n" *)
  Definition mix_row (total : N) (e : entry) : list N :=
    tab_ ++ left 16 (chars (nth (fst e) (List.map oc_name opcodes) ""%string)) ++ tab_
    ++ left 9 (spaced (snd e)) ++ '" " ++ left 6 (share (snd e) total) ++ '"%" ++ eol.
  (* qtlib/ppcstats.c:419-451; the first NR_OPCODES elements of s.insn_count *)
  Definition print_imix (qs : eqsort) (total : N) (x : mix) : list N :=
    eol ++ '"Instruction mix:" ++ eol
    ++ flat_map (mix_row total) (report_until qs (firstn (List.length opcodes) (x_count x)))
    ++ eol ++ '"UNKNOWN instruction:   " ++ left 16 (li (x_unknown x)) ++ eol.

  (* qtlib/ppcstats.c:453-460 *)
  Definition ppcstats_print (qs : eqsort) (stats imix : bool) (s : stt) (x : mix) : list N :=
    (if stats then print_stats qs s else []) ++ (if imix then print_imix qs (t_total s) x else []).
End PRINT.

(** ** bb_dump *)
(* qtlib/bb.c:69-76: "ea:%016x size:% 4d hit:% 10i %5.2f%% \n" *)
Definition bb_print (nan : list N) (num : N) (t : Bb_Model.bbe) : list N :=
  '"ea:" ++ Tlbdump_Model.hex16 (Bb_Model.b_ea t) ++ '" size:" ++ left 4 (spaced (Bb_Model.b_size t))
  ++ '" hit:" ++ left 10 (spaced (Bb_Model.b_hit t)) ++ '" "
  ++ left 5 (let n := Bb_Model.bb_instruction_num t in
             if num =? 0 then (if n =? 0 then nan else '"inf")
             else fixed (float (times hundred (over (double n) (double num)))))
  ++ '"% " ++ eol.
(* qtlib/bb.c:195-198: "BBDUMP %02i: " *)
Fixpoint bb_rows (nan : list N) (num i : N) (l : list Bb_Model.bbe) : list N :=
  match l with
  | [] => []
  | t :: l' => '"BBDUMP " ++ Tlbdump_Model.dec02 i ++ '": " ++ bb_print nan num t ++ bb_rows nan num (i + 1) l'
  end.
(* qtlib/bb.c:186-204: sorted and put together by [Bb_Model.bb_dump], then printed *)
Definition bb_text (nan : list N) (sort : Bb_Model.qsort) (s : Bb_Model.bbs) : Bb_Model.bres (list N) :=
  match Bb_Model.bb_dump sort s with
  | Bb_Model.BOk b => Bb_Model.BOk (bb_rows nan (Bb_Model.bb_num s) 0 b)
  | Bb_Model.BErr e => Bb_Model.BErr e
  end.

(** ** The tools *)
(* htm/htmdecoder.c:322-327 with -s, -i and -b, after htm_decode; qtdis/qtdis.c:543-547
   is the same.  [None]: an access outside a table, or an error of bb.c. *)
Definition print_tables (nan : list N) (qs : eqsort) (sort : Bb_Model.qsort) (stats imix blocks : bool)
    (log : list (N * N)) (bb : Bb_Model.bbs) : option (list N) :=
  match Tools_Model.ppcstats log, bb_text nan sort bb with
  | (Some s, Some x), Bb_Model.BOk t =>
      Some ((if stats || imix then ppcstats_print nan qs stats imix s x else []) ++ (if blocks then t else []))
  | _, _ => None
  end.
(* htm/htmdecoder.c:319-327, without -d and -D *)
Definition htmdecoder_tables (nan : list N) (eqs : eqsort) (sort : Bb_Model.qsort) (stats imix blocks : bool)
    (qs : Tlb_Model.qsort) (stale : Z -> list N) (junk : Z -> Codec_Types.qrec) (input : list N) (bad : bool)
    : option (list N) :=
  match Htm_Model.htm_decode qs stale junk false input bad with
  | Htm_Model.HOk s => print_tables nan eqs sort stats imix blocks (Htm_Model.h_log s) (Htm_Model.h_bb s)
  | Htm_Model.HErr _ => None
  end.
(* qtdis/qtdis.c:529-544 with -s or -i *)
Definition qtdis_tables (nan : list N) (qs : eqsort) (stats imix : bool) (slack file : list N) : option (list N) :=
  match Tools_Model.qtdis_stats slack file with
  | Some (Some s, Some x) => Some (ppcstats_print nan qs stats imix s x)
  | _ => None
  end.
