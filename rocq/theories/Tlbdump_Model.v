(** Model of the report of the software TLB: htm/tlb.c tlb_exit, tlb_print, tlb_dump. *)
Require Import NArith ZArith List Bool.
Require Import Verif.Word Verif.Tlb_Model Verif.Htm_Model.
Require Verif.Codec_Types Verif.Regs_Model Verif.Start_Model.
Import ListNotations.
Local Open Scope N_scope.

(* htm/tlb.c:199-202 *)
Definition tlb_exit (s : tlbs) : tres unit := tlb_validate s.

(** %i of a number that is not negative as an int, %PRIi64 of a count below 2^63 *)
Definition dec (n : N) : list N := Start_Model.decimal 20 n.
(** %02i *)
Definition dec02 (n : N) : list N := if n <? 10 then 48 :: dec n else dec n.
(** %016PRIx64; %08PRIx64 of a page size *)
Definition hex16 (n : N) : list N := Regs_Model.hex 16 n.
Definition hex8 (n : N) : list N := Regs_Model.hex 8 n.

(* htm/tlb.c:89-94: "ea:%016x ra:%016x size:%08x miss:%i hit:%i\n" *)
Definition tlb_print (t : tlbe) : list N :=
  [101; 97; 58] ++ hex16 (t_ea t) ++ [32; 114; 97; 58] ++ hex16 (t_ra t)
  ++ [32; 115; 105; 122; 101; 58] ++ hex8 (t_size t)
  ++ [32; 109; 105; 115; 115; 58] ++ dec (t_miss t)
  ++ [32; 104; 105; 116; 58] ++ dec (t_hit t) ++ [10].
(** "TLBDUMP " *)
Definition tag : list N := [84; 76; 66; 68; 85; 77; 80; 32].
(* htm/tlb.c:284-287; reading past the array is an error *)
Fixpoint dump_rows (l : list tlbe) (i : N) (n : nat) : tres (list N) :=
  match n with
  | O => TOk []
  | S n' =>
      t <~ get_entry l (Z.of_N i) ;;
      r <~ dump_rows l (i + 1) n' ;;
      TOk (tag ++ dec02 i ++ [58; 32] ++ tlb_print t ++ r)
  end.
(* htm/tlb.c:280-292: "TLBDUMP no translation: %i of %i\n",
   "TLBDUMP replaced translations: %i\n" *)
Definition tlb_dump (s : tlbs) : tres (list N) :=
  r <~ dump_rows (arr s) 0 (N.to_nat (tlb_next s)) ;;
  TOk (r
       ++ tag ++ [110; 111; 32; 116; 114; 97; 110; 115; 108; 97; 116; 105; 111; 110; 58; 32]
       ++ dec (tlb_no_translation s) ++ [32; 111; 102; 32] ++ dec (tlb_translations s) ++ [10]
       ++ tag ++ [114; 101; 112; 108; 97; 99; 101; 100; 32; 116; 114; 97; 110; 115; 108; 97; 116;
                  105; 111; 110; 115; 58; 32] ++ dec (tlb_changes s) ++ [10]).

(* htm/htm.c:1952-1998 with the tlb_exit() of line 1994, which [htm_decode] leaves out *)
Definition htm_decode_exit (qs : qsort) (stale : Z -> list N) (junk : Z -> Codec_Types.qrec) (full : bool)
    (bytes : list N) (bad : bool) : hres hst :=
  match htm_decode qs stale junk full bytes bad with
  | HErr e => HErr e
  | HOk s => match tlb_exit (h_tlb s) with TOk _ => HOk s | TErr e => HErr (HTlb e) end
  end.
