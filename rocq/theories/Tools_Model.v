(** The tools that count instructions: htmdecoder with -s, -i or -b, and qtdis
    with -s, -i or -c. *)
Require Import NArith ZArith List Bool.
Require Import Verif.Codec_Types Verif.Htm_Model Verif.Stats_Model Verif.Opcode_Table Verif.Opcode_Spec.
Require Import Verif.Qtdis_Model Verif.Qtdis_Spec.
Require Verif.Tlb_Model Verif.Bb_Model.
Import ListNotations.
Local Open Scope N_scope.

(* qtlib/ppcstats.c:318-326: statistics (-s) and instruction mix (-i) of the
   instructions given to ppcstats_log_inst *)
Definition ppcstats (log : list (N * N)) : option stt * option mix :=
  (log_all stt0 log, mix_all ppc_opcodes dialect (mix_init ppc_opcodes) (List.map snd log)).

(* htm/htmdecoder.c:293-325 with -s or -i: the trace is decoded without records.
   [None]: the decoder dies. *)
Definition htmdecoder_stats (qs : Tlb_Model.qsort) (stale : Z -> list N) (junk : Z -> qrec)
    (input : list N) (bad : bool) : option (option stt * option mix) :=
  match htm_decode qs stale junk false input bad with
  | HOk s => Some (ppcstats (h_log s))
  | HErr _ => None
  end.
(* htm/htmdecoder.c:313-328 with -b *)
Definition htmdecoder_blocks (sort : Bb_Model.qsort) (qs : Tlb_Model.qsort) (stale : Z -> list N) (junk : Z -> qrec)
    (input : list N) (bad : bool) : option (Bb_Model.bres (list Bb_Model.bbe)) :=
  match htm_decode qs stale junk false input bad with
  | HOk s => Some (Bb_Model.bb_dump sort (h_bb s))
  | HErr _ => None
  end.

(* qtdis/qtdis.c:527-550 with -s or -i, with -c, and with neither *)
Definition qtdis_stats (slack file : list N) : option (option stt * option mix) :=
  match read_qt (mk_options 0 true false) slack file with
  | (x, QDone) => Some (ppcstats (logged x))
  | _ => None
  end.
Definition qtdis_blocks (sort : Bb_Model.qsort) (slack file : list N) : option (Bb_Model.bres (list Bb_Model.bbe)) :=
  match read_qt (mk_options 0 false true) slack file with
  | (x, QDone) =>
      match Bb_Model.bb_run (counted x) with
      | Bb_Model.BOk s => Some (Bb_Model.bb_dump sort s)
      | Bb_Model.BErr e => Some (Bb_Model.BErr e)
      end
  | _ => None
  end.
Definition qtdis_lines (slack file : list N) : option (list (N * list N)) :=
  match read_qt (mk_options 0 false false) slack file with
  | (x, QDone) => Some (lines x)
  | _ => None
  end.
