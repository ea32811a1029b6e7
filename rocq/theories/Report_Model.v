(** Model of what htmdecoder prints with -d and -D: htm/htmdecoder.c
    print_record and print_stat. *)
Require Import NArith ZArith List Bool String Ascii.
Require Import Verif.Word Verif.Codec_Types Verif.Htm_Model.
Require Verif.Tlb_Model Verif.Tlbdump_Model.
Import ListNotations.
Local Open Scope N_scope.

(** The characters of a string constant. *)
Fixpoint lit (s : string) : list N :=
  match s with EmptyString => [] | String c s' => N_of_ascii c :: lit s' end.
(** %u *)
Definition pu (n : N) : list N := Tlbdump_Model.dec n.
(** %d and %i of an unsigned int *)
Definition pd (n : N) : list N := if n <? 2 ^ 31 then pu n else 45 :: pu (2 ^ 32 - n).
(** %08x of an unsigned int, %016PRIx64 *)
Definition px8 (n : N) : list N := Tlbdump_Model.hex8 n.
Definition px16 (n : N) : list N := Tlbdump_Model.hex16 n.
(** %48s *)
Definition ps48 (s : list N) : list N := repeat 32 (48 - List.length s) ++ s.
Definition nl : list N := [10].

(* htm/htmdecoder.c:63-82; the tests are in the order of the program *)
Definition print_time (t : timek) : list N :=
  lit "TIME "
  ++ match t with
     | Normal e => lit "cycles = " ++ pd e
     | MarkerDropped => lit "markers dropped"
     | RecordDropped c => lit "record dropped counter overflow, counter= " ++ pd c
     | ElapsedOverflow => lit "elapsed time overflow"
     | CrespDropped => lit "CResp record dropped"
     | TriggerDropped => lit "trigger dropped"
     | TraceFull => lit "trace full asserted"
     | OtherTime => []
     end ++ nl.
(* htm/htmdecoder.c:84-100 *)
Definition print_insn (q : qrec) : list N :=
  lit "INSN "
  ++ lit " iea:" ++ px16 (q_insn_addr q)
  ++ lit " op:" ++ px8 (q_insn q)
  ++ (if q_insn_ra_valid q then lit " ira:" ++ px16 (q_insn_ra q) else [])
  ++ (if q_insn_ps_valid q then lit " ipgsize:" ++ pd (q_insn_ps q) else [])
  ++ (if q_data_addr_valid q then lit " dea:" ++ px16 (q_data_addr q) else [])
  ++ (if q_data_ra_valid q then lit " dra:" ++ px16 (q_data_ra q) else [])
  ++ (if q_data_ps_valid q then lit " dpgsize:" ++ pd (q_data_ps q) else [])
  ++ nl.
(* htm/htmdecoder.c:27-61, 107-157, without the call of qtwriter_write_record *)
Definition print_record (debug detail : bool) (r : hrec) : list N :=
  match r with
  | RRecord c => if debug then lit "REC  " ++ lit "counter = " ++ pd c ++ nl else []
  | RComplete e => if debug then lit "END  " ++ lit "cycles = " ++ pd e ++ nl else []
  | RPause e => if debug then lit "PAUSE" ++ lit "cycles = " ++ pd e ++ nl else []
  | RMark g c u i d =>
      if debug then lit "MARK " ++ lit "group = " ++ pd g ++ lit ", chip = " ++ pd c ++ lit ", unit = "
                    ++ pd u ++ lit ", marker = " ++ pd i ++ lit ", set = " ++ pd (if d then 1 else 0) ++ nl
      else []
  | RSync => if debug then lit "SYNC " ++ nl else []
  | RTime t => if debug then print_time t else []
  | RInsn q => if debug || detail then print_insn q else []
  end.

Definition line (title : string) (n : N) : list N := ps48 (lit title) ++ lit " : " ++ pu n ++ nl.
(* htm/htmdecoder.c:159-208, except for the call of tlb_dump: the fields that
   htm.c never changes are 0 *)
Definition print_counts (s : hst) : list N :=
  let n := h_stat s in
  ps48 (lit "RAW Checksum") ++ lit " : 0x" ++ px16 (c_sum (h_cur s)) ++ nl
  ++ line "Total Records Scanned" (c_scanned (h_cur s))
  ++ line "Total Records Processed" (n RecordsProcessed)
  ++ line "Total Instructions Scanned" (n InsnScanned)
  ++ line "Total Instructions Processed" (n InsnProcessed)
  ++ line "Total TimeStamps Scanned" (n TsScanned)
  ++ line "Total TimeStamps Processed" (n TsProcessed)
  ++ line "Total Cycles for Processed Instructions" (n Cycles)
  ++ line "Total Interrupts Processed" (n Interrupts)
  ++ line "Total Branches taken after Non branches" (n BranchesAfterNonBranches)
  ++ line "Pipeline CPI" 0
  ++ line "CHTM CPI" 0
  ++ line "Unique ESIDs with IRPNs" 0
  ++ line "Unique ESIDs without IRPNs" 0
  ++ line "Instructions with IRAs" (n WithIra)
  ++ line "Instructions without IRAs" (n WithoutIra)
  ++ line "SLBMTE Instructions" 0
  ++ line "SLBIA Instructions" 0
  ++ line "RFID Instructions" 0
  ++ line "Total Instructions With I-VSIDs" (n WithIVsid)
  ++ line "Total Instructions Without I-VSIDs" (n WithoutIVsid)
  ++ line "Total Instructions With D-VSIDs" (n WithDVsid)
  ++ line "Total Instructions Without D-VSIDs" (n WithoutDVsid)
  ++ line "Total Instruction Records with ESID record" 0
  ++ line "Total Instruction Records with VSID record" 0
  ++ line "Total VSID records with Segment Size 0" (n (Segment 0))
  ++ line "Total VSID records with Segment Size 1" (n (Segment 1))
  ++ line "Total VSID records with Segment Size 2" (n (Segment 2))
  ++ line "Total VSID records with Segment Size 3" (n (Segment 3))
  ++ line "Total Instructions With I-XLATEs" (n WithIXlate)
  ++ line "Total Instructions missing I-XLATEs ERAT" (n WithoutIXlateErat)
  ++ line "Total Instructions missing I-XLATEs PWC" (n WithoutIXlatePwc)
  ++ line "Total Instructions missing I-XLATEs without IEARA" (n WithoutIXlateIeara)
  ++ line "Total Instructions With D-XLATEs" (n WithDXlate)
  ++ line "Total Instructions Without D-XLATEs ERAT" (n WithoutDXlateErat)
  ++ line "Total Instructions Without D-XLATEs PWC" (n WithoutDXlatePwc)
  ++ line "4K data pages" (n (DataPages 12))
  ++ line "64K data pages" (n (DataPages 16))
  ++ line "2M data pages" (n (DataPages 21))
  ++ line "16M data pages" (n (DataPages 24))
  ++ line "1G data pages" (n (DataPages 30))
  ++ line "4K instruction pages" (n (InsnPages 12))
  ++ line "64K instruction pages" (n (InsnPages 16))
  ++ line "2M instruction pages" (n (InsnPages 21))
  ++ line "16M instruction pages" (n (InsnPages 24))
  ++ line "1G instruction pages" (n (InsnPages 30)).

(* htm/htmdecoder.c:296-319 with htm/htm.c:1952-1998: standard output of the
   run without -s, -i, -b ([full]) or with one of them, up to what
   ppcstats_print and bb_dump add.  -D sets [debug] and [detail], -d [detail].
   The messages of htm.c about traces it cannot make sense of are left out. *)
Definition htmdecoder_text (debug detail : bool) (s : hst) : Tlb_Model.tres (list N) :=
  let records := flat_map (print_record debug detail) (h_out s) in
  if detail || debug then
    match Tlbdump_Model.tlb_dump (h_tlb s) with
    | Tlb_Model.TOk t => Tlb_Model.TOk (records ++ print_counts s ++ t)
    | Tlb_Model.TErr e => Tlb_Model.TErr e
    end
  else Tlb_Model.TOk records.
