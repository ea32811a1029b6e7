(** What htmdecoder -d and -D should print, from the trace alone. *)
Require Import NArith ZArith List Bool String.
Require Import Verif.Word Verif.Codec_Types Verif.Htm_Model Verif.Htm_Spec Verif.Trace_Spec Verif.Trace10_Spec.
Require Import Verif.Flow_Spec.
Require Verif.Tlbdump_Spec.
Import ListNotations.
Local Open Scope N_scope.
Local Open Scope list_scope.

(** Words that the program reads: those of the file and, unless the file ends in
    a read error, what is in the buffer then. *)
Definition read_words (stale : Z -> list N) (bad : bool) (ws : list N) : list N :=
  ws ++ if bad then [] else [be_val (stale (Z.of_nat (List.length ws)))].
(** Sum of the halves of the words. *)
Definition checksum (ws : list N) : N :=
  fold_right N.add 0 (map halves ws) mod 2 ^ 64.

Definition counts8 (full : bool) (items : list item8) (c : ctr) : N :=
  match c with
  | Interrupts => if full then interrupts (visits8 0 items) else 0
  | BranchesAfterNonBranches => if full then after_branches (visits8 0 items) else 0
  | _ => count_of c (flat_map (events8 full) items)
  end.
Definition counts10 (full : bool) (items : list item10) (c : ctr) : N :=
  match c with
  | Interrupts | BranchesAfterNonBranches => 0
  | _ => count_of c (events10 full start10 items)
  end.

(** Jumps to addresses that satisfy f behind instructions that are neither
    marked as branches nor system instructions. *)
Fixpoint jumps (f : N -> bool) (p : N) (leaves : bool) (l : list visit) : N :=
  match l with
  | [] => 0
  | (a, lv) :: l' => (if elsewhere p a && negb leaves && f a then 1 else 0) + jumps f a lv l'
  end.
(** No place reached from elsewhere is left at once for elsewhere. *)
Fixpoint settled (p : N) (landed : bool) (l : list visit) : Prop :=
  match l with
  | [] => True
  | (a, _) :: l' => (landed = true -> elsewhere p a = false) /\ settled a (elsewhere p a) l'
  end.

(** The lines with counts; [None] is always 0. *)
Definition lines : list (string * option ctr) :=
 [("Total Records Processed", Some RecordsProcessed);
  ("Total Instructions Scanned", Some InsnScanned);
  ("Total Instructions Processed", Some InsnProcessed);
  ("Total TimeStamps Scanned", Some TsScanned);
  ("Total TimeStamps Processed", Some TsProcessed);
  ("Total Cycles for Processed Instructions", Some Cycles);
  ("Total Interrupts Processed", Some Interrupts);
  ("Total Branches taken after Non branches", Some BranchesAfterNonBranches);
  ("Pipeline CPI", None);
  ("CHTM CPI", None);
  ("Unique ESIDs with IRPNs", None);
  ("Unique ESIDs without IRPNs", None);
  ("Instructions with IRAs", Some WithIra);
  ("Instructions without IRAs", Some WithoutIra);
  ("SLBMTE Instructions", None);
  ("SLBIA Instructions", None);
  ("RFID Instructions", None);
  ("Total Instructions With I-VSIDs", Some WithIVsid);
  ("Total Instructions Without I-VSIDs", Some WithoutIVsid);
  ("Total Instructions With D-VSIDs", Some WithDVsid);
  ("Total Instructions Without D-VSIDs", Some WithoutDVsid);
  ("Total Instruction Records with ESID record", None);
  ("Total Instruction Records with VSID record", None);
  ("Total VSID records with Segment Size 0", Some (Segment 0));
  ("Total VSID records with Segment Size 1", Some (Segment 1));
  ("Total VSID records with Segment Size 2", Some (Segment 2));
  ("Total VSID records with Segment Size 3", Some (Segment 3));
  ("Total Instructions With I-XLATEs", Some WithIXlate);
  ("Total Instructions missing I-XLATEs ERAT", Some WithoutIXlateErat);
  ("Total Instructions missing I-XLATEs PWC", Some WithoutIXlatePwc);
  ("Total Instructions missing I-XLATEs without IEARA", Some WithoutIXlateIeara);
  ("Total Instructions With D-XLATEs", Some WithDXlate);
  ("Total Instructions Without D-XLATEs ERAT", Some WithoutDXlateErat);
  ("Total Instructions Without D-XLATEs PWC", Some WithoutDXlatePwc);
  ("4K data pages", Some (DataPages 12));
  ("64K data pages", Some (DataPages 16));
  ("2M data pages", Some (DataPages 21));
  ("16M data pages", Some (DataPages 24));
  ("1G data pages", Some (DataPages 30));
  ("4K instruction pages", Some (InsnPages 12));
  ("64K instruction pages", Some (InsnPages 16));
  ("2M instruction pages", Some (InsnPages 21));
  ("16M instruction pages", Some (InsnPages 24));
  ("1G instruction pages", Some (InsnPages 30))]%string.

Local Notation "' x" := (Tlbdump_Spec.codes x%string) (at level 0, x at level 0).
(** The text, for given printers of numbers: unsigned and signed decimal (the
    first also with at least two digits), eight and
    sixteen hexadecimal digits. *)
Section text.
Variables (dec dec02 int hex8 hex16 : N -> list N).
Definition given {A} (o : option A) (f : A -> list N) : list N :=
  match o with Some x => f x | None => [] end.
Definition insn_line (insn addr : N) (ira : option (N * N)) (dea : option N) (dra : option (N * N)) : list N :=
  '"INSN  iea:" ++ hex16 addr ++ '" op:" ++ hex8 insn
  ++ given ira (fun x => '" ira:" ++ hex16 (fst x) ++ '" ipgsize:" ++ int (snd x))
  ++ given dea (fun x => '" dea:" ++ hex16 x)
  ++ given dra (fun x => '" dra:" ++ hex16 (fst x) ++ '" dpgsize:" ++ int (snd x))
  ++ Tlbdump_Spec.newline.
Definition stamp_line (r : hrec) : list N :=
  match r with
  | RRecord c => '"REC  counter = " ++ dec c
  | RComplete e => '"END  cycles = " ++ dec e
  | RPause e => '"PAUSEcycles = " ++ dec e
  | RMark g c u i d =>
      '"MARK group = " ++ dec g ++ '", chip = " ++ dec c ++ '", unit = " ++ dec u
      ++ '", marker = " ++ dec i ++ '", set = " ++ (if d then '"1" else '"0")
  | RSync => '"SYNC "
  | RTime (Normal e) => '"TIME cycles = " ++ dec e
  | RTime MarkerDropped => '"TIME markers dropped"
  | RTime (RecordDropped c) => '"TIME record dropped counter overflow, counter= " ++ dec c
  | RTime ElapsedOverflow => '"TIME elapsed time overflow"
  | RTime CrespDropped => '"TIME CResp record dropped"
  | RTime TriggerDropped => '"TIME trigger dropped"
  | RTime TraceFull => '"TIME trace full asserted"
  | RTime OtherTime => '"TIME "
  | RInsn _ => []
  end ++ Tlbdump_Spec.newline.
(** -D shows stamps and instructions, -d instructions. *)
Definition record_line (debug detail : bool) (e : erec) : list N :=
  match e with
  | EStamp r => if debug then stamp_line r else []
  | EInsn insn addr ira dea dra
  | EInsn10 insn addr ira dea dra _ _ _ _ _ _ =>
      if debug || detail then insn_line insn addr ira dea dra else []
  end.
(** Titles are put to the right of 48 columns. *)
Definition titled (title : string) (value : list N) : list N :=
  repeat 32 (48 - List.length (Tlbdump_Spec.codes title)) ++ Tlbdump_Spec.codes title ++ '" : " ++ value ++ Tlbdump_Spec.newline.
Definition counts_text (ws : list N) (counts : ctr -> N) : list N :=
  titled "RAW Checksum" ('"0x" ++ hex16 (checksum ws))
  ++ titled "Total Records Scanned" (dec (N.of_nat (List.length ws) mod 2 ^ 32))
  ++ flat_map (fun p => titled (fst p) (dec (match snd p with Some c => counts c mod 2 ^ 32 | None => 0 end))) lines.
(** The records, then the counts and the pages of the software TLB. *)
Definition whole_text (debug detail : bool) (es : list erec) (ws : list N) (counts : ctr -> N)
    (h : list Tlb_Model.op) (rows : list Tlbdump_Spec.row) : list N :=
  flat_map (record_line debug detail) es
  ++ if debug || detail
     then counts_text ws counts
          ++ Tlbdump_Spec.report dec dec02 hex8 hex16 rows
               (Tlbdump_Spec.unanswered h) (Tlbdump_Spec.lookups h) (Tlbdump_Spec.replaced [] h)
     else [].
End text.
