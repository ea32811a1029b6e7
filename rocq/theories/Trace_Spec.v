(** What the words of a hardware trace mean: stamps, and the records of POWER8
    and POWER9 instructions. *)
Require Import NArith ZArith List Bool.
Require Import Verif.Word Verif.Codec_Types Verif.HtmBits_Spec.
Require Import Verif.Htm_Model.
Require Import Verif.Tlb_Model Verif.Tlb_Spec.
Import ListNotations.
Local Open Scope N_scope.

(** The file: 64 bit words, most significant byte first. *)
Definition be8 (v : N) : list N := map (fun i => v / 2 ^ (8 * i) mod 256) [7; 6; 5; 4; 3; 2; 1; 0].
Definition bytes_of (ws : list N) : list N := flat_map be8 ws.

(** ** Stamps *)
Definition time_of (w : N) : timek :=
  match field 64 w 20 27 with
  | 0x80 => Normal (field 64 w 36 63)
  | 0x90 => MarkerDropped
  | 0xA0 => RecordDropped (field 64 w 28 35)
  | 0xB0 => ElapsedOverflow
  | 0x88 => CrespDropped
  | 0x84 => TriggerDropped
  | 0x82 => TraceFull
  | _ => OtherTime
  end.
Inductive stamp (w : N) : hrec -> Prop :=
| stamp_record : field 64 w 0 23 = 0xACEFF0 -> stamp w (RRecord (field 64 w 24 31))
| stamp_complete : field 64 w 0 23 = 0xACEFF1 -> stamp w (RComplete (field 64 w 36 63))
| stamp_pause : field 64 w 0 23 = 0xACEFF2 -> stamp w (RPause (field 64 w 36 63))
| stamp_mark : field 64 w 0 23 = 0xACEFF3 -> field 64 w 53 62 = 0 ->
    stamp w (RMark (field 64 w 24 27) (field 64 w 28 30) (field 64 w 31 40) (field 64 w 41 52)
                   (ibm_bit 64 w 63))
| stamp_sync : field 64 w 0 23 = 0xACEFF4 -> stamp w RSync
| stamp_time : field 64 w 0 19 = 0xACEFF -> ibm_bit 64 w 20 = true -> stamp w (RTime (time_of w)).
Definition stamps := list (N * hrec).
Definition stamps_ok (l : stamps) : Prop := Forall (fun p => fst p < 2 ^ 64 /\ stamp (fst p) (snd p)) l.

(** ** Counted events *)
Definition event := (ctr * N)%type.
Definition count_of (c : ctr) (l : list event) : N :=
  fold_right N.add 0 (map (fun e => if ctr_dec (fst e) c then snd e else 0) l).
Definition stamp_events (r : hrec) : list event :=
  (RecordsProcessed, 1) ::
  match r with
  | RTime t => match t with Normal e => [(Cycles, e)] | _ => [] end ++ [(TsScanned, 1); (TsProcessed, 1)]
  | _ => []
  end.
(** Counters of events; the other two compare instructions with those before
    them. *)
Definition counted (c : ctr) : Prop := c <> Interrupts /\ c <> BranchesAfterNonBranches.
Definition stamps_events (l : stamps) : list event := flat_map (fun p => stamp_events (snd p)) l.

(** ** Records
    What is known of an instruction: word, address, real address and page
    shift, data address, its real address and page shift; for POWER10 also
    whether it is a (conditional) branch, the guest's page shifts, and the walks
    of the two addresses. *)
Inductive erec :=
| EStamp (r : hrec)
| EInsn (insn addr : N) (ira : option (N * N)) (dea : option N) (dra : option (N * N))
| EInsn10 (insn addr : N) (ira : option (N * N)) (dea : option N) (dra : option (N * N))
    (branch cond : Prop) (gips gdps : option N) (iwalk dwalk : option radix).
Definition known {A} (v : option A) (valid : bool) (P : A -> Prop) : Prop :=
  match v with Some x => valid = true /\ P x | None => valid = false end.
(** Fields that are marked as not valid, and those for which there is no mark
    (on POWER8 the branch flags, guest pages, walks), can have any value. *)
Definition tells (e : erec) (r : hrec) : Prop :=
  match e, r with
  | EStamp r0, _ => r = r0
  | EInsn insn addr ira dea dra, RInsn q =>
      q_insn q = insn /\ q_insn_addr q = addr
      /\ known ira (q_insn_ra_valid q) (fun x => q_insn_ra q = fst x)
      /\ known ira (q_insn_ps_valid q) (fun x => q_insn_ps q = snd x)
      /\ known dea (q_data_addr_valid q) (fun x => q_data_addr q = x)
      /\ known dra (q_data_ra_valid q) (fun x => q_data_ra q = fst x)
      /\ known dra (q_data_ps_valid q) (fun x => q_data_ps q = snd x)
  | EInsn10 insn addr ira dea dra branch cond gips gdps iwalk dwalk, RInsn q =>
      q_insn q = insn /\ q_insn_addr q = addr
      /\ known ira (q_insn_ra_valid q) (fun x => q_insn_ra q = fst x)
      /\ known ira (q_insn_ps_valid q) (fun x => q_insn_ps q = snd x)
      /\ known dea (q_data_addr_valid q) (fun x => q_data_addr q = x)
      /\ known dra (q_data_ra_valid q) (fun x => q_data_ra q = fst x)
      /\ known dra (q_data_ps_valid q) (fun x => q_data_ps q = snd x)
      /\ (q_branch q = true <-> branch) /\ (q_cond q = true <-> cond)
      /\ known gips (q_ginsn_ps_valid q) (fun x => q_ginsn_ps q = x)
      /\ known gdps (q_gdata_ps_valid q) (fun x => q_gdata_ps q = x)
      /\ match iwalk with Some w => q_radix_insn q = w | None => True end
      /\ match dwalk with Some w => q_radix_data q = w | None => True end
  | _, _ => False
  end.

(** ** POWER8 and POWER9 instructions *)
(** The instruction word for the word in the trace, which is recoded when the
    branch bit is set. *)
Inductive shown8 (iea : N) : bool -> N -> N -> Prop :=
| s8_other w : ~ (field 32 w 0 5 = 19 /\ field 32 w 26 30 = 16) -> shown8 iea false w w
| s8_register w : field 32 w 0 5 = 19 -> field 32 w 26 30 = 16 ->
    shown8 iea false w (N.ldiff w 0xe000)
| s8_b x0 x31 li lk : li < 2 ^ 24 -> iea mod 4 = 0 -> ~ looks_isel (p8_i_rel x0 x31 li lk iea) ->
    shown8 iea true (p8_i_rel x0 x31 li lk iea) (iform li false lk)
| s8_ba x0 x31 li lk : li < 2 ^ 24 -> ~ looks_isel (p8_i x0 lk 2 li x31) ->
    shown8 iea true (p8_i x0 lk 2 li x31) (iform li true lk)
| s8_bc x0 x30 x31 type bo bi bd lk :
    p8_b_type type x30 -> bo < 2 ^ 5 -> bi < 2 ^ 5 -> bd < 2 ^ 14 -> iea mod 4 = 0 ->
    ~ looks_isel (p8_b_rel x0 x30 x31 type bo bi bd lk iea) ->
    shown8 iea true (p8_b_rel x0 x30 x31 type bo bi bd lk iea) (bform bo bi bd false lk)
| s8_bca x0 x30 x31 type bo bi bd lk :
    p8_b_type type x30 -> bo < 2 ^ 5 -> bi < 2 ^ 5 -> bd < 2 ^ 14 ->
    ~ looks_isel (p8_b_abs x0 x30 x31 type bo bi bd lk) ->
    shown8 iea true (p8_b_abs x0 x30 x31 type bo bi bd lk) (bform bo bi bd true lk)
| s8_xl x0 type m x6 x17 tar bo bi bh x21 lk :
    type = 2 \/ type = 3 -> m < 2 ^ 2 -> x6 < 2 ^ 1 -> bo < 2 ^ 5 -> bi < 2 ^ 5 -> bh < 2 ^ 2 ->
    x21 < 2 ^ 11 -> ~ looks_isel (p8_xl x0 type m x6 x17 tar bo bi bh x21 lk) ->
    shown8 iea true (p8_xl x0 type m x6 x17 tar bo bi bh x21 lk) (xlform (xl_op type tar) bo bi bh lk).

(** An instruction: the word executed, its word in the trace, and the optional
    words: instruction address, its real page, data address, its real page; with
    the stamps that come before each of them.  [s_esid]: the last two are a
    segment and its virtual segment. *)
Record insn8 := mk_insn8 {
  s_insn : N; s_raw : N; s_branch : bool; s_x33 : N; s_x62 : N; s_esid : bool;
  s_iea : option (stamps * N); s_ira : option (stamps * N);
  s_dea : option (stamps * N); s_dra : option (stamps * N) }.
Definition here {A} (o : option A) : bool := match o with Some _ => true | None => false end.
Definition info_word (i : insn8) : N :=
  s_raw i * 2 ^ 32 + b1 (s_branch i) * 2 ^ 31 + s_x33 i * 2 ^ 28 + 0xABCDE * 2 ^ 8 + 2 ^ 7
  + b1 (here (s_iea i)) * 2 ^ 6 + b1 (here (s_ira i)) * 2 ^ 5 + b1 (here (s_dea i)) * 2 ^ 4
  + b1 (here (s_dra i)) * 2 ^ 3 + b1 (s_esid i) * 2 ^ 2 + s_x62 i.
Definition part_words (o : option (stamps * N)) : list N :=
  match o with Some (l, w) => map fst l ++ [w] | None => [] end.
Definition part_stamps (o : option (stamps * N)) : stamps :=
  match o with Some (l, _) => l | None => [] end.
Definition insn_words (i : insn8) : list N :=
  info_word i :: part_words (s_iea i) ++ part_words (s_ira i) ++ part_words (s_dea i)
  ++ part_words (s_dra i).
Definition insn_stamps (i : insn8) : stamps :=
  part_stamps (s_iea i) ++ part_stamps (s_ira i) ++ part_stamps (s_dea i) ++ part_stamps (s_dra i).

(** Page shifts: bits 38 and 39 of the instruction's, bits 0 and 1 of the data
    page word. *)
Definition ishift (w : N) : N := match field 64 w 38 39 with 1 => 12 | 2 => 16 | _ => 24 end.
Definition dshift (w : N) : N := match field 64 w 0 1 with 0 => 12 | 1 => 16 | _ => 24 end.
Definition ipage (w : N) : N := field 64 w 0 37 * 4096.
Definition dpage (w : N) : N := field 64 w 2 39 * 4096.

Section INSN8.
  Variable i : insn8.
  (** The address: given, or that of the next word. *)
  Definition addr8 (prev : N) : N :=
    match s_iea i with Some (_, w) => w / 4 * 4 | None => (prev + 4) mod 2 ^ 64 end.
  (** Whether instruction addresses are translated; no, if there is no address. *)
  Definition reloc8 : N := match s_iea i with Some (_, w) => w mod 2 | None => 0 end.
  (** Pages entered in and addresses looked up in the table of pages. *)
  Definition ops8 (a : N) : list op :=
    match s_ira i, s_iea i with
    | Some (_, w), _ => [OSet a reloc8 (ipage w + a mod 2 ^ ishift w) (2 ^ ishift w)]
    | None, Some _ => [OGet a reloc8]
    | None, None => []
    end.
  (** Real address and page shift: given, or of a page seen before. *)
  Definition real8 (pre : list op) (a : N) : option (N * N) :=
    match s_ira i, s_iea i with
    | Some (_, w), _ => Some (ipage w + a mod 2 ^ ishift w, ishift w)
    | None, Some _ => option_map (fun x => (fst x, N.log2 (snd x))) (answer pre a reloc8)
    | None, None => None
    end.
  (** The data address.  With segments it is 0. *)
  Definition data8 : option N := option_map (fun x => if s_esid i then 0 else snd x) (s_dea i).
  Definition data_real8 : option (N * N) :=
    if s_esid i then None
    else option_map (fun x => (dpage (snd x) + match s_dea i with
                                               | Some (_, d) => d mod 2 ^ dshift (snd x)
                                               | None => 0
                                               end, dshift (snd x))) (s_dra i).
  Definition record_of8 (pre : list op) (a : N) : erec :=
    EInsn (s_insn i) a (if s_esid i then None else real8 pre a) data8 data_real8.

  Definition insn_events (full : bool) : list event :=
    [(RecordsProcessed, 1); (InsnScanned, 1); (InsnProcessed, 1)]
    ++ stamps_events (insn_stamps i)
    ++ match s_ira i with
       | Some (_, w) =>
           if full then [(InsnPages (ishift w), 1);
                         (if s_esid i then WithIVsid else WithoutIVsid, 1); (WithIra, 1)]
           else []
       | None => [(WithoutIra, 1)]
       end
    ++ match s_dra i with
       | Some (_, w) =>
           if full then if s_esid i then [(Segment (field 64 w 0 1), 1); (WithDVsid, 1)]
                        else [(WithoutDVsid, 1)]
           else []
       | None => []
       end.

  (** Words other than the first do not have the mark of stamps, nor that of
      instructions. *)
  Definition untagged (w : N) : Prop :=
    w < 2 ^ 64 /\ field 64 w 0 19 <> 0xACEFF /\ field 64 w 36 55 <> 0xABCDE.
  Definition part_ok (o : option (stamps * N)) (P : N -> Prop) : Prop :=
    match o with Some (l, w) => stamps_ok l /\ untagged w /\ P w | None => True end.
  Definition insn8_ok (a : N) : Prop :=
    shown8 a (s_branch i) (s_raw i) (s_insn i)
    /\ 0 < s_raw i < 2 ^ 32 /\ field 32 (s_raw i) 0 19 <> 0xACEFF /\ s_x33 i < 8 /\ s_x62 i < 4
    /\ part_ok (s_iea i) (fun _ => True)
    /\ part_ok (s_ira i) (fun w => field 64 w 41 63 = 0 /\ field 64 w 38 39 <> 0
                                   /\ ipage w mod 2 ^ ishift w = 0)
    /\ part_ok (s_dea i) (fun _ => True)
    /\ part_ok (s_dra i) (fun w => s_esid i = false -> field 64 w 0 1 <> 2
                                   /\ dpage w mod 2 ^ dshift w = 0).
End INSN8.

(** ** The trace *)
(** A word without a mark. *)
Definition other (w : N) : Prop :=
  w < 2 ^ 64 /\ field 64 w 0 19 <> 0xACEFF /\ field 64 w 36 55 <> 0xABCDE
  /\ field 64 w 36 55 <> 0xABCDF.
Inductive item8 :=
| IStamp (w : N) (r : hrec)
| IInsn (i : insn8)
| IInvalid (w : N)      (** an instruction that was flushed *)
| IOther (w : N).       (** a word without a mark *)
Definition words8 (x : item8) : list N :=
  match x with IStamp w _ => [w] | IInsn i => insn_words i | IInvalid w => [w] | IOther w => [w] end.
Definition item8_ok (prev : N) (x : item8) : Prop :=
  match x with
  | IStamp w r => w < 2 ^ 64 /\ stamp w r
  | IInsn i => insn8_ok i (addr8 i prev)
  | IInvalid w => w < 2 ^ 64 /\ field 64 w 0 19 <> 0xACEFF /\ field 64 w 36 55 = 0xABCDE
                  /\ field 64 w 0 31 <> 0 /\ ibm_bit 64 w 56 = false
  | IOther w => other w
  end.
Definition next8 (prev : N) (x : item8) : N := match x with IInsn i => addr8 i prev | _ => prev end.

Fixpoint trace8_ok (prev : N) (l : list item8) : Prop :=
  match l with [] => True | x :: l' => item8_ok prev x /\ trace8_ok (next8 prev x) l' end.
Fixpoint pages8 (prev : N) (l : list item8) : list op :=
  match l with
  | [] => []
  | x :: l' => match x with IInsn i => ops8 i (addr8 i prev) | _ => [] end ++ pages8 (next8 prev x) l'
  end.
(** The records, given the pages seen before. *)
Fixpoint records8 (pre : list op) (prev : N) (l : list item8) : list erec :=
  match l with
  | [] => []
  | IStamp _ r :: l' => EStamp r :: records8 pre prev l'
  | IInsn i :: l' =>
      map (fun p => EStamp (snd p)) (insn_stamps i) ++ record_of8 i pre (addr8 i prev)
      :: records8 (pre ++ ops8 i (addr8 i prev)) (addr8 i prev) l'
  | _ :: l' => records8 pre prev l'
  end.
(** Address and word of the instructions. *)
Fixpoint insns8 (prev : N) (l : list item8) : list (N * N) :=
  match l with
  | [] => []
  | IInsn i :: l' => (addr8 i prev, s_insn i) :: insns8 (addr8 i prev) l'
  | _ :: l' => insns8 prev l'
  end.
Definition events8 (full : bool) (x : item8) : list event :=
  match x with
  | IStamp _ r => stamp_events r
  | IInsn i => insn_events i full
  | IInvalid _ => [(RecordsProcessed, 1); (InsnScanned, 1)]
  | IOther _ => []
  end.
