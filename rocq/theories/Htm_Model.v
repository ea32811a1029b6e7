(** Model of htm/htm.c: the word stream, timestamps, and the decoding of
    instruction records of the two trace formats. *)
Require Import NArith ZArith List Bool.
Require Import Verif.Word Verif.Codec_Types Verif.HtmBits_Model Verif.Branch_Model.
Require Import Verif.Pwc_Model Verif.Xlate_Model.
Require Verif.Tlb_Model Verif.Bb_Model.
Import ListNotations.
Local Open Scope N_scope.

(** ** State *)
(* htm/htm.c:98-103, 119: the position in the stream.  [c_data] are the bytes
   archive_read_data() has still to deliver; [c_bad] tells that the archive
   ends in a read error rather than in end of file. *)
Record cur := mk_cur {
  c_data : list N; c_bad : bool; c_eof : bool;
  c_off : N; c_nr : Z; c_nr_rewind : Z;
  c_prev : list N; c_rewind : bool;
  c_scanned : N; c_sum : N }.

(* htm/htm.h:76-122: the counters that the decoder changes, except for
   checksum and total_records_scanned, which are in the cursor *)
Inductive ctr :=
| RecordsProcessed | InsnScanned | InsnProcessed | TsScanned | TsProcessed
| Cycles | Interrupts | BranchesAfterNonBranches
| WithIra | WithoutIra | WithIVsid | WithoutIVsid | WithDVsid | WithoutDVsid
| Segment (size : N)
| WithIXlate | WithoutIXlateErat | WithoutIXlatePwc | WithoutIXlateIeara
| WithDXlate | WithoutDXlateErat | WithoutDXlatePwc
| DataPages (shift : N) | InsnPages (shift : N).
Definition ctr_dec (a b : ctr) : {a = b} + {a <> b}.
Proof. decide equality; apply N.eq_dec. Defined.
Definition stats := ctr -> N.

(* htm/htm.h:50-61: what the time record tells *)
Inductive timek :=
| Normal (elapsed : N) | MarkerDropped | RecordDropped (count : N) | ElapsedOverflow
| CrespDropped | TriggerDropped | TraceFull | OtherTime.
(* htm/htm.h:63-74 *)
Inductive hrec :=
| RRecord (counter : N) | RComplete (elapsed : N) | RPause (elapsed : N)
| RMark (group chip unit info : N) (dropped : bool) | RSync | RTime (t : timek)
| RInsn (q : qrec).

(* htm/htm.c:98-118.  [h_tlb], [h_bb], [h_x] are the states of tlb.c, bb.c,
   and xlate.c with pwc.c; [h_log] are the calls of ppcstats_log_inst and
   [h_out] the calls of the callback, oldest first. *)
Record hst := mk_hst {
  h_cur : cur; h_errors : Z; h_stat : stats;
  h_prev_addr : N; h_prev_branch : bool; h_addr : N; h_real : N; h_insn : N;
  h_radix : radix; h_hps : N; h_gps : N; h_rpt : bool;
  h_tlb : Tlb_Model.tlbs; h_bb : Bb_Model.bbs; h_x : xst;
  h_log : list (N * N); h_out : list hrec }.

Inductive herr :=
| HAssert       (** assert() fails in htm.c, except in htm_rewind *)
| HStuck        (** assert() in htm_rewind: same word twice *)
| HOob          (** access outside ixlates[2], dxlates[2] or guest_real_addrs[5] *)
| HOverflow     (** int overflow of the word count *)
| HTlb (e : Tlb_Model.tlberr) | HBb (e : Bb_Model.bberr) | HXlate (e : xerr)
| HFuel.        (** artefact of the model's fuel; proved unreachable *)
Inductive hres (A : Type) := HOk (a : A) | HErr (e : herr).
Arguments HOk {A} a. Arguments HErr {A} e.

Definition H (A : Type) := hst -> hres (hst * A).
Definition hret {A} (a : A) : H A := fun s => HOk (s, a).
Definition herror {A} (e : herr) : H A := fun _ => HErr e.
Definition hbind {A B} (m : H A) (k : A -> H B) : H B :=
  fun s => match m s with HErr e => HErr e | HOk (s', a) => k a s' end.
Notation "x <-- p ;; k" := (hbind p (fun x => k)) (at level 61, p at next level, right associativity).
Definition hget {A} (f : hst -> A) : H A := fun s => HOk (s, f s).
Definition hset (f : hst -> hst) : H unit := fun s => HOk (f s, tt).

Definition set_cur (c : cur) (s : hst) : hst :=
  mk_hst c (h_errors s) (h_stat s) (h_prev_addr s) (h_prev_branch s) (h_addr s) (h_real s)
         (h_insn s) (h_radix s) (h_hps s) (h_gps s) (h_rpt s) (h_tlb s) (h_bb s) (h_x s)
         (h_log s) (h_out s).
Definition set_errors (e : Z) (s : hst) : hst :=
  mk_hst (h_cur s) e (h_stat s) (h_prev_addr s) (h_prev_branch s) (h_addr s) (h_real s)
         (h_insn s) (h_radix s) (h_hps s) (h_gps s) (h_rpt s) (h_tlb s) (h_bb s) (h_x s)
         (h_log s) (h_out s).
Definition add_stat (c : ctr) (k : N) (s : hst) : hst :=
  mk_hst (h_cur s) (h_errors s)
         (fun c' => if ctr_dec c c' then u32 (h_stat s c + k) else h_stat s c')
         (h_prev_addr s) (h_prev_branch s) (h_addr s) (h_real s)
         (h_insn s) (h_radix s) (h_hps s) (h_gps s) (h_rpt s) (h_tlb s) (h_bb s) (h_x s)
         (h_log s) (h_out s).
Definition set_prev (a : N) (b : bool) (s : hst) : hst :=
  mk_hst (h_cur s) (h_errors s) (h_stat s) a b (h_addr s) (h_real s)
         (h_insn s) (h_radix s) (h_hps s) (h_gps s) (h_rpt s) (h_tlb s) (h_bb s) (h_x s)
         (h_log s) (h_out s).
Definition set_addr (a : N) (s : hst) : hst :=
  mk_hst (h_cur s) (h_errors s) (h_stat s) (h_prev_addr s) (h_prev_branch s) a (h_real s)
         (h_insn s) (h_radix s) (h_hps s) (h_gps s) (h_rpt s) (h_tlb s) (h_bb s) (h_x s)
         (h_log s) (h_out s).
Definition set_real (r : N) (s : hst) : hst :=
  mk_hst (h_cur s) (h_errors s) (h_stat s) (h_prev_addr s) (h_prev_branch s) (h_addr s) r
         (h_insn s) (h_radix s) (h_hps s) (h_gps s) (h_rpt s) (h_tlb s) (h_bb s) (h_x s)
         (h_log s) (h_out s).
Definition set_insn (i : N) (s : hst) : hst :=
  mk_hst (h_cur s) (h_errors s) (h_stat s) (h_prev_addr s) (h_prev_branch s) (h_addr s) (h_real s)
         i (h_radix s) (h_hps s) (h_gps s) (h_rpt s) (h_tlb s) (h_bb s) (h_x s)
         (h_log s) (h_out s).
Definition set_walk (r : radix) (hps gps : N) (s : hst) : hst :=
  mk_hst (h_cur s) (h_errors s) (h_stat s) (h_prev_addr s) (h_prev_branch s) (h_addr s) (h_real s)
         (h_insn s) r hps gps (h_rpt s) (h_tlb s) (h_bb s) (h_x s)
         (h_log s) (h_out s).
Definition set_rpt (b : bool) (s : hst) : hst :=
  mk_hst (h_cur s) (h_errors s) (h_stat s) (h_prev_addr s) (h_prev_branch s) (h_addr s) (h_real s)
         (h_insn s) (h_radix s) (h_hps s) (h_gps s) b (h_tlb s) (h_bb s) (h_x s)
         (h_log s) (h_out s).
Definition set_tlb (t : Tlb_Model.tlbs) (s : hst) : hst :=
  mk_hst (h_cur s) (h_errors s) (h_stat s) (h_prev_addr s) (h_prev_branch s) (h_addr s) (h_real s)
         (h_insn s) (h_radix s) (h_hps s) (h_gps s) (h_rpt s) t (h_bb s) (h_x s)
         (h_log s) (h_out s).
Definition set_bb (b : Bb_Model.bbs) (s : hst) : hst :=
  mk_hst (h_cur s) (h_errors s) (h_stat s) (h_prev_addr s) (h_prev_branch s) (h_addr s) (h_real s)
         (h_insn s) (h_radix s) (h_hps s) (h_gps s) (h_rpt s) (h_tlb s) b (h_x s)
         (h_log s) (h_out s).
Definition set_x (x : xst) (s : hst) : hst :=
  mk_hst (h_cur s) (h_errors s) (h_stat s) (h_prev_addr s) (h_prev_branch s) (h_addr s) (h_real s)
         (h_insn s) (h_radix s) (h_hps s) (h_gps s) (h_rpt s) (h_tlb s) (h_bb s) x
         (h_log s) (h_out s).
Definition add_log (e : N * N) (s : hst) : hst :=
  mk_hst (h_cur s) (h_errors s) (h_stat s) (h_prev_addr s) (h_prev_branch s) (h_addr s) (h_real s)
         (h_insn s) (h_radix s) (h_hps s) (h_gps s) (h_rpt s) (h_tlb s) (h_bb s) (h_x s)
         (h_log s ++ [e]) (h_out s).
Definition add_out (r : hrec) (s : hst) : hst :=
  mk_hst (h_cur s) (h_errors s) (h_stat s) (h_prev_addr s) (h_prev_branch s) (h_addr s) (h_real s)
         (h_insn s) (h_radix s) (h_hps s) (h_gps s) (h_rpt s) (h_tlb s) (h_bb s) (h_x s)
         (h_log s) (h_out s ++ [r]).
Definition count (c : ctr) : H unit := hset (add_stat c 1).

(** ** Field decoding *)
(* htm/htm.c:228-289, 292-326 without the two counters: the record for a
   stamp; [None] is the return value -1, the asserted type checks hold by the
   dispatch at 338-350 *)
Definition decode_timek (v : N) : timek :=
  let indicator := bits v 20 27 in
  if indicator =? 0x80 then Normal (bits v 36 63)
  else if indicator =? 0x90 then MarkerDropped
  else if indicator =? 0xA0 then RecordDropped (bits v 28 35)
  else if indicator =? 0xB0 then ElapsedOverflow
  else if indicator =? 0x88 then CrespDropped
  else if indicator =? 0x84 then TriggerDropped
  else if indicator =? 0x82 then TraceFull
  else OtherTime.
Definition decode_stamp_rec (v : N) : hres (option hrec) :=
  let type := bits v 0 23 in
  if type =? 0xACEFF0 then HOk (Some (RRecord (bits v 24 31)))
  else if type =? 0xACEFF1 then HOk (Some (RComplete (bits v 36 63)))
  else if type =? 0xACEFF2 then HOk (Some (RPause (bits v 36 63)))
  else if type =? 0xACEFF3 then
    if bits v 53 62 =? 0
    then HOk (Some (RMark (bits v 24 27) (bits v 28 30) (bits v 31 40) (bits v 41 52) (bit v 63)))
    else HErr HAssert
  else if type =? 0xACEFF4 then HOk (Some RSync)
  else if N.land type 0xACEFF8 =? 0xACEFF8 then HOk (Some (RTime (decode_timek v)))
  else HOk None.

(* htm/htm.c:363-373 *)
Definition rec_type (v : N) : N := if bits v 36 55 =? 0xABCDF then bits v 34 35 else 0.
Definition REC_TYPE_XLATE : N := 1.
Definition REC_TYPE_INST : N := 2.
Definition REC_TYPE_IEARA : N := 3.

(* htm/htm_types.h:17-29, htm/htm.c:545-571; ucode and flags are not used *)
Record info8 := mk_info8 {
  i_opcode : N; i_branch : bool; i_valid : bool; i_iea : bool; i_ira : bool;
  i_dea : bool; i_dra : bool; i_esid : bool }.
Definition decode_info8 (v : N) : option info8 :=
  if negb (bits v 36 55 =? 0xABCDE) then None
  else if bits v 0 31 =? 0 then None
  else Some (mk_info8 (bits v 0 31) (bit v 32) (bit v 56) (bit v 57) (bit v 58) (bit v 59)
                      (bit v 60) (bit v 61)).
(** The test at the start of the decoders of all further words. *)
Definition tagged (v : N) : bool := (bits v 0 19 =? 0xACEFF) || (bits v 36 55 =? 0xABCDE).
(* htm/htm.c:573-593: address, relocation; msrhv is not used *)
Definition decode_iea (v : N) : option (N * bool) :=
  if tagged v then None else Some (N.land v 0xfffffffffffffffc, bit v 63).
(* htm/htm.c:595-647: address, page shift *)
Definition decode_ira (v insn_addr : N) : option (N * N) :=
  if tagged v then None
  else if negb (bits v 41 63 =? 0) then None
  else
    match (match bits v 38 39 with 1 => Some 12 | 2 => Some 16 | 3 => Some 24 | _ => None end) with
    | None => None
    | Some ps =>
        Some (N.lor (bits v 0 37 * 2 ^ 12 mod w64) (N.land insn_addr (2 ^ ps - 1)), ps)
    end.
(* htm/htm.c:658-676 *)
Definition decode_dea (v : N) : option N := if tagged v then None else Some v.
(* htm/htm.c:678-725: page address, page shift *)
Definition decode_dra (v : N) : option (N * N) :=
  if tagged v then None
  else
    match (match bits v 0 1 with 0 => Some 12 | 1 => Some 16 | 3 => Some 24 | _ => None end) with
    | None => None
    | Some ps => Some (bits v 2 39 * 2 ^ 12 mod w64, ps)
    end.
(* htm/htm.c:739-757 *)
Definition decode_esid (v : N) : option N := if tagged v then None else Some (bits v 0 35).
(* htm/htm.c:759-785: segment size; the other fields are not used *)
Definition decode_vsid (v : N) : option N := if tagged v then None else Some (bits v 0 1).

(* htm/htm_types.h:31-39, htm/htm.c:395-432; dea and dra are equal *)
Record info10 := mk_info10 {
  j_opcode : N; j_branch : bool; j_prefix : bool; j_eabits : N; j_data : nat; j_esid : bool }.
Definition decode_info10 (v : N) : option info10 :=
  if negb (bits v 36 55 =? 0xABCDF) then None
  else if negb (bits v 34 35 =? REC_TYPE_INST) then None
  else Some (mk_info10 (bits v 0 31) (bit v 32) (bit v 33) (bits v 56 61 * 4)
               (if bits v 62 63 =? 0 then 0%nat else if bits v 62 63 =? 2 then 2%nat else 1%nat)
               (bits v 62 63 =? 3)).
(* htm/htm_types.h:87-97, htm/htm.c:434-449; the other bits are not used *)
Record msr10 := mk_msr10 { r_hv : bool; r_pr : bool; r_ir : bool; r_dr : bool }.
Definition decode_msr (v : N) : msr10 := mk_msr10 (bit v 0) (bit v 1) (bit v 2) (bit v 3).
Definition msr_of (m : msr10) : msr := mk_msr (r_hv m) (r_pr m).
(* htm/htm.c:515-521 *)
Definition decode_walk (v : N) : walk :=
  mk_walk (bit v 0) (bit v 1) (bit v 2) (bit v 3) (bits v 4 6) (bits v 8 60 * 2 ^ 3 mod w64).
(* htm/htm.c:727-737 *)
Definition decode_dra10 (v : N) : N := bits v 0 40 * 2 ^ 12 mod w64.

(* htm/htm.c:461-487: the two functions differ in the side *)
Definition select (dside : bool) (xs : list xlate) (ra : N) : option xlate :=
  find (fun x => Bool.eqb (x_dside x) dside
                 && match x_nwalks x with
                    | O => false
                    | S n => wk_ra (nth n (x_walks x) zero_walk) =? ra
                    end) xs.

Section DECODER.
  (** qsort(3); the bytes on the stack when a word is read, by word number;
      the record on the stack, by word number; whether there is a callback
      (htmdecoder.c passes both fn and private_data or neither). *)
  Variable qs : Tlb_Model.qsort.
  Variable stale : Z -> list N.
  Variable junk : Z -> qrec.
  Variable full : bool.

  (** ** The stream *)
  (* htm/htm.c:120-145: return value and buffer *)
  Definition htm_read (c : cur) : cur * Z * list N :=
    let old := stale (c_nr c) in
    if c_rewind c then
      (mk_cur (c_data c) (c_bad c) (c_eof c) (add64 (c_off c) 8) (c_nr c) (c_nr_rewind c)
              (c_prev c) false (c_scanned c) (c_sum c), 1%Z, c_prev c)
    else
      let got := firstn 8 (c_data c) in
      let size := length got in
      if c_bad c && (size <? 8)%nat then (c, (-1)%Z, old)
      else if c_eof c && (size =? 0)%nat then (c, 0%Z, old)
      else
        (mk_cur (skipn 8 (c_data c)) (c_bad c) (c_eof c || (size =? 0)%nat)
                (add64 (c_off c) 8) (c_nr c) (c_nr_rewind c) (c_prev c) false
                (c_scanned c) (c_sum c), 1%Z, got ++ skipn size old).

  (** word1 + word2, in 32 bits *)
  Definition fold_word (v : N) : N := u32 (bits v 0 31 + bits v 32 63).

  (* htm/htm.c:171-201 *)
  Definition fetch_internal : H (option N) := fun s =>
    let '(c, r, buf) := htm_read (h_cur s) in
    if (r <=? 0)%Z then
      HOk (set_cur (mk_cur (c_data c) (c_bad c) (c_eof c) (c_off c) (c_nr c) (c_nr_rewind c)
                           buf (c_rewind c) (c_scanned c) (c_sum c)) s, None)
    else
      let v := be_val buf in
      if (c_nr c =? 2147483647)%Z then HErr HOverflow
      else
        HOk (set_cur (mk_cur (c_data c) (c_bad c) (c_eof c) (c_off c) (c_nr c + 1) (c_nr_rewind c)
                             buf (c_rewind c) (u32 (c_scanned c + 1))
                             (add64 (c_sum c) (fold_word v))) s, Some v).

  (* htm/htm.c:147-169 *)
  Definition htm_rewind (v : N) : H unit := fun s =>
    let c := h_cur s in
    if (c_nr_rewind c =? c_nr c)%Z then HErr HStuck
    else HOk (set_cur (mk_cur (c_data c) (c_bad c) (c_eof c) (sub64 (c_off c) 8) (c_nr c - 1)
                              (c_nr c) (c_prev c) true (u32 (c_scanned c + w32 - 1))
                              (sub64 (c_sum c) (fold_word v))) s, tt).

  (* htm/htm.c:328-361 with 311 and 322-323; result false is -1 *)
  Definition decode_stamp (v : N) : H bool :=
    _ <-- count RecordsProcessed ;;
    match decode_stamp_rec v with
    | HErr e => herror e
    | HOk None => hret false
    | HOk (Some r) =>
        _ <-- match r with
              | RTime t =>
                  _ <-- match t with Normal e => hset (add_stat Cycles e) | _ => hret tt end ;;
                  _ <-- count TsScanned ;;
                  count TsProcessed
              | _ => hret tt
              end ;;
        _ <-- (if full then hset (add_out r) else hret tt) ;;
        hret true
    end.

  (* htm/htm.c:209-226; recursion by fuel *)
  Fixpoint fetch_loop (fuel : nat) : H (option N) :=
    match fuel with
    | O => herror HFuel
    | S fuel' =>
        w <-- fetch_internal ;;
        match w with
        | None => hret None
        | Some v =>
            if bits v 0 19 =? 0xaceff then
              ok <-- decode_stamp v ;;
              if ok : bool then fetch_loop fuel' else hret None
            else hret (Some v)
        end
    end.
  Definition fuel_of (s : hst) : nat := length (c_data (h_cur s)) + 4.
  Definition htm_decode_fetch : H (option N) := fun s => fetch_loop (fuel_of s) s.

  (** ** POWER8 and POWER9 *)
  (** The optional parts seen so far: real address of the instruction, data
      address, data page.  [p_ira] etc. are the flags of insn.info. *)
  Record parts8 := mk_parts8 {
    p_ira : bool; p_ira_addr : N; p_ira_ps : N;
    p_dea : bool; p_dea_addr : N;
    p_dra : bool; p_dra_page : N; p_dra_ps : N }.

  (* htm/htm.c:1848-1884: fields not assigned keep the junk *)
  Definition record8 (q : qrec) (esid : bool) (insn addr : N) (p : parts8) : qrec :=
    let ira := p_ira p && negb esid && (0 <? p_ira_ps p) in
    let dra := p_dra p && negb esid && (0 <? p_dra_ps p) in
    mk_qrec insn addr
      ira (if ira then p_ira_addr p else q_insn_ra q)
      ira (if ira then p_ira_ps p else q_insn_ps q)
      (p_dea p) (if p_dea p then p_dea_addr p else q_data_addr q)
      dra (if dra then
             N.lor (p_dra_page p)
                   (if p_dea p then N.land (p_dea_addr p) (2 ^ p_dra_ps p - 1) else 0)
           else q_data_ra q)
      dra (if dra then p_dra_ps p else q_data_ps q)
      (q_branch q) (q_cond q) (q_ginsn_ps_valid q) (q_ginsn_ps q) (q_gdata_ps_valid q)
      (q_gdata_ps q) (q_radix_insn q) (q_radix_data q).

  (* htm/htm.c:1803-1893 *)
  Definition done8 (info : info8) (p : parts8) : H Z :=
    addr <-- hget h_addr ;;
    match insn_word insn_demunge (i_branch info) (i_opcode info) addr with
    | None => hret (-1)%Z
    | Some insn =>
        _ <-- hset (set_insn insn) ;;
        _ <-- hset (add_log (addr, insn)) ;;
        if negb full then hret 0%Z
        else
          let branch := i_branch info || is_system_branch insn in
          prev <-- hget h_prev_addr ;;
          pbranch <-- hget h_prev_branch ;;
          let jump := negb (prev =? 0) && negb (addr =? 0) && negb (add64 prev 4 =? addr) in
          _ <-- (if jump then
                   if negb pbranch then
                     if N.land addr 0xfffffffffffff07f =? 0 then count Interrupts else hret tt
                   else count BranchesAfterNonBranches
                 else hret tt) ;;
          _ <-- hset (set_prev addr (branch || jump)) ;;
          nr <-- hget (fun s => c_nr (h_cur s)) ;;
          _ <-- hset (add_out (RInsn (record8 (junk nr) (i_esid info) insn addr p))) ;;
          hret 0%Z
    end.

  (* htm/htm.c:1755-1802.  The page counters are compared with 1, 2, 3, but
     page_size is 12, 16 or 24. *)
  Definition dra8 (info : info8) (p : parts8) : H Z :=
    if p_dra p then
      w <-- htm_decode_fetch ;;
      match w with
      | None => hret (-1)%Z
      | Some v =>
          let without := mk_parts8 (p_ira p) (p_ira_addr p) (p_ira_ps p) (p_dea p) (p_dea_addr p)
                                   false 0 0 in
          if negb full then done8 info without
          else if i_esid info then
            match decode_vsid v with
            | None => _ <-- htm_rewind v ;; done8 info without
            | Some seg =>
                _ <-- count (Segment seg) ;;
                _ <-- count WithDVsid ;;
                done8 info (mk_parts8 (p_ira p) (p_ira_addr p) (p_ira_ps p) (p_dea p)
                                      (p_dea_addr p) true 0 0)
            end
          else
            match decode_dra v with
            | None => _ <-- htm_rewind v ;; done8 info without
            | Some (page, ps) =>
                _ <-- (if ps =? 1 then count (DataPages 12)
                       else if ps =? 2 then count (DataPages 16)
                       else if ps =? 3 then count (DataPages 24) else hret tt) ;;
                _ <-- count WithoutDVsid ;;
                done8 info (mk_parts8 (p_ira p) (p_ira_addr p) (p_ira_ps p) (p_dea p)
                                      (p_dea_addr p) true page ps)
            end
      end
    else done8 info p.

  (* htm/htm.c:1730-1753 *)
  Definition dea8 (info : info8) (p : parts8) : H Z :=
    if p_dea p then
      w <-- htm_decode_fetch ;;
      match w with
      | None => hret (-1)%Z
      | Some v =>
          if negb full then
            dra8 info (mk_parts8 (p_ira p) (p_ira_addr p) (p_ira_ps p) false 0
                                 (p_dra p) (p_dra_page p) (p_dra_ps p))
          else
            match (if i_esid info then option_map (fun _ => 0) (decode_esid v) else decode_dea v) with
            | None =>
                _ <-- htm_rewind v ;;
                done8 info (mk_parts8 (p_ira p) (p_ira_addr p) (p_ira_ps p) false 0 false 0 0)
            | Some a =>
                dra8 info (mk_parts8 (p_ira p) (p_ira_addr p) (p_ira_ps p) true a
                                     (p_dra p) (p_dra_page p) (p_dra_ps p))
            end
      end
    else dra8 info p.

  (* htm/htm.c:1683-1728; [software]: the real address is from the TLB; [ir]:
     iea.msrir *)
  Definition ira8 (info : info8) (software ir : bool) (p : parts8) : H Z :=
    addr <-- hget h_addr ;;
    bb <-- hget h_bb ;;
    match Bb_Model.bb_ea_log bb addr with
    | Bb_Model.BErr e => herror (HBb e)
    | Bb_Model.BOk bb' =>
        _ <-- hset (set_bb bb') ;;
        if p_ira p && negb software then
          w <-- htm_decode_fetch ;;
          match w with
          | None => hret (-1)%Z
          | Some v =>
              if negb full then
                dea8 info (mk_parts8 false 0 0 (p_dea p) (p_dea_addr p)
                                     (p_dra p) (p_dra_page p) (p_dra_ps p))
              else
                match decode_ira v addr with
                | None =>
                    _ <-- htm_rewind v ;;
                    done8 info (mk_parts8 false 0 0 false 0 false 0 0)
                | Some (ra, ps) =>
                    _ <-- count (InsnPages ps) ;;
                    _ <-- count (if i_esid info then WithIVsid else WithoutIVsid) ;;
                    tlb <-- hget h_tlb ;;
                    match Tlb_Model.tlb_ra_set qs tlb addr
                            (if ir then Tlb_Model.TLB_FLAGS_RELOC else 0) ra (2 ^ ps) with
                    | Tlb_Model.TErr e => herror (HTlb e)
                    | Tlb_Model.TOk tlb' =>
                        _ <-- hset (set_tlb tlb') ;;
                        _ <-- count WithIra ;;
                        dea8 info (mk_parts8 true ra ps (p_dea p) (p_dea_addr p)
                                             (p_dra p) (p_dra_page p) (p_dra_ps p))
                    end
                end
          end
        else
          _ <-- count WithoutIra ;;
          dea8 info p
    end.

  (* htm/htm.c:1623-1682 *)
  Definition decode_insn8 (v : N) : H Z :=
    _ <-- count RecordsProcessed ;;
    _ <-- count InsnScanned ;;
    match decode_info8 v with
    | None => hret (-1)%Z
    | Some info =>
        if negb (i_valid info) then hret 0%Z
        else
          _ <-- count InsnProcessed ;;
          let p := mk_parts8 (i_ira info) 0 0 (i_dea info) 0 (i_dra info) 0 0 in
          if i_iea info then
            w <-- htm_decode_fetch ;;
            match w with
            | None => hret (-1)%Z
            | Some v =>
                match decode_iea v with
                | None =>
                    addr <-- hget h_addr ;;
                    _ <-- hset (set_addr (add64 addr 4)) ;;
                    _ <-- htm_rewind v ;;
                    done8 info (mk_parts8 false 0 0 false 0 false 0 0)
                | Some (addr, ir) =>
                    _ <-- hset (set_addr addr) ;;
                    if full && negb (i_ira info) then
                      tlb <-- hget h_tlb ;;
                      match Tlb_Model.tlb_ra_get tlb addr
                              (if ir then Tlb_Model.TLB_FLAGS_RELOC else 0) with
                      | Tlb_Model.TErr e => herror (HTlb e)
                      | Tlb_Model.TOk (r, tlb') =>
                          _ <-- hset (set_tlb tlb') ;;
                          match r with
                          | Some (ra, size) =>
                              ira8 info true ir
                                (mk_parts8 true ra (pagesize_to_shift size) (i_dea info) 0
                                           (i_dra info) 0 0)
                          | None => ira8 info false ir p
                          end
                      end
                    else ira8 info false ir p
                end
            end
          else
            addr <-- hget h_addr ;;
            _ <-- hset (set_addr (add64 addr 4)) ;;
            ira8 info false false p
    end.

  (** ** POWER10 *)
  (* htm/htm.c:508-534: at most [n] further words; [None] is -1 *)
  Fixpoint xlate_walks (n : nat) (acc : list walk) : H (option (list walk)) :=
    match n with
    | O => hret None
    | S n' =>
        w <-- htm_decode_fetch ;;
        match w with
        | None => hret None
        | Some v =>
            if bit v 7 then hret (Some (acc ++ [decode_walk v]))
            else xlate_walks n' (acc ++ [decode_walk v])
        end
    end.
  (* htm/htm.c:489-534: nwalks is the index of the last word.  Slots are reused
     without clearing the entries after it, which are not read. *)
  Definition decode_insn_xlate (v : N) : H (option xlate) :=
    if negb (bits v 36 55 =? 0xABCDF) then hret None
    else if negb (bits v 34 35 =? REC_TYPE_XLATE) then hret None
    else
      ws <-- xlate_walks NWALKS [] ;;
      match ws with
      | None => hret None
      | Some ws =>
          hret (Some (mk_xlate (bit v 0) (bits v 1 12) (bits v 13 32) (length ws - 1)
                               (ws ++ repeat zero_walk (NWALKS - length ws))))
      end.
  (* htm/htm.c:375-393: address, real address *)
  Definition decode_ieara : H (option (N * N)) :=
    a <-- htm_decode_fetch ;;
    match a with
    | None => hret None
    | Some a =>
        r <-- htm_decode_fetch ;;
        match r with
        | None => hret None
        | Some r => hret (Some (bits a 0 56 * 2 ^ 7 mod w64, bits r 0 39 * 2 ^ 12 mod w64))
        end
    end.

  Definition partial_insert_h (x : xlate) : H unit :=
    st <-- hget h_x ;;
    match partial_insert (xs_partial st) x with
    | XErr e => herror (HXlate e)
    | XOk l => hset (set_x (mk_xst (xs_pwc st) (xs_erat st) l))
    end.
  Fixpoint partial_insert_all (xs : list xlate) : H unit :=
    match xs with
    | [] => hret tt
    | x :: xs' => _ <-- partial_insert_h x ;; partial_insert_all xs'
    end.

  (** What precedes the info word: ixlates, the last IEARA, insn.ixlate,
      insn.dxlates. *)
  Record pre10 := mk_pre10 {
    a_ixl : list xlate; a_ieara : option (N * N); a_ix : option xlate; a_dxl : list xlate }.

  (* htm/htm.c:1168-1221: the word after, and the state; [None] is -1 *)
  Fixpoint pre_loop (fuel : nat) (v : N) (a : pre10) : H (option (N * pre10)) :=
    match fuel with
    | O => herror HFuel
    | S fuel' =>
        let next a :=
          w <-- htm_decode_fetch ;;
          match w with None => hret None | Some v' => pre_loop fuel' v' a end in
        if (rec_type v =? REC_TYPE_XLATE) && negb (bit v 0) then
          _ <-- hset (set_rpt true) ;;
          if (2 <=? length (a_ixl a))%nat then herror HOob
          else
            x <-- decode_insn_xlate v ;;
            match x with
            | None => hret None
            | Some x => next (mk_pre10 (a_ixl a ++ [x]) (a_ieara a) (a_ix a) (a_dxl a))
            end
        else if rec_type v =? REC_TYPE_IEARA then
          e <-- decode_ieara ;;
          match e with
          | None => hret None
          | Some (ea, ra) =>
              let ix := select false (a_ixl a) ra in
              _ <-- match ix, a_ixl a with
                    | None, x :: _ => partial_insert_h x
                    | _, _ => hret tt
                    end ;;
              _ <-- partial_insert_all (a_dxl a) ;;
              next (mk_pre10 (a_ixl a) (Some (ea, ra)) ix [])
          end
        else if rec_type v =? REC_TYPE_XLATE then
          _ <-- hset (set_rpt true) ;;
          if (2 <=? length (a_dxl a))%nat then herror HOob
          else
            x <-- decode_insn_xlate v ;;
            match x with
            | None => hret None
            | Some x => next (mk_pre10 (a_ixl a) (a_ieara a) (a_ix a) (a_dxl a ++ [x]))
            end
        else hret (Some (v, a))
    end.

  (** Words after the msr word.  [b_dea] and [b_dra] are insn.info.dea and
      insn.info.dra, the arrays are shorter when not all entries were read. *)
  Record data10 := mk_data10 {
    b_prefix : option N; b_dea : nat; b_dra : nat; b_deas : list N; b_dras : list N }.
  Definition zth (l : list N) (i : nat) : N := nth i l 0.

  (* htm/htm.c:1259-1309 with a callback; [n] iterations left.  For the
     segment words only the tag test matters. *)
  Fixpoint data_loop (esid : bool) (n : nat) (d : data10) : H (option data10) :=
    match n with
    | O => hret (Some d)
    | S n' =>
        w <-- htm_decode_fetch ;;
        match w with
        | None => hret None
        | Some v =>
            if esid && tagged v then
              _ <-- htm_rewind v ;;
              hret (Some (mk_data10 (b_prefix d) 0 0 (b_deas d) (b_dras d)))
            else
              w2 <-- htm_decode_fetch ;;
              match w2 with
              | None => hret None
              | Some v2 =>
                  if esid then
                    if tagged v2 then
                      _ <-- htm_rewind v2 ;;
                      hret (Some (mk_data10 (b_prefix d) (b_dea d) 0 (b_deas d) (b_dras d)))
                    else data_loop esid n' d
                  else
                    data_loop esid n' (mk_data10 (b_prefix d) (b_dea d) (b_dra d)
                                         (b_deas d ++ [v]) (b_dras d ++ [decode_dra10 v2]))
              end
        end
    end.
  (* htm/htm.c:1239-1309 *)
  Definition data_words (info : info10) : H (option data10) :=
    pfx <-- (if j_prefix info then
               w <-- htm_decode_fetch ;;
               match w with
               | None => hret None
               | Some v => hret (Some (if full then Some (bits v 0 31) else None))
               end
             else hret (Some None)) ;;
    match pfx with
    | None => hret None
    | Some pfx =>
        let d := mk_data10 pfx (j_data info) (j_data info) [] [] in
        if full then data_loop (j_esid info) (j_data info) d
        else
          match j_data info with
          | O => hret (Some d)
          | S _ =>
              (* without a callback one word of each kind is skipped *)
              w <-- htm_decode_fetch ;;
              match w with
              | None => hret None
              | Some _ =>
                  w2 <-- htm_decode_fetch ;;
                  match w2 with
                  | None => hret None
                  | Some _ => hret (Some (mk_data10 pfx 0 0 [] []))
                  end
              end
          end
    end.

  Definition x_decode (x : xlate) (m : msr10) (reloc : bool) (a r : N) : H (option (radix * N * N)) :=
    st <-- hget h_x ;;
    match xlate_decode st x (msr_of m) reloc a r with
    | XErr e => herror (HXlate e)
    | XOk (st', res) => _ <-- hset (set_x st') ;; hret res
    end.
  Definition x_lookup (m : msr10) (reloc : bool) (a r : N) : H (option (radix * N * N)) :=
    st <-- hget h_x ;;
    match xlate_lookup (xs_erat st) (msr_of m) reloc a r with
    | XErr e => herror (HXlate e)
    | XOk res => hret res
    end.
  Definition x_address (a r : N) : H (option xlate) :=
    st <-- hget h_x ;;
    let '(o, l) := address_lookup (xs_partial st) a r in
    _ <-- hset (set_x (mk_xst (xs_pwc st) (xs_erat st) l)) ;;
    hret o.
  (** Both outcomes of the translation functions leave a record and two
      shifts, cleared on failure. *)
  Definition walk_of (r : option (radix * N * N)) : radix * N * N :=
    match r with Some w => w | None => (zero_radix, 0, 0) end.
  Definition page_ctr (c : N -> ctr) (shift : N) : H unit :=
    if existsb (N.eqb shift) [12; 16; 21; 30] then count (c shift) else hret tt.

  (* htm/htm.c:1358-1434 *)
  Definition insn_side (a : pre10) (m : msr10) : H unit :=
    rpt <-- hget h_rpt ;;
    addr <-- hget h_addr ;;
    real <-- hget h_real ;;
    if negb rpt then hret tt
    else
      match a_ieara a with
      | Some _ =>
          ix <-- match a_ix a with
                 | Some x => hret (Some x)
                 | None => x_address addr real
                 end ;;
          match ix with
          | Some x =>
              r <-- x_decode x m (r_ir m) addr real ;;
              let '(rec, hps, gps) := walk_of r in
              _ <-- hset (set_walk rec hps gps) ;;
              _ <-- count (match r with None => WithoutIXlatePwc | Some _ => WithIXlate end) ;;
              page_ctr InsnPages hps
          | None =>
              r <-- x_lookup m (r_ir m) addr real ;;
              let '(rec, hps, gps) := walk_of r in
              _ <-- hset (set_walk rec hps gps) ;;
              count (match r with None => WithoutIXlateErat | Some _ => WithIXlate end)
          end
      | None =>
          if negb (r_hv m) && r_ir m then
            hps <-- hget h_hps ;;
            if hps =? 0 then count WithoutIXlateIeara
            else
              _ <-- count WithIXlate ;;
              rec <-- hget h_radix ;;
              gps <-- hget h_gps ;;
              if rx_walks rec =? 0 then herror HOob
              else
                let i := N.to_nat (rx_walks rec - 1) in
                match nth_error (rx_guest_real rec) i with
                | None => herror HOob
                | Some g =>
                    let low := sub64 (2 ^ gps mod w64) 1 in
                    let g' := N.lor (N.land g (N.lxor low (w64 - 1))) (N.land addr low) in
                    hset (set_walk (mk_radix (rx_type rec) (rx_nr_ptes rec) (rx_walks rec)
                                             (rx_host_ptes rec) (rx_host_real rec)
                                             (set_nth (rx_guest_real rec) i g')) hps gps)
                end
          else hret tt
      end.

  (** One data address: its walk.  [counted] for the first one only.  When
      xlate_decode completes a walk it changes insn.dxlates; the second address
      sees that change only when it has the same real page, and then would make
      the same one. *)
  Definition data_side (counted : bool) (dxl : list xlate) (m : msr10) (ea ra : N)
    : H (radix * N * N) :=
    dx <-- match select true dxl ra with
           | Some x => hret (Some x)
           | None => x_address ea ra
           end ;;
    match dx with
    | Some x =>
        r <-- x_decode x m (r_dr m) ea ra ;;
        let '(rec, hps, gps) := walk_of r in
        _ <-- (if counted then
                 _ <-- count (match r with None => WithoutDXlatePwc | Some _ => WithDXlate end) ;;
                 page_ctr DataPages hps
               else hret tt) ;;
        hret (rec, hps, gps)
    | None =>
        r <-- x_lookup m (r_dr m) ea ra ;;
        _ <-- (if counted then
                 count (match r with None => WithoutDXlateErat | Some _ => WithDXlate end)
               else hret tt) ;;
        hret (walk_of r)
    end.

  (* htm/htm.c:1352-1356, 1436-1460, 1581-1603: fields not assigned keep the
     junk *)
  Definition record10 (q : qrec) (esid branch : bool) (insn addr real : N)
      (rec : radix) (hps gps : N) (d : data10) (drec : radix) (dhps dgps : N) : qrec :=
    let ira := negb esid && negb (hps =? 0) in
    let dea := negb esid && negb (b_dea d =? 0)%nat in
    let dra := negb (b_dra d =? 0)%nat && negb esid && negb (dhps =? 0) in
    mk_qrec insn addr
      ira (if ira then N.lor real (N.land addr (2 ^ hps - 1)) else q_insn_ra q)
      ira (if ira then hps else q_insn_ps q)
      dea (if dea then zth (b_deas d) 0 else q_data_addr q)
      dra (if dra then
             N.lor (zth (b_dras d) 0)
                   (if dea then N.land (zth (b_deas d) 0) (2 ^ dhps - 1) else 0)
           else q_data_ra q)
      dra (if dra then dhps else q_data_ps q)
      branch (is_conditional_branch insn)
      (negb (gps =? 0)) (if gps =? 0 then q_ginsn_ps q else gps)
      (negb (dgps =? 0)) (if dgps =? 0 then q_gdata_ps q else dgps)
      (if ira then rec else q_radix_insn q)
      (if dra then drec else q_radix_data q).
  (* htm/htm.c:1607-1615: the record for the suffix of a prefixed instruction *)
  Definition suffix_record (insn addr : N) : qrec :=
    mk_qrec insn addr false 0 false 0 false 0 false 0 false 0 false false
            false 0 false 0 zero_radix zero_radix.

  (* htm/htm.c:1311-1617 *)
  Definition done10 (info : info10) (m : msr10) (a : pre10) (d : data10) : H Z :=
    _ <-- match a_ieara a with
          | Some (ea, ra) => _ <-- hset (set_addr ea) ;; hset (set_real ra)
          | None => hret tt
          end ;;
    addr0 <-- hget h_addr ;;
    let addr := N.lor (N.ldiff addr0 0x7f) (j_eabits info) in
    _ <-- hset (set_addr addr) ;;
    match insn_word insn_demunge_p10 (j_branch info) (j_opcode info) addr with
    | None => hret (-1)%Z
    | Some insn =>
        _ <-- hset (set_insn insn) ;;
        bb <-- hget h_bb ;;
        match Bb_Model.bb_ea_log bb addr with
        | Bb_Model.BErr e => herror (HBb e)
        | Bb_Model.BOk bb' =>
            _ <-- hset (set_bb bb') ;;
            _ <-- hset (add_log (addr, insn)) ;;
            if negb full then hret 0%Z
            else
              let branch := j_branch info || is_system_branch insn in
              _ <-- hset (set_prev addr branch) ;;
              _ <-- insn_side a m ;;
              rpt <-- hget h_rpt ;;
              w0 <-- (if rpt && negb (b_dea d =? 0)%nat
                      then data_side true (a_dxl a) m (zth (b_deas d) 0) (zth (b_dras d) 0)
                      else hret (zero_radix, 0, 0)) ;;
              _ <-- (if rpt && (b_dea d =? 2)%nat
                     then data_side false (a_dxl a) m (zth (b_deas d) 1) (zth (b_dras d) 1)
                     else hret (zero_radix, 0, 0)) ;;
              _ <-- (if rpt && (b_dea d =? 0)%nat then partial_insert_all (a_dxl a) else hret tt) ;;
              let '(drec, dhps, dgps) := w0 in
              real <-- hget h_real ;;
              rec <-- hget h_radix ;;
              hps <-- hget h_hps ;;
              gps <-- hget h_gps ;;
              nr <-- hget (fun s => c_nr (h_cur s)) ;;
              let first := match b_prefix d with Some w => w | None => insn end in
              _ <-- hset (add_out (RInsn (record10 (junk nr) (j_esid info) branch first addr real
                                                   rec hps gps d drec dhps dgps))) ;;
              _ <-- match b_prefix d with
                    | Some _ => hset (add_out (RInsn (suffix_record insn (add64 addr 4))))
                    | None => hret tt
                    end ;;
              hret 0%Z
        end
    end.

  (* htm/htm.c:1132-1237 *)
  Definition decode_insn10 (v : N) : H Z :=
    _ <-- count RecordsProcessed ;;
    _ <-- count InsnScanned ;;
    r <-- (fun s => pre_loop (fuel_of s) v (mk_pre10 [] None None []) s) ;;
    match r with
    | None => hret (-1)%Z
    | Some (v, a) =>
        match decode_info10 v with
        | None => hret (-1)%Z
        | Some info =>
            _ <-- count InsnProcessed ;;
            w <-- htm_decode_fetch ;;
            match w with
            | None => hret (-1)%Z
            | Some w =>
                let m := decode_msr w in
                d <-- data_words info ;;
                match d with
                | None => hret (-1)%Z
                | Some d => done10 info m a d
                end
            end
        end
    end.

  (** ** The main loop *)
  (* htm/htm.c:1899-1945: false when the caller's loop ends *)
  Definition decode_one : H bool :=
    w <-- fetch_internal ;;
    match w with
    | None => hret false
    | Some v =>
        if v =? 0 then hret true
        else
          r <-- (if bits v 0 19 =? 0xACEFF then
                   ok <-- decode_stamp v ;; hret (if ok : bool then 0%Z else (-1)%Z)
                 else if bits v 36 55 =? 0xABCDE then decode_insn8 v
                 else if bits v 36 55 =? 0xABCDF then decode_insn10 v
                 else hret 0%Z) ;;
          _ <-- (if (r =? -2)%Z then htm_rewind v else hret tt) ;;
          if (r <? 0)%Z then
            e <-- hget h_errors ;;
            _ <-- hset (set_errors (e + 1)) ;;
            if (100 <? e)%Z then herror HAssert else hret true
          else
            _ <-- hset (set_errors 0) ;;
            hret true
    end.
  Fixpoint decode_loop (fuel : nat) : H unit :=
    match fuel with
    | O => herror HFuel
    | S fuel' => b <-- decode_one ;; if b : bool then decode_loop fuel' else hret tt
    end.
End DECODER.

(* htm/htm.c:1975-1986; the hash table of bb_init and the caches of xlate_init
   are allocated *)
Definition init_cur (bytes : list N) (bad : bool) : cur :=
  mk_cur bytes bad false 0 0 0 [] false 0 0.
Definition init_st (bytes : list N) (bad : bool) (tlb : Tlb_Model.tlbs) (bb : Bb_Model.bbs) : hst :=
  mk_hst (init_cur bytes bad) 0 (fun _ => 0) 0 false 0 0 0 zero_radix 0 0 false tlb bb
         xlate_init [] [].
(* htm/htm.c:1952-1998 after the archive was opened; the fuel bounds the
   number of words and of rewinds *)
Definition htm_decode (qs : Tlb_Model.qsort) (stale : Z -> list N) (junk : Z -> qrec) (full : bool)
    (bytes : list N) (bad : bool) : hres hst :=
  match Tlb_Model.tlb_init with
  | Tlb_Model.TErr e => HErr (HTlb e)
  | Tlb_Model.TOk tlb =>
      match Bb_Model.bb_init with
      | Bb_Model.BErr e => HErr (HBb e)
      | Bb_Model.BOk bb =>
          match decode_loop qs stale junk full (2 * length bytes + 8) (init_st bytes bad tlb bb) with
          | HErr e => HErr e
          | HOk (s, _) => HOk s
          end
      end
  end.
