(** Model of qtlib/qtwriter.c. *)
Require Import NArith List Bool.
Require Import Verif.Word Verif.Codec_Types.
Import ListNotations.
Local Open Scope N_scope.

(* qtlib/qtwriter.c:44,51 *)
Definition QTWRITER_VERSION : N := 0x7010000.
Definition BUFFER : N := 131072.

(** Abnormal outcomes of a writer call. *)
Inductive werr :=
| WAssert      (** assert() fails, the program aborts *)
| WShift       (** [x >> n] with n >= 64: undefined behaviour *)
| WOverrun.    (** a store outside the mapping *)

Inductive wres (A : Type) :=
| WOk (a : A)
| WFail (a : A)    (** the call returned false *)
| WErr (e : werr).
Arguments WOk {A} a. Arguments WFail {A} a. Arguments WErr {A} e.

(** Emitted bytes, or the reason the program died while emitting. *)
Definition em := sum werr (list N).
Definition eok (l : list N) : em := inr l.
Definition eapp (a b : em) : em :=
  match a with
  | inl e => inl e
  | inr x => match b with inl e => inl e | inr y => inr (x ++ y) end
  end.
Fixpoint econcat (l : list em) : em :=
  match l with [] => inr [] | a :: l' => eapp a (econcat l') end.
Definition when (b : bool) (e : em) : em := if b then e else inr [].

(** put32(ra >> pshift), pshift a uint8_t (qtlib/qtwriter.c:217-224, 437-440,
    470-477): default 16. *)
Definition pshift_of (valid : bool) (ps : N) : N := if valid then u8 ps else 16.
Definition put_rpn (ra : N) (valid : bool) (ps : N) : em :=
  let s := pshift_of valid ps in
  if s <? 64 then inr (put32 (u32 (N.shiftr ra s))) else inl WShift.

(** The three-way test at qtlib/qtwriter.c:142/153, 301/313, 334/347. *)
Inductive wkind := KNone | KSingle | KMulti.
Definition kind (r : radix) : wkind :=
  if rx_nr_ptes r =? 0 then KNone
  else if rx_walks r =? 1 then KSingle
  else if 1 <? rx_walks r then KMulti
  else KNone.

(** The asserts at qtlib/qtwriter.c:143-157, 302-316, 335-350. *)
Definition walk_assert (r : radix) : bool :=
  match kind r with
  | KNone => true
  | KSingle => (rx_type r =? GUEST_REAL) || (rx_type r =? HOST_RADIX)
  | KMulti => (rx_nr_ptes r <=? N.of_nat NR_RADIX_PTES)
              && (rx_walks r <=? N.of_nat MAX_RADIX_WALKS)
  end.

(** Guest translation mode of a single walk: GUEST_REAL -> REAL, HOST_RADIX ->
    NOT_DEFINED (qtlib/qtwriter.c:145-150, 307-310, 341-344). *)
Definition single_mode (r : radix) : N :=
  if rx_type r =? GUEST_REAL then MODE_REAL else MODE_NOT_DEFINED.

(** Walk emission loops, qtlib/qtwriter.c:193-215, 412-434, 446-468.  All
    array indices are in range: a single walk reads row 0, columns 0-3, and a
    multiple walk is bounded by the asserts. *)
Definition emit_ptes (rows cols : nat) (r : radix) : list N :=
  flat_map (fun row => flat_map put64 (firstn cols row)) (firstn rows (rx_host_ptes r)).
Definition emit_walk (r : radix) : list N :=
  match kind r with
  | KNone => []
  | KSingle => emit_ptes 1 NR_RADIX_PTES r
  | KMulti =>
      put8 (rx_nr_ptes r) ++ put8 (rx_walks r)
      ++ emit_ptes (N.to_nat (rx_walks r)) (N.to_nat (rx_nr_ptes r)) r
      ++ flat_map put64 (firstn (N.to_nat (rx_walks r - 1)) (rx_host_real r))
      ++ flat_map put64 (firstn (N.to_nat (rx_walks r)) (rx_guest_real r))
  end.

Definition fl (b : bool) (v : N) : N := if b then v else 0.

(** ** Header: qtlib/qtwriter.c:122-233 *)
Definition has_ptes (r : radix) : bool :=
  match kind r with KNone => false | _ => true end.

Definition hdr_flags3 (r : radix) : N :=
  match kind r with
  | KSingle => N.lor (N.shiftl MODE_RADIX SH_HOST_INSN)
                     (N.shiftl (single_mode r) SH_GUEST_INSN)
  | _ => 0
  end.

Definition hdr_flags (magic : N) (r : qrec) : N :=
  N.lor HDR_IAR
  (N.lor (fl (q_insn_ra_valid r) HDR_IAR_RPN)
  (N.lor (fl (q_insn_ps_valid r) HDR_IAR_PAGE_SIZE)
  (N.lor (fl (q_ginsn_ps_valid r) HDR_IAR_GPAGE_SIZE)
  (N.lor HDR_VERSION
         (fl (negb (magic =? 0)) HDR_MAGIC))))).

Definition write_header (magic : N) (r : qrec) : em :=
  if walk_assert (q_radix_insn r) then
    econcat
      [ eok (put32 0);
        eok (put16 F_EXT);
        eok (put16 (N.lor F2_FILE_HEADER (fl (negb (rx_nr_ptes (q_radix_insn r) =? 0)) F2_EXT2)));
        when (has_ptes (q_radix_insn r)) (eok (put16 (hdr_flags3 (q_radix_insn r))));
        eok (put16 (hdr_flags magic r));
        when (negb (magic =? 0)) (eok (put32 magic));
        eok (put32 QTWRITER_VERSION);
        eok (put64 (q_insn_addr r));
        when (has_ptes (q_radix_insn r)) (eok (emit_walk (q_radix_insn r)));
        when (q_insn_ra_valid r) (put_rpn (q_insn_ra r) (q_insn_ps_valid r) (q_insn_ps r));
        when (q_insn_ps_valid r) (eok (put8 (u8 (q_insn_ps r))));
        when (q_ginsn_ps_valid r) (eok (put8 (u8 (q_ginsn_ps r)))) ]
  else inl WAssert.

(** ** One stored record: qtlib/qtwriter.c:282-491.  [prev] is the pending
    record, [cur] the one being written. *)
Definition iar_change (prev cur : qrec) : bool :=
  negb (q_insn_addr cur =? add64 (q_insn_addr prev) 4).
Definition rec_is_branch (prev cur : qrec) : bool :=
  q_branch prev || iar_change prev cur.
(* lines 298-323: a data walk is emitted *)
Definition data_walk (prev : qrec) : bool :=
  q_data_ra_valid prev && has_ptes (q_radix_data prev).
(* lines 331-357: an instruction walk is emitted *)
Definition insn_walk (prev cur : qrec) : bool :=
  (q_insn_ra_valid cur && iar_change prev cur) && has_ptes (q_radix_insn cur).
Definition have_flags3 (prev cur : qrec) : bool :=
  data_walk prev || insn_walk prev cur.

Definition rec_flags (prev cur : qrec) : N :=
  N.lor F_EXT
  (N.lor (fl (q_data_addr_valid prev) F_DATA_ADDRESS)
  (N.lor (fl (q_data_ra_valid prev) F_DATA_RPN)
  (N.lor (fl (q_insn_ra_valid cur && iar_change prev cur) F_IAR_RPN)
  (N.lor (fl (rec_is_branch prev cur) (N.lor F_NODE F_TERMINATION))
         (fl (rec_is_branch prev cur && iar_change prev cur)
             (N.lor F_IAR_CHANGE F_IAR)))))).

Definition rec_flags2 (prev cur : qrec) : N :=
  N.lor (fl (have_flags3 prev cur) F2_EXT2)
  (N.lor (fl (q_data_ps_valid prev) F2_DATA_PAGE_SIZE)
  (N.lor (fl (q_gdata_ps_valid prev) F2_DATA_GPAGE_SIZE)
  (N.lor (fl (q_insn_ps_valid cur && iar_change prev cur) F2_IAR_PAGE_SIZE)
         (fl (q_ginsn_ps_valid cur && iar_change prev cur) F2_INSN_GPAGE_SIZE)))).

Definition rec_flags3 (prev cur : qrec) : N :=
  N.lor
    (if data_walk prev then
       match kind (q_radix_data prev) with
       | KSingle => N.shiftl (single_mode (q_radix_data prev)) SH_GUEST_DATA
       | _ => 0
       end
     else 0)
    (if insn_walk prev cur then
       match kind (q_radix_insn cur) with
       | KSingle =>
           (* lines 340-344: the guest mode of an instruction walk is always
              NOT_DEFINED and its kind lands in the guest DATA bits *)
           N.lor (N.shiftl MODE_NOT_DEFINED SH_GUEST_INSN)
                 (N.shiftl (single_mode (q_radix_insn cur)) SH_GUEST_DATA)
       | _ => 0
       end
     else 0).

(* lines 391-402 *)
Definition term_code (prev : qrec) : N :=
  if q_branch prev then
    if q_cond prev then T_MAX_BRANCH_DEPTH else T_UNCONDITIONAL
  else T_EXCEPTION.

Definition store_record (prev cur : qrec) : em :=
  let ic := iar_change prev cur in
  let br := rec_is_branch prev cur in
  if (if q_data_ra_valid prev then walk_assert (q_radix_data prev) else true)
     && (if q_insn_ra_valid cur && ic then walk_assert (q_radix_insn cur) else true)
  then
    econcat
      [ eok (put32 (q_insn prev));
        eok (put16 (rec_flags prev cur));
        eok (put16 (rec_flags2 prev cur));
        when (have_flags3 prev cur) (eok (put16 (rec_flags3 prev cur)));
        when br (eok (put8 0 ++ put8 0 ++ put8 (term_code prev)));
        when (q_data_addr_valid prev) (eok (put64 (q_data_addr prev)));
        when (data_walk prev) (eok (emit_walk (q_radix_data prev)));
        when (q_data_ra_valid prev)
             (put_rpn (q_data_ra prev) (q_data_ps_valid prev) (q_data_ps prev));
        when ic (eok (put64 (q_insn_addr cur)));
        when (insn_walk prev cur) (eok (emit_walk (q_radix_insn cur)));
        when (q_insn_ra_valid cur && ic)
             (put_rpn (q_insn_ra cur) (q_insn_ps_valid cur) (q_insn_ps cur));
        when (q_insn_ps_valid cur && ic) (eok (put8 (u8 (q_insn_ps cur))));
        when (q_ginsn_ps_valid cur && ic) (eok (put8 (u8 (q_ginsn_ps cur))));
        when (q_data_ps_valid prev) (eok (put8 (u8 (q_data_ps prev))));
        when (q_gdata_ps_valid prev) (eok (put8 (u8 (q_gdata_ps prev)))) ]
  else inl WAssert.

(** ** Writer state: qtlib/qtwriter.h:13-22.  [w_out] is mem..ptr. *)
Record wstate := mk_w {
  w_magic : N;
  w_prev : qrec;
  w_header : bool;
  w_size : N;
  w_out : list N
}.

(* qtlib/qtwriter.c:53-88, on success *)
Definition qtwriter_open (magic : N) : wstate := mk_w magic zero_qrec false BUFFER [].

(** Store the emitted bytes at ptr: every byte must lie in the mapping. *)
Definition store (st : wstate) (e : em) (r : qrec) : wres wstate :=
  match e with
  | inl x => WErr x
  | inr bs =>
      if w_size st <? N.of_nat (length (w_out st)) + N.of_nat (length bs)
      then WErr WOverrun
      else WOk (mk_w (w_magic st) r true (w_size st) (w_out st ++ bs))
  end.

(* qtlib/qtwriter.c:235-497.  [grow_ok] says whether fallocate/ftruncate and
   mremap would succeed, were they called. *)
Definition qtwriter_write_record (st : wstate) (grow_ok : bool) (r : qrec) : wres wstate :=
  let need := w_size st <? N.of_nat (length (w_out st)) + BUFFER in
  if need && negb grow_ok then WFail st
  else
    let st1 := if need
               then mk_w (w_magic st) (w_prev st) (w_header st) (w_size st + BUFFER) (w_out st)
               else st in
    if w_header st1 then store st1 (store_record (w_prev st1) r) r
    else store st1 (write_header (w_magic st1) r) r.

(* qtlib/qtwriter.c:536-553: flush the pending record, truncate to mem..ptr.
   The result of the flush is ignored (line 543). *)
Definition close_rec (st : wstate) : qrec :=
  mk_qrec 0 (add64 (q_insn_addr (w_prev st)) 4) false 0 false 0 false 0 false 0 false 0
          false false false 0 false 0 zero_radix zero_radix.

Definition qtwriter_close (st : wstate) (grow_ok : bool) : sum werr (list N) :=
  match qtwriter_write_record st grow_ok (close_rec st) with
  | WOk st' => inr (w_out st')
  | WFail st' => inr (w_out st')
  | WErr e => inl e
  end.

(** ** Whole runs.  A run is a list of (record, would growing succeed). *)
Fixpoint write_all (st : wstate) (l : list (qrec * bool)) : sum werr wstate :=
  match l with
  | [] => inr st
  | (r, g) :: l' =>
      match qtwriter_write_record st g r with
      | WOk st' => write_all st' l'
      | WFail st' => write_all st' l'
      | WErr e => inl e
      end
  end.

(** open; write every record; close — with every extension succeeding. *)
Definition write_trace (magic : N) (rs : list qrec) : sum werr (list N) :=
  match write_all (qtwriter_open magic) (map (fun r => (r, true)) rs) with
  | inl e => inl e
  | inr st => qtwriter_close st true
  end.
