(** Model of qtlib/qtreader.c. *)
Require Import NArith List Bool.
Require Import Verif.Word Verif.Codec_Types Verif.Branch_Model.
Import ListNotations.
Local Open Scope N_scope.

(** Undefined behaviour / abort reached by a reader call. *)
Inductive rfault :=
| FPeek     (** the look-ahead of line 656 leaves the readable memory *)
| FArray    (** a store outside an array of the record or state *)
| FShift    (** shift count >= 64 *)
| FAssert   (** assert() fails *)
| FFuel.    (** artefact of the model's fuel; proved unreachable *)

(** [RErr]: the C function returned false.  What a failing call leaves behind
    in the state is not modelled (no caller in the tree continues after it). *)
Inductive res (A : Type) := ROk (a : A) | RErr | RFault (f : rfault).
Arguments ROk {A} a. Arguments RErr {A}. Arguments RFault {A} f.

(** Parsers over the bytes ptr .. mem+size. *)
Definition P (A : Type) := list N -> res (A * list N).
Definition ret {A} (a : A) : P A := fun b => ROk (a, b).
Definition bind {A B} (p : P A) (k : A -> P B) : P B :=
  fun b => match p b with
           | ROk (a, b') => k a b'
           | RErr => RErr
           | RFault f => RFault f
           end.
Notation "x <- p ;; k" := (bind p (fun x => k)) (at level 61, p at next level, right associativity).
Definition err {A} : P A := fun _ => RErr.
Definition fault {A} (f : rfault) : P A := fun _ => RFault f.
Definition guard (b : bool) : P unit := if b then ret tt else err.

(* qtlib/qtreader.c:29-71 *)
Definition get (n : nat) : P N :=
  fun b => if Nat.ltb (length b) n then RErr
           else ROk (be_val (firstn n b), skipn n b).
Definition get8 : P N := get 1.
Definition get16 : P N := get 2.
Definition get32 : P N := get 4.
Definition get64 : P N := get 8.
(* qtlib/qtreader.c:73-80 *)
Definition skip (n : nat) : P unit :=
  fun b => if Nat.ltb (length b) n then RErr else ROk (tt, skipn n b).
(** if (cond) x = GET..; otherwise keep [d]. *)
Definition opt {A} (c : bool) (p : P A) (d : A) : P A := if c then p else ret d.

(** ** Radix walks: qtlib/qtreader.c:82-264 *)
Definition mode (flags3 sh : N) : N := N.land (N.shiftr flags3 sh) MODE_MASK.

(* lines 82-102, 126-168, 192-212: a missing count byte reads as 0 *)
Definition get_count (hm gm single : N) : P N :=
  fun b =>
    if (hm =? MODE_RADIX) && (gm =? MODE_RADIX) then
      match b with [] => ROk (0, b) | x :: b' => ROk (x, b') end
    else if hm =? MODE_RADIX then ROk (single, b)
    else ROk (0, b).
(* lines 104-124, 170-190 *)
Definition get_type (hm gm : N) : N :=
  if (hm =? MODE_RADIX) && (gm =? MODE_REAL) then GUEST_REAL
  else if (hm =? MODE_RADIX) && (gm =? MODE_NOT_DEFINED) then HOST_RADIX
  else UNSPECIFIED.

(** for (i = 0; i < n; i++) arr[i] = GET64();  with [cap] the size of [arr]. *)
Fixpoint read_arr (n cap : nat) : P (list N) :=
  match n with
  | O => ret []
  | S n' =>
      v <- get64 ;;
      match cap with
      | O => fault FArray
      | S cap' => l <- read_arr n' cap' ;; ret (v :: l)
      end
  end.
(** The two-dimensional loop of lines 237-244. *)
Fixpoint read_rows (walks nr rowcap colcap : nat) : P (list (list N)) :=
  match walks with
  | O => ret []
  | S w' =>
      row <- read_arr nr (match rowcap with O => O | S _ => colcap end) ;;
      rows <- read_rows w' nr (Nat.pred rowcap) colcap ;;
      ret (row :: rows)
  end.

Definition overlay {A} (old new : list A) : list A := new ++ skipn (length new) old.
Fixpoint overlay_rows (old new : list (list N)) : list (list N) :=
  match new, old with
  | [], _ => old
  | n :: new', o :: old' => overlay o n :: overlay_rows old' new'
  | _ :: _, [] => []
  end.

(** lines 333-346, 795-808, 848-860.  [set_type] is false at line 851-853,
    where the kind of the walk is not stored. *)
Definition parse_walk (hm gm : N) (set_type : bool) (old : radix) : P radix :=
  nr <- get_count hm gm (N.of_nat NR_RADIX_PTES) ;;
  w <- get_count hm gm 1 ;;
  if w =? 1 then
    (* lines 214-229 *)
    row <- read_arr (N.to_nat nr) NR_RADIX_PTES ;;
    ret (mk_radix (if set_type then get_type hm gm else rx_type old) nr w
           (overlay_rows (rx_host_ptes old) [row]) (rx_host_real old) (rx_guest_real old))
  else if 1 <? w then
    (* lines 231-264 *)
    rows <- read_rows (N.to_nat w) (N.to_nat nr) MAX_RADIX_WALKS NR_RADIX_PTES ;;
    hr <- read_arr (N.to_nat (w - 1)) (MAX_RADIX_WALKS - 1) ;;
    gr <- read_arr (N.to_nat w) MAX_RADIX_WALKS ;;
    ret (mk_radix (rx_type old) nr w (overlay_rows (rx_host_ptes old) rows)
           (overlay (rx_host_real old) hr) (overlay (rx_guest_real old) gr))
  else
    ret (mk_radix (rx_type old) nr w (rx_host_ptes old) (rx_host_real old) (rx_guest_real old)).

(** ** Reader state: qtlib/qtreader.h:16-57 *)
(** Instruction translation: the current (insn_...) and the pending (next_insn_...)
    group of fields. *)
Record xl := mk_xl {
  x_rpn_v : bool; x_rpn : N;
  x_ps_v : bool; x_ps : N;
  x_gps_v : bool; x_gps : N;
  x_radix : radix
}.
Definition zero_xl : xl := mk_xl false 0 false 0 false 0 zero_radix.

(** verbose, fd, mem are not modelled; data_rpn, data_rpn_valid are local to
    one call; data_page_shift, data_page_shift_valid, radix_data, next_radix_data are never used. *)
Record rstate := mk_rs {
  r_version : N;
  r_magic : N;
  r_next_addr : N;
  r_branch_info : bool;   (* flags & QTREADER_FLAGS_BRANCH *)
  r_tlbie_info : bool;    (* flags & QTREADER_FLAGS_TLBIE *)
  r_prefixed : bool;
  r_suffix : N;
  r_cur : xl;
  r_nxt : xl;
  r_lpid_present : bool; r_lpid : N;
  r_pid_present : bool; r_pid : N
}.

(** ** Header: qtlib/qtreader.c:270-392 *)
Definition parse_header (s : rstate) : P rstate :=
  insn <- get32 ;;
  _ <- guard (insn =? 0) ;;
  flags <- get16 ;;
  _ <- guard (flags =? F_EXT) ;;
  flags2 <- get16 ;;
  _ <- guard (has flags2 F2_FILE_HEADER) ;;
  (* line 296: flags2 & ~(FILE_HEADER|EXT2) *)
  _ <- guard (N.land flags2 0xFFFC =? 0) ;;
  flags3 <- opt (has flags2 F2_EXT2) get16 0 ;;
  hf <- get16 ;;
  _ <- guard (N.land hf UNHANDLED_HDR_FLAGS =? 0) ;;
  magic <- opt (has hf HDR_MAGIC) get32 (r_magic s) ;;
  version <- opt (has hf HDR_VERSION) get32 (r_version s) ;;
  addr <- opt (has hf HDR_IAR) get64 (r_next_addr s) ;;
  _ <- opt (has hf HDR_IAR_VSID) (skip 7) tt ;;
  rx <- opt (has hf HDR_IAR_RPN && has flags2 F2_EXT2)
            (parse_walk (mode flags3 SH_HOST_INSN) (mode flags3 SH_GUEST_INSN) true
                        (x_radix (r_nxt s)))
            (x_radix (r_nxt s)) ;;
  rpn <- opt (has hf HDR_IAR_RPN) get32 (x_rpn (r_nxt s)) ;;
  ps <- opt (has hf HDR_IAR_PAGE_SIZE) get8 (x_ps (r_nxt s)) ;;
  gps <- opt (has hf HDR_IAR_GPAGE_SIZE) get8 (x_gps (r_nxt s)) ;;
  _ <- opt (has flags3 F3_PTCR) get64 0 ;;
  lpid <- opt (has flags3 F3_LPID) get64 (r_lpid s) ;;
  pid <- opt (has flags3 F3_PID) get32 (r_pid s) ;;
  len <- opt (has hf HDR_COMMENT) get16 0 ;;
  _ <- skip (N.to_nat len) ;;
  let c := r_cur s in
  let n := r_nxt s in
  ret (mk_rs version magic addr (r_branch_info s) (r_tlbie_info s) (r_prefixed s) (r_suffix s)
         (mk_xl (x_rpn_v c || has hf HDR_IAR_RPN) (x_rpn c)
                (x_ps_v c || has hf HDR_IAR_PAGE_SIZE) (x_ps c)
                (x_gps_v c || has hf HDR_IAR_GPAGE_SIZE) (x_gps c) (x_radix c))
         (mk_xl (x_rpn_v n || has hf HDR_IAR_RPN) rpn
                (x_ps_v n || has hf HDR_IAR_PAGE_SIZE) ps
                (x_gps_v n || has hf HDR_IAR_GPAGE_SIZE) gps rx)
         (r_lpid_present s || has flags3 F3_LPID) (u32 lpid)
         (r_pid_present s || has flags3 F3_PID) pid).

(* qtlib/qtreader.c:396-402 *)
Definition init_state : rstate :=
  mk_rs 0 0 (w64 - 1) false false false 0 zero_xl zero_xl false 0 false 0.

(* qtlib/qtreader.c:394-411 *)
Definition qtreader_initialize (b : list N) : res (rstate * list N) :=
  parse_header init_state b.

(* qtlib/qtreader.h:72-90 *)
Definition set_info (br tl : bool) (s : rstate) : rstate :=
  mk_rs (r_version s) (r_magic s) (r_next_addr s) br tl (r_prefixed s) (r_suffix s)
        (r_cur s) (r_nxt s) (r_lpid_present s) (r_lpid s) (r_pid_present s) (r_pid s).

(** ** Register state: qtlib/qtreader.c:583-642, qtrace_record.h:18-46 *)
Record regs := mk_regs {
  g_gprs_in : list (N * N); g_fprs_in : list (N * N); g_sprs_in : list (N * N);
  g_gprs_out : list (N * N); g_fprs_out : list (N * N); g_sprs_out : list (N * N);
  g_vmx_in : N; g_vsx_in : N; g_vmx_out : N; g_vsx_out : N
}.
Definition zero_regs : regs := mk_regs [] [] [] [] [] [] 0 0 0 0.

(** The C code stores the index before it reads the value, so the array bound
    is hit right after the index is read. *)
Fixpoint read_regs (n cap : nat) (getidx : P N) : P (list (N * N)) :=
  match n with
  | O => ret []
  | S n' =>
      i <- getidx ;;
      match cap with
      | O => fault FArray
      | S cap' =>
          v <- get64 ;;
          l <- read_regs n' cap' getidx ;;
          ret ((i, v) :: l)
      end
  end.

(** lines 613-614, 628-629: unchecked advance by 18 bytes per register.  If it
    passes the end of the buffer then every later GET fails and so does line
    635, hence the function returns false: the same as an immediate failure. *)
Definition do_parse_regs (version : N) : P regs :=
  let v7 := 0x7000000 <=? version in
  gi <- get8 ;; fi <- get8 ;; vmi <- get8 ;; vsi <- opt v7 get8 0 ;; si <- get8 ;;
  go <- get8 ;; fo <- get8 ;; vmo <- get8 ;; vso <- opt v7 get8 0 ;; so <- get8 ;;
  gin <- read_regs (N.to_nat gi) 32 get8 ;;
  fin <- read_regs (N.to_nat fi) 3 get8 ;;
  _ <- skip (N.to_nat (vmi * 18)) ;;
  _ <- skip (N.to_nat (vsi * 18)) ;;
  sin <- read_regs (N.to_nat si) 4 get16 ;;
  gout <- read_regs (N.to_nat go) 32 get8 ;;
  fout <- read_regs (N.to_nat fo) 3 get8 ;;
  _ <- skip (N.to_nat (vmo * 18)) ;;
  _ <- skip (N.to_nat (vso * 18)) ;;
  sout <- read_regs (N.to_nat so) 4 get16 ;;
  ret (mk_regs gin fin sin gout fout sout vmi vsi vmo vso).

(** ** Annotations *)
(* qtlib/qtrace_record.h:8-16 *)
Inductive btype := BRANCH | CALL | RETURN | ADDRESSING | SYSTEM_CALL_EXCEPTION
                 | ASYNC_EXCEPTION | EXCEPTION_RETURN.

(* qtlib/qtreader.c:416-421 *)
Definition LINK (insn : N) : N := N.land insn 1.
Definition AA (insn : N) : N := N.land (N.shiftr insn 1) 1.
Definition BH (insn : N) : N := N.land (N.shiftr insn 11) 3.
Definition BI (insn : N) : N := N.land (N.shiftr insn 16) 0x1f.
Definition BD (insn : N) : N := N.land (N.shiftr insn 2) 0x3fff.

Definition assert_ {A} (c : bool) (a : A) : res A := if c then ROk a else RFault FAssert.

(* qtlib/qtreader.c:423-505: result is (branch_direct, branch_type) *)
Definition annotate_branch (insn : N) (cond : bool) : res (bool * btype) :=
  let opcode := OPCODE insn in
  if ((opcode =? 16) && (AA insn =? 0) && (LINK insn =? 1))
     && ((BO insn =? 20) && (BI insn =? 31) && (BD insn =? 1))
  then assert_ (negb cond) (true, ADDRESSING)
  else
    let bt := if LINK insn =? 0 then BRANCH else CALL in
    if opcode =? 18 then assert_ (negb cond) (true, bt)
    else if opcode =? 16 then assert_ cond (true, bt)
    else if (opcode =? 17) || (opcode =? 18) then ROk (true, SYSTEM_CALL_EXCEPTION)
    else if opcode =? 19 then
      let sub := SUB_OPCODE insn in
      if sub =? 16 then
        assert_ (Bool.eqb (branch_conditional_is_conditional insn) cond)
                (true, if BH insn =? 0 then RETURN else bt)
      else if (sub =? 528) || (sub =? 560) then
        assert_ (Bool.eqb (branch_conditional_is_conditional insn) cond) (false, bt)
      else if (sub =? 50) || (sub =? 18) || (sub =? 274) || (sub =? 82) then
        ROk (true, EXCEPTION_RETURN)
      else ROk (true, ASYNC_EXCEPTION)
    else ROk (true, ASYNC_EXCEPTION).

(* qtlib/qtrace_record.h:101-111 *)
Record tlbie := mk_tlbie {
  t_tlbie : bool; t_local : bool; t_ric : N; t_prs : N; t_r : N; t_is : N;
  t_set : N; t_page_shift : N; t_addr : N; t_lpid : N; t_pid : N
}.
Definition zero_tlbie : tlbie := mk_tlbie false false 0 0 0 0 0 0 0 0 0.

(* qtlib/qtreader.c:507-513 *)
Definition RIC (insn : N) : N := N.land (N.shiftr insn 18) 3.
Definition PRS (insn : N) : N := N.land (N.shiftr insn 17) 1.
Definition R_ (insn : N) : N := N.land (N.shiftr insn 16) 1.
Definition IS_ (rb : N) : N := N.land (N.shiftr rb 10) 3.
Definition AP (rb : N) : N := N.land (N.shiftr rb 5) 7.
Definition EPN (rb : N) : N := N.land (N.shiftr rb 12) 0x7ffffffffffff.
Definition SET (rb : N) : N := N.land (N.shiftr rb 12) 0xfff.

(* qtlib/qtreader.c:515-581.  gprs_out[0], [1] exist when nr_gprs_out = 2. *)
Definition annotate_tlbie (lpid : N) (insn : N) (g : regs) : res tlbie :=
  let opcode := OPCODE insn in
  let sub := SUB_OPCODE insn in
  if negb (opcode =? 31) then ROk zero_tlbie
  else if negb (sub =? 274) && negb (sub =? 306) then ROk zero_tlbie
  else
    let local := sub =? 274 in
    match g_gprs_out g with
    | [(_, rb); (_, rs)] =>
        let is := IS_ rb in
        if negb (R_ insn =? 1) then RErr
        else
          let fin (ps addr : N) : res tlbie :=
            ROk (mk_tlbie true local (RIC insn) (PRS insn) (R_ insn) is
                   (if local && negb (is =? 0) then SET rb else 0)
                   ps addr
                   (if local then lpid else N.land rs 0xffffffff)
                   (u32 (N.shiftr rs 32))) in
          if is =? 0 then
            let ap := AP rb in
            let addr := u64 (N.shiftl (EPN rb) 12) in
            if ap =? 0 then fin 12 addr
            else if ap =? 5 then fin 16 addr
            else if ap =? 1 then fin 21 addr
            else if ap =? 2 then fin 30 addr
            else RErr
          else fin 0 0
    | _ => RErr
    end.

(** ** Records: qtlib/qtreader.c:644-947 *)
(** Reader output: the writer's fields plus those of qtrace_record.h:95-120. *)
Record rrec := mk_rrec {
  o_q : qrec;
  o_taken : bool;
  o_direct : bool;
  o_btype : btype;
  o_regs : regs;
  o_tlbie : tlbie;
  o_node_valid : bool;
  o_node : N;
  o_term_code : N;
  o_term_node : N;
  o_next_addr : N
}.

(** line 656 *)
Definition peek32 (slack b : list N) : option N :=
  let m := firstn 4 (b ++ slack) in
  if Nat.eqb (length m) 4 then Some (be_val m) else None.

(** lines 656-659 *)
Fixpoint skip_headers (fuel : nat) (slack : list N) (s : rstate) (b : list N)
  : res (rstate * list N) :=
  match peek32 slack b with
  | None => RFault FPeek
  | Some v =>
      if (v =? 0) && negb (r_prefixed s) then
        match fuel with
        | O => RFault FFuel
        | S fuel' =>
            match parse_header s b with
            | ROk (s', b') => skip_headers fuel' slack s' b'
            | RErr => RErr
            | RFault f => RFault f
            end
        end
      else ROk (s, b)
  end.

(** lines 663-697: pending translation data become current *)
Definition promote (c n : xl) : xl :=
  mk_xl (x_rpn_v c || x_rpn_v n) (if x_rpn_v n then x_rpn n else x_rpn c)
        (x_ps_v c || x_ps_v n) (if x_ps_v n then x_ps n else x_ps c)
        (x_gps_v c || x_gps_v n) (if x_gps_v n then x_gps n else x_gps c)
        (if rx_nr_ptes (x_radix n) =? 0 then x_radix c else x_radix n).

(** lines 706-718, 905-921: real address from page number and address.
    [None]: shift count out of range. *)
Definition real_addr (rpn : N) (ps_v : bool) (ps ea : N) : option N :=
  let s := if ps_v then u8 ps else 16 in
  if s <? 64 then
    Some (N.lor (u64 (N.shiftl rpn s)) (N.land ea (N.shiftl 1 s - 1)))
  else None.
Definition ra_res (valid : bool) (rpn : N) (ps_v : bool) (ps ea : N) : P N :=
  if valid then
    match real_addr rpn ps_v ps ea with Some v => ret v | None => fault FShift end
  else ret 0.

(** lines 765-782: (term_node, term_code, conditional) *)
Definition parse_term : P (N * N * bool) :=
  tn <- get8 ;;
  tc <- get8 ;;
  if (tc =? T_MAX_INST_DEPTH) || (tc =? T_MAX_BRANCH_DEPTH) then ret (tn, tc, true)
  else if (tc =? T_UNCONDITIONAL) || (tc =? T_EXCEPTION) then ret (tn, tc, false)
  else err.

Definition lift {A} (r : res A) : P A :=
  fun b => match r with ROk a => ROk (a, b) | RErr => RErr | RFault f => RFault f end.

(** lines 661-933: one record, after the headers were skipped and before the
    optional annotations *)
Definition parse_core (s : rstate) : P (rrec * rstate) :=
  let addr := r_next_addr s in
  let c := promote (r_cur s) (r_nxt s) in
  let n := r_nxt s in
  ra <- ra_res (x_rpn_v c) (x_rpn c) (x_ps_v c) (x_ps c) addr ;;
  insn <- get32 ;;
  flags <- get16 ;;
  flags2 <- opt (has flags F_EXT) get16 0 ;;
  flags3 <- opt (has flags F_EXT && has flags2 F2_EXT2) get16 0 ;;
  _ <- guard (N.land flags UNHANDLED_FLAGS =? 0) ;;
  _ <- guard (N.land flags2 UNHANDLED_FLAGS2 =? 0) ;;
  node <- opt (has flags F_NODE) get8 0 ;;
  tm <- opt (has flags F_TERMINATION) parse_term (0, 0, false) ;;
  _ <- opt (has flags F_PROCESSOR) get8 0 ;;
  daddr <- opt (has flags F_DATA_ADDRESS) get64 0 ;;
  _ <- opt (has flags F_DATA_VSID) (skip 7) tt ;;
  drx <- opt (has flags F_DATA_RPN && has flags2 F2_EXT2)
             (parse_walk (mode flags3 SH_HOST_DATA) (mode flags3 SH_GUEST_DATA) true zero_radix)
             zero_radix ;;
  drpn <- opt (has flags F_DATA_RPN) get32 0 ;;
  next <- opt (has flags F_IAR) get64 (add64 addr 4) ;;
  let term := has flags F_TERMINATION in
  let taken := term && negb (next =? add64 addr 4) in
  let branch := term || is_conditional_branch insn in
  let cond := if term then snd tm && negb (is_unconditional_branch insn)
              else is_conditional_branch insn in
  _ <- opt (has flags F_IAR_VSID) (skip 7) tt ;;
  rx <- opt (has flags F_IAR_RPN && has flags2 F2_EXT2)
            (parse_walk (mode flags3 SH_HOST_INSN) (mode flags3 SH_GUEST_INSN) false
                        (x_radix n))
            (x_radix n) ;;
  rpn <- opt (has flags F_IAR_RPN) get32 (x_rpn n) ;;
  rg <- opt (has flags F_REGISTER_TRACE) (do_parse_regs (r_version s)) zero_regs ;;
  srpn <- opt (has flags2 F2_SEQ_RPN) get32 0 ;;
  _ <- opt (has flags2 F2_ERROR_CODE) get8 0 ;;
  sps <- opt (has flags2 F2_SEQ_PAGE_SIZE) get8 (x_ps n) ;;
  ps <- opt (has flags2 F2_IAR_PAGE_SIZE) get8 sps ;;
  dps <- opt (has flags2 F2_DATA_PAGE_SIZE) get8 0 ;;
  dra <- ra_res (has flags F_DATA_RPN) drpn (has flags2 F2_DATA_PAGE_SIZE) dps
                (if has flags F_DATA_ADDRESS then daddr else 0) ;;
  gps <- opt (has flags2 F2_INSN_GPAGE_SIZE) get8 (x_gps n) ;;
  dgps <- opt (has flags2 F2_DATA_GPAGE_SIZE) get8 0 ;;
  ret (mk_rrec
         (mk_qrec insn addr (x_rpn_v c) ra
            (x_ps_v c) (if x_ps_v c then x_ps c else 0)
            (has flags F_DATA_ADDRESS) daddr
            (has flags F_DATA_RPN) dra
            (has flags2 F2_DATA_PAGE_SIZE) dps
            branch cond
            (x_gps_v c) (if x_gps_v c then x_gps c else 0)
            (has flags2 F2_DATA_GPAGE_SIZE) dgps
            (if rx_nr_ptes (x_radix c) =? 0 then zero_radix else x_radix c)
            drx)
         taken false BRANCH rg zero_tlbie
         (has flags F_NODE) node (snd (fst tm)) (fst (fst tm)) next,
       mk_rs (r_version s) (r_magic s) next (r_branch_info s) (r_tlbie_info s)
             (OPCODE insn =? 1)
             (if r_prefixed s then insn else r_suffix s)
             c
             (mk_xl (has flags F_IAR_RPN || has flags2 F2_SEQ_RPN)
                    (if has flags F_IAR_RPN then rpn
                     else if has flags2 F2_SEQ_RPN then srpn else rpn)
                    (has flags2 F2_IAR_PAGE_SIZE) ps
                    (has flags2 F2_INSN_GPAGE_SIZE) gps rx)
             (r_lpid_present s) (r_lpid s) (r_pid_present s) (r_pid s)).

(** lines 935-941 *)
Definition annotate (s : rstate) (r : rrec) : res rrec :=
  match (if q_branch (o_q r) && r_branch_info s
         then annotate_branch (q_insn (o_q r)) (q_cond (o_q r))
         else ROk (o_direct r, o_btype r)) with
  | ROk (d, bt) =>
      match (if r_tlbie_info s
             then annotate_tlbie (r_lpid s) (q_insn (o_q r)) (o_regs r)
             else ROk (o_tlbie r)) with
      | ROk tl => ROk (mk_rrec (o_q r) (o_taken r) d bt (o_regs r) tl (o_node_valid r)
                               (o_node r) (o_term_code r) (o_term_node r) (o_next_addr r))
      | RErr => RErr
      | RFault f => RFault f
      end
  | RErr => RErr
  | RFault f => RFault f
  end.

Definition parse_record (s : rstate) : P (rrec * rstate) :=
  x <- parse_core s ;;
  r <- lift (annotate s (fst x)) ;;
  ret (r, snd x).

(* qtlib/qtreader.c:644-947.  [slack]: the readable bytes behind the buffer. *)
Definition qtreader_next_record (slack : list N) (s : rstate) (b : list N)
  : res ((rrec * rstate) * list N) :=
  match skip_headers (S (length b)) slack s b with
  | ROk (s', b') => parse_record s' b'
  | RErr => RErr
  | RFault f => RFault f
  end.

(** ** The application loop: while (qtreader_next_record(...)) ... *)
Inductive rend := EndFalse | EndFault (f : rfault).

Fixpoint read_loop (fuel : nat) (slack : list N) (s : rstate) (b : list N)
  : list rrec * rend :=
  match fuel with
  | O => ([], EndFault FFuel)
  | S fuel' =>
      match qtreader_next_record slack s b with
      | ROk ((r, s'), b') =>
          let (l, e) := read_loop fuel' slack s' b' in (r :: l, e)
      | RErr => ([], EndFalse)
      | RFault f => ([], EndFault f)
      end
  end.

(** Open a trace, select annotations, read until false. *)
Definition read_trace (br tl : bool) (slack b : list N) : list rrec * rend :=
  match qtreader_initialize b with
  | ROk (s, b') => read_loop (S (length b')) slack (set_info br tl s) b'
  | RErr => ([], EndFalse)
  | RFault f => ([], EndFault f)
  end.
