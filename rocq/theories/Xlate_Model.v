(** Model of htm/xlate.c and of the partial walk list of htm/pwc.c. *)
Require Import NArith ZArith List Bool.
Require Import Verif.Word Verif.Codec_Types Verif.Pwc_Model.
Import ListNotations.
Local Open Scope N_scope.

(* htm/htm_types.h:99-107; final_record is not used by the modelled code *)
Record walk := mk_walk {
  wk_final : bool; wk_exception : bool; wk_guest : bool; wk_host : bool;
  wk_level : N; wk_ra : N }.
Definition zero_walk : walk := mk_walk false false false false 0 0.
(* htm/htm_types.h:110-116: [x_walks] is the array of 38 entries *)
Record xlate := mk_xlate {
  x_dside : bool; x_lpid : N; x_pid : N; x_nwalks : nat; x_walks : list walk }.
Definition NWALKS : nat := 38.
(* htm/htm_types.h:87-97, the two fields used here *)
Record msr := mk_msr { m_hv : bool; m_pr : bool }.

Inductive xerr :=
| XAssert   (** assert() fails in xlate.c or pwc.c's list functions *)
| XCache    (** assert(0) in a cache function: unknown level or page size *)
| XOob.     (** access outside walks[38] *)
Inductive xres (A : Type) := XOk (a : A) | XErr (e : xerr).
Arguments XOk {A} a. Arguments XErr {A} e.

(** A function of the decoder: it may change the caches and advance the
    parser; [None] is the return value -1. *)
Record pst := mk_pst { ps_pwc : pwc; ps_i : nat }.
Definition X (A : Type) := pst -> xres (pst * option A).
Definition ret {A} (a : A) : X A := fun s => XOk (s, Some a).
Definition fail {A} : X A := fun s => XOk (s, None).
Definition bind {A B} (m : X A) (k : A -> X B) : X B :=
  fun s => match m s with
           | XErr e => XErr e
           | XOk (s', None) => XOk (s', None)
           | XOk (s', Some a) => k a s'
           end.
(** A call whose return value is ignored. *)
Definition ignore {A} (m : X A) : X unit :=
  fun s => match m s with
           | XErr e => XErr e
           | XOk (s', _) => XOk (s', Some tt)
           end.
Notation "x <- p ;; k" := (bind p (fun x => k)) (at level 61, p at next level, right associativity).

(** Cache calls. *)
Definition c_insert (level : N) (addr : xaddr) (real : N) (leaf : bool) : X unit :=
  fun s => match pwc_insert (ps_pwc s) level addr real leaf with
           | None => XErr XCache
           | Some p => XOk (mk_pst p (ps_i s), Some tt)
           end.
Definition c_get (level : N) (addr : xaddr) : X (option (N * N)) :=
  fun s => match pwc_get (ps_pwc s) level addr with
           | None => XErr XCache
           | Some r => XOk (s, Some r)
           end.
Definition c_tlb_insert (level : N) (addr : xaddr) (real : N) : X unit :=
  fun s => match pwc_tlb_insert (ps_pwc s) level addr real with
           | None => XErr XCache
           | Some p => XOk (mk_pst p (ps_i s), Some tt)
           end.
Definition c_tlb_get (level : N) (addr : xaddr) : X (option N) :=
  fun s => match pwc_tlb_get (ps_pwc s) level addr with
           | None => XErr XCache
           | Some r => XOk (s, Some r)
           end.
Definition c_rev_insert (level : N) (addr : xaddr) (real : N) : X unit :=
  fun s => match pwc_reverse_insert (ps_pwc s) level addr real with
           | None => XErr XCache
           | Some p => XOk (mk_pst p (ps_i s), Some tt)
           end.
Definition c_rev_get (level : N) (addr : xaddr) : X (option N) :=
  fun s => match pwc_reverse_get (ps_pwc s) level addr with
           | None => XErr XCache
           | Some r => XOk (s, Some r)
           end.

(* htm/xlate.h:41-47 *)
Definition PTE_LEVEL_1 : N := 6.
Definition PTE_LEVEL_2 : N := 4.
Definition PTE_LEVEL_3 : N := 2.
Definition PTE_LEVEL_4 : N := 0.
Definition HTM_FINAL_64K : N := 1.
Definition HTM_FINAL_4K : N := 0.
(* htm/xlate.c:44-75 *)
Definition host_page_sizes : list N := [30; 21; 16; 12].
Definition levels : list N := [PTE_LEVEL_4; PTE_LEVEL_3; PTE_LEVEL_2; PTE_LEVEL_1].
Definition htm_level (type : N) : N :=
  if type =? XLATE_PGD then PTE_LEVEL_1 else if type =? XLATE_PUD then PTE_LEVEL_2
  else if type =? XLATE_PMD then PTE_LEVEL_3 else PTE_LEVEL_4.
Definition subtypes (type : N) : list N :=
  if type =? XLATE_PTE then [XLATE_4K_PTE; XLATE_64K_PTE] else [type].
Definition pagesize_of (subtype : N) : N :=
  if subtype =? XLATE_PGD then 40 else if subtype =? XLATE_PUD then 30
  else if subtype =? XLATE_PMD then 21 else if subtype =? XLATE_4K_PTE then 12
  else if subtype =? XLATE_64K_PTE then 16 else 0.

(* htm/xlate.c:103-121 *)
Definition X_FINAL_RA : N := 0x110.
Definition X_NO_FINAL_RA : N := 0x100.
Definition X_GUEST_PTE : N := 0x220.
Definition X_NO_GUEST_PTE : N := 0x200.
Definition X_HOST_RA : N := 0x440.
Definition X_NO_HOST_RA : N := 0x400.
Definition X_LEVEL (x : N) : N := N.lor 0x80 x.
Definition X_ENABLED (x : N) : N := N.land x 0xf00.
Definition X_VALUE (x : N) : N := N.land x 0x0f0.
Definition lor3 (a b c : N) : N := N.lor (N.lor a b) c.
Definition PROCESS_PTE : N := lor3 X_NO_HOST_RA X_GUEST_PTE X_NO_FINAL_RA.
Definition NESTED_PTE : N := lor3 X_HOST_RA X_GUEST_PTE X_NO_FINAL_RA.
Definition PARTITION_PTE : N := lor3 X_HOST_RA X_NO_GUEST_PTE X_NO_FINAL_RA.
Definition NESTED_RA_ADDR : N := lor3 X_HOST_RA X_FINAL_RA X_GUEST_PTE.
Definition PROCESS_RA_ADDR : N := lor3 X_NO_HOST_RA X_FINAL_RA X_GUEST_PTE.

(* htm/xlate.c:123-140 *)
Definition check_walk (w : walk) (flags : N) : bool :=
  let bad f v := has (X_ENABLED flags) f && negb (Bool.eqb (has (X_VALUE flags) f) v) in
  negb (bad X_FINAL_RA (wk_final w)) && negb (bad X_GUEST_PTE (wk_guest w))
  && negb (bad X_HOST_RA (wk_host w))
  && negb (has flags 0x80 && negb (N.land flags 0x0f =? wk_level w)).

Section PARSER.
  (** The parser's xlate (never a null pointer in the modelled callers). *)
  Variable x : xlate.

  (* htm/xlate.c:169-186 *)
  Definition peek (flags : N) : X (option walk) :=
    fun s => if (x_nwalks x <=? ps_i s)%nat then XOk (s, Some None)
             else match nth_error (x_walks x) (ps_i s) with
                  | None => XErr XOob
                  | Some w => XOk (s, Some (if check_walk w flags then Some w else None))
                  end.
  (* htm/xlate.c:146-164 *)
  Definition take (flags : N) : X (option walk) :=
    fun s => match peek flags s with
             | XOk (s', Some (Some w)) => XOk (mk_pst (ps_pwc s') (S (ps_i s')), Some (Some w))
             | r => r
             end.
  (* htm/xlate.c:191-213 *)
  Fixpoint scan_from (n i : nat) (flags : N) : xres bool :=
    match n with
    | O => XOk false
    | S n' =>
        match nth_error (x_walks x) i with
        | None => XErr XOob
        | Some w => if check_walk w flags then XOk true else scan_from n' (S i) flags
        end
    end.
  Definition scan (flags : N) : X bool :=
    fun s => match scan_from (x_nwalks x - ps_i s) (ps_i s) flags with
             | XErr e => XErr e
             | XOk b => XOk (s, Some b)
             end.

  (* htm/xlate.c:231-250 *)
  Definition partition_is_leaf (level : N) : X bool :=
    w <- peek X_GUEST_PTE ;;
    match w with
    | Some _ => if level <? PTE_LEVEL_1 then ret true else fail
    | None =>
        w2 <- peek X_FINAL_RA ;;
        match w2 with
        | Some _ => if level <? PTE_LEVEL_1 then ret true else fail
        | None => ret false
        end
    end.
  (* htm/xlate.c:256-276 *)
  Fixpoint process_is_leaf_from (ls : list N) (level : N) : X bool :=
    match ls with
    | [] => if level <? PTE_LEVEL_2 then ret true else fail
    | l :: ls' =>
        if l =? level then (if level <? PTE_LEVEL_2 then ret true else fail)
        else
          b <- scan (N.lor (N.lor X_NO_FINAL_RA X_GUEST_PTE) (X_LEVEL l)) ;;
          if b then ret false else process_is_leaf_from ls' level
    end.
  Definition process_is_leaf (level : N) : X bool := process_is_leaf_from levels level.

  (* htm/xlate.c:284-314, the flag selects the function; callers of the first pass final = 1 *)
  Definition pte_subtype (flag : N) : X N :=
    b <- scan (N.lor flag (X_LEVEL HTM_FINAL_4K)) ;;
    if b then ret XLATE_4K_PTE
    else
      b2 <- scan (N.lor flag (X_LEVEL HTM_FINAL_64K)) ;;
      if b2 then ret XLATE_64K_PTE else fail.
  (* htm/xlate.c:318-326 *)
  Definition partition_subtype (type : N) : X N :=
    if type =? XLATE_PTE then pte_subtype NESTED_RA_ADDR else ret type.
  (* htm/xlate.c:328-336 *)
  Definition process_subtype (type : N) : X N :=
    if type =? XLATE_PTE then pte_subtype PROCESS_RA_ADDR else ret type.

  (* htm/xlate.h:26-30 *)
  Record pte := mk_pte { pte_address : N; pte_size : N; pte_leaf : bool }.

  (* htm/xlate.c:407-414, 461-468: label out *)
  Definition pte_out (subtype : N) (addr : xaddr) : X pte :=
    r <- c_get subtype addr ;;
    match r with
    | None => fail
    | Some (ra, flags) => ret (mk_pte ra (pagesize_of subtype) (has flags PWC_LEAF))
    end.

  (* htm/xlate.c:362-383: the loop; [Some t] is "goto out" *)
  Fixpoint process_cached (types : list N) (level : N) (addr : xaddr) : X (option N) :=
    match types with
    | [] => ret None
    | t :: ts =>
        r <- c_get t addr ;;
        match r with
        | None => process_cached ts level addr
        | Some (ra, flags) =>
            if has flags (N.lor PWC_LEAF PWC_NOT_LEAF) then ret (Some t)
            else
              w <- peek (N.lor NESTED_PTE (X_LEVEL level)) ;;
              match w with
              | Some _ =>
                  leaf <- process_is_leaf level ;;
                  _ <- c_insert t addr ra leaf ;;
                  ret (Some t)
              | None => process_cached ts level addr
              end
        end
    end.
  (* htm/xlate.c:389-404: the loop; the subtype after it *)
  Fixpoint process_reverse (sizes : list N) (type level : N) (addr : xaddr) (w : walk)
    (subtype : N) : X N :=
    match sizes with
    | [] => ret subtype
    | sz :: szs =>
        r <- c_rev_get sz (mk_xaddr (xa_msr addr) (xa_lpid addr) 0 (wk_ra w)) ;;
        match r with
        | None => process_reverse szs type level addr w subtype
        | Some pra =>
            leaf <- process_is_leaf level ;;
            st <- process_subtype type ;;
            _ <- c_insert st addr pra leaf ;;
            ret st
        end
    end.
  (* htm/xlate.c:338-415 *)
  Definition decode_process_pte (type : N) (addr : xaddr) : X pte :=
    let level := htm_level type in
    w <- take (N.lor PROCESS_PTE (X_LEVEL level)) ;;
    match w with
    | Some w =>
        leaf <- process_is_leaf level ;;
        st <- process_subtype type ;;
        _ <- c_insert st addr (wk_ra w) leaf ;;
        pte_out st addr
    | None =>
        c <- process_cached (subtypes type) level addr ;;
        match c with
        | Some st => pte_out st addr
        | None =>
            let st := last (subtypes type) type in
            w2 <- peek (N.lor NESTED_PTE (X_LEVEL level)) ;;
            match w2 with
            | Some w2 =>
                st' <- process_reverse host_page_sizes type level addr w2 st ;;
                pte_out st' addr
            | None => pte_out st addr
            end
        end
    end.

  (* htm/xlate.c:441-459: the loop *)
  Fixpoint partition_cached (types : list N) (level : N) (addr : xaddr) : X N :=
    match types with
    | [] => fail
    | t :: ts =>
        r <- c_get t addr ;;
        match r with
        | None => partition_cached ts level addr
        | Some (ra, flags) =>
            if has flags (N.lor PWC_LEAF PWC_NOT_LEAF) then ret t
            else
              leaf <- partition_is_leaf level ;;
              _ <- c_insert t addr ra leaf ;;
              ret t
        end
    end.
  (* htm/xlate.c:417-469 *)
  Definition decode_partition_pte (type : N) (addr : xaddr) : X pte :=
    let level := htm_level type in
    w <- take (N.lor PARTITION_PTE (X_LEVEL level)) ;;
    match w with
    | Some w =>
        leaf <- partition_is_leaf level ;;
        st <- partition_subtype type ;;
        _ <- c_insert st addr (wk_ra w) leaf ;;
        pte_out st addr
    | None =>
        st <- partition_cached (subtypes type) level addr ;;
        pte_out st addr
    end.

  (* htm/xlate.c:499-518 *)
  Definition partition_real_addr (flag : N) (addr : xaddr) (page_size : N) : X N :=
    w <- take flag ;;
    match w with
    | Some w => _ <- c_tlb_insert page_size addr (wk_ra w) ;; ret (wk_ra w)
    | None =>
        r <- c_tlb_get page_size addr ;;
        match r with Some ra => ret ra | None => fail end
    end.

  (* htm/xlate.c:521-578: real address, the host_ptes written, page size;
     the number of PTEs is the length of the list *)
  Definition partition_translate (flag : N) (addr : xaddr) : X (N * list N * N) :=
    let final ptes size :=
      ra <- partition_real_addr flag addr size ;;
      _ <- c_rev_insert size (mk_xaddr 0 (xa_lpid addr) 0 ra) (xa_address addr) ;;
      ret (ra, ptes, size) in
    p1 <- decode_partition_pte XLATE_PGD addr ;;
    p2 <- decode_partition_pte XLATE_PUD addr ;;
    if pte_leaf p2 then final [pte_address p1; pte_address p2] (pte_size p2)
    else
      p3 <- decode_partition_pte XLATE_PMD addr ;;
      if pte_leaf p3 then final [pte_address p1; pte_address p2; pte_address p3] (pte_size p3)
      else
        p4 <- decode_partition_pte XLATE_PTE addr ;;
        final [pte_address p1; pte_address p2; pte_address p3; pte_address p4] (pte_size p4).

  (* htm/xlate.c:215-225 *)
  Definition process_real (lpid address : N) : xaddr := mk_xaddr MSR_HV lpid 0 address.
  (* htm/xlate.c:580-653: the nested walks differ in the flag only *)
  Definition nested (flag : N) (addr : xaddr) : X (N * list N * N) :=
    partition_translate flag addr.
  (* htm/xlate.c:685-703 *)
  Definition process_real_addr (addr : xaddr) (size : N) : X N :=
    w <- take (lor3 X_NO_HOST_RA X_GUEST_PTE X_FINAL_RA) ;;
    match w with
    | Some w => _ <- c_tlb_insert size addr (wk_ra w) ;; ret (wk_ra w)
    | None => fail
    end.

  Definition pad (n : nat) (l : list N) : list N := l ++ repeat 0 (n - length l).
  Definition max_len (rows : list (list N)) : N :=
    fold_left (fun m r => N.max m (N.of_nat (length r))) rows 0.
  Definition pad_rows (rows : list (list N)) : list (list N) :=
    map (pad NR_RADIX_PTES) rows ++ repeat (repeat 0 NR_RADIX_PTES) (MAX_RADIX_WALKS - length rows).

  (* htm/xlate.c:705-818: record, host real address, host and guest page shift.
     The record was cleared by the caller. *)
  Definition decode_nested_radix (addr : xaddr) : X (radix * N * N * N) :=
    let nest lvl a := nested (N.lor NESTED_PTE (X_LEVEL lvl)) (process_real (xa_lpid addr) a) in
    _ <- take (lor3 X_HOST_RA X_NO_GUEST_PTE (X_LEVEL 7)) ;;
    w <- take (N.lor X_GUEST_PTE (X_LEVEL 7)) ;;
    _ <- match w with
         | Some w => ignore (nest 7 (wk_ra w))
         | None => ret tt
         end ;;
    g0 <- decode_process_pte XLATE_PGD addr ;;
    h0 <- nest PTE_LEVEL_1 (pte_address g0) ;;
    g1 <- decode_process_pte XLATE_PUD addr ;;
    h1 <- nest PTE_LEVEL_2 (pte_address g1) ;;
    g2 <- decode_process_pte XLATE_PMD addr ;;
    h2 <- nest PTE_LEVEL_3 (pte_address g2) ;;
    let '(r0, l0, _) := h0 in let '(r1, l1, _) := h1 in let '(r2, l2, _) := h2 in
    let final a := nested (lor3 X_HOST_RA X_GUEST_PTE X_FINAL_RA) (process_real (xa_lpid addr) a) in
    if pte_leaf g2 then
      a3 <- process_real_addr addr (pte_size g2) ;;
      h3 <- final a3 ;;
      let '(ra, l3, hsize) := h3 in
      let rows := [l0; l1; l2; l3] in
      ret (mk_radix UNSPECIFIED (max_len rows) 4 (pad_rows rows) (pad 4 [r0; r1; r2])
             (pad 5 [pte_address g0; pte_address g1; pte_address g2; a3]),
           ra, hsize, pte_size g2)
    else
      g3 <- decode_process_pte XLATE_PTE addr ;;
      h3 <- nest PTE_LEVEL_4 (pte_address g3) ;;
      a4 <- process_real_addr addr (pte_size g3) ;;
      h4 <- final a4 ;;
      let '(r3, l3, _) := h3 in
      let '(ra, l4, hsize) := h4 in
      let rows := [l0; l1; l2; l3; l4] in
      ret (mk_radix UNSPECIFIED (max_len rows) 5 (pad_rows rows) [r0; r1; r2; r3]
             [pte_address g0; pte_address g1; pte_address g2; pte_address g3; a4],
           ra, hsize, pte_size g3).

  (* htm/xlate.c:820-841 *)
  Definition decode_guest_real (addr : xaddr) : X (radix * N) :=
    h <- partition_translate X_HOST_RA addr ;;
    let '(_, l, size) := h in
    ret (mk_radix GUEST_REAL (N.of_nat (length l)) 1 (pad_rows [l]) (repeat 0 4) (repeat 0 5), size).
End PARSER.

(** ** Partial walks, htm/pwc.c *)
(* htm/pwc.c:575-593 *)
Definition xlate_match (a b : xlate) : bool :=
  match x_walks b with
  | [] => false          (* the array has 38 entries *)
  | w0 :: _ =>
      (x_lpid a =? x_lpid b) && (x_pid a =? x_pid b)
      && existsb (fun w => wk_ra w0 =? wk_ra w) (firstn (x_nwalks a) (x_walks a))
  end.
(* htm/pwc.c:546-558: number of old walks kept *)
Fixpoint kept (needle : N) (ws : list walk) : nat :=
  match ws with
  | [] => O
  | w :: ws' => if (wk_ra w =? needle) || wk_exception w then O else S (kept needle ws')
  end.
(* htm/pwc.c:532-570 *)
Definition xlate_merge (old new : xlate) : xres xlate :=
  if negb ((x_lpid old =? x_lpid new) && (x_pid old =? x_pid new)) then XErr XAssert
  else
    let ow := firstn (x_nwalks old) (x_walks old) in
    let nw := firstn (x_nwalks new) (x_walks new) in
    let i := kept (wk_ra (hd zero_walk (x_walks new))) ow in
    if (i =? x_nwalks old)%nat then XErr XAssert
    else if (NWALKS <? i + x_nwalks new)%nat then XErr XOob
    else XOk (mk_xlate (x_dside old) (x_lpid old) (x_pid old) (i + x_nwalks new)
                (firstn i ow ++ nw ++ repeat zero_walk (NWALKS - (i + x_nwalks new)))).
(* htm/pwc.c:617-638 *)
Fixpoint partial_insert (l : list xlate) (x : xlate) : xres (list xlate) :=
  match l with
  | [] => XOk [x]
  | n :: l' =>
      if xlate_match n x then
        match xlate_merge n x with XErr e => XErr e | XOk m => XOk (m :: l') end
      else match partial_insert l' x with XErr e => XErr e | XOk l'' => XOk (n :: l'') end
  end.
(* htm/pwc.c:645-660 *)
Fixpoint partial_lookup (l : list xlate) (x : xlate) : xres (option xlate * list xlate) :=
  match l with
  | [] => XOk (None, [])
  | n :: l' =>
      if xlate_match n x then
        match xlate_merge n x with XErr e => XErr e | XOk m => XOk (Some m, l') end
      else match partial_lookup l' x with XErr e => XErr e | XOk (r, l'') => XOk (r, n :: l'') end
  end.
(* htm/pwc.c:666-684 *)
Definition match_address (x : xlate) (address real : N) : bool :=
  existsb (fun w => wk_final w &&
    ((negb (wk_host w) && (N.land address 0x3ffffffffffffff0 =? wk_ra w)) || (real =? wk_ra w)))
    (firstn (x_nwalks x) (x_walks x)).
(* htm/pwc.c:691-706 *)
Fixpoint address_lookup (l : list xlate) (address real : N) : option xlate * list xlate :=
  match l with
  | [] => (None, [])
  | n :: l' =>
      if match_address n address real then (Some n, l')
      else let '(r, l'') := address_lookup l' address real in (r, n :: l'')
  end.

(** ** Entry points *)
Record xst := mk_xst { xs_pwc : pwc; xs_erat : erat; xs_partial : list xlate }.
Definition xlate_init : xst := mk_xst pwc_init erat_init [].

(* htm/xlate.c:892-900 *)
Definition xlate_complete (x : xlate) : bool :=
  match x_nwalks x with
  | O => true
  | S n => let w := nth n (x_walks x) zero_walk in wk_final w && wk_host w
  end.
(* htm/xlate.c:902-912 *)
Definition xlate_fixup (x : xlate) (m : msr) (reloc : bool) (real : N) : xres xlate :=
  if negb (m_hv m) && reloc then
    match nth_error (x_walks x) (x_nwalks x) with
    | None => XErr XOob
    | Some w =>
        XOk (mk_xlate (x_dside x) (x_lpid x) (x_pid x) (S (x_nwalks x))
               (firstn (x_nwalks x) (x_walks x)
                ++ mk_walk true (wk_exception w) true true (wk_level w) real
                :: skipn (S (x_nwalks x)) (x_walks x)))
    end
  else XOk x.

(* htm/xlate.c:914-994.  When no partial walk matches, xlate_fixup also changes
   the caller's copy of the walk; that copy is not read again.  [None] is the
   result -1 (outputs cleared); otherwise record, host and guest page shift *)
Definition xlate_decode (st : xst) (x : xlate) (m : msr) (reloc : bool) (address real : N)
  : xres (xst * option (radix * N * N)) :=
  match partial_lookup (xs_partial st) x with
  | XErr e => XErr e
  | XOk (found, plist) =>
      let x1 := match found with Some y => y | None => x end in
      match (if xlate_complete x1 then XOk x1 else xlate_fixup x1 m reloc real) with
      | XErr e => XErr e
      | XOk x2 =>
          let addr := mk_xaddr 0 (x_lpid x2) (x_pid x2) address in
          let done p i e res :=
            XOk (mk_xst p e plist,
                 if (i =? x_nwalks x2)%nat then Some res else None) in
          if m_hv m && reloc then XErr XAssert
          else if negb (m_hv m) && reloc then
            match decode_nested_radix x2 addr (mk_pst (xs_pwc st) 0) with
            | XErr e => XErr e
            | XOk (s, None) => XOk (mk_xst (ps_pwc s) (xs_erat st) plist, None)
            | XOk (s, Some (rec, host_ra, hps, gps)) =>
                if N.land host_ra (N.lxor (2 ^ 12 - 1) (w64 - 1)) =? real then
                  match erat_insert (xs_erat st) hps address real rec gps with
                  | None => XErr XCache
                  | Some e => done (ps_pwc s) (ps_i s) e (rec, hps, gps)
                  end
                else XErr XAssert
            end
          else if m_hv m && negb reloc then
            done (xs_pwc st) O (xs_erat st) (zero_radix, 0, 0)
          else
            match decode_guest_real x2 addr (mk_pst (xs_pwc st) 0) with
            | XErr e => XErr e
            | XOk (s, None) => XOk (mk_xst (ps_pwc s) (xs_erat st) plist, None)
            | XOk (s, Some (rec, hps)) =>
                match erat_insert (xs_erat st) hps address real rec hps with
                | None => XErr XCache
                | Some e => done (ps_pwc s) (ps_i s) e (rec, hps, 0)
                end
            end
      end
  end.

(* htm/xlate.c:854-864, 870-876: first page size with an entry *)
Fixpoint erat_search (e : erat) (sizes : list N) (address real : N) : xres (option eara_val) :=
  match sizes with
  | [] => XOk None
  | s :: ss =>
      match erat_get e s address real with
      | None => XErr XCache
      | Some (Some v) => XOk (Some v)
      | Some None => erat_search e ss address real
      end
  end.
Definition set_nth (l : list N) (i : nat) (v : N) : list N := firstn i l ++ v :: skipn (S i) l.
(* htm/xlate.c:843-890.  In hypervisor state the outputs are zero and the
   result is 0. *)
Definition xlate_lookup (e : erat) (m : msr) (reloc : bool) (address real : N)
  : xres (option (radix * N * N)) :=
  if m_hv m then XOk (Some (zero_radix, 0, 0))
  else
    match erat_search e host_page_sizes address real with
    | XErr err => XErr err
    | XOk None => XOk None
    | XOk (Some v) =>
        let rec := ev_rec v in
        if reloc then
          if rx_walks rec =? 0 then XErr XOob
          else
            let i := N.to_nat (rx_walks rec - 1) in
            match nth_error (rx_guest_real rec) i with
            | None => XErr XOob
            | Some g =>
                let low := sub64 (2 ^ ev_guest v mod w64) 1 in
                let g' := N.lor (N.land g (N.lxor low (w64 - 1))) (N.land address low) in
                XOk (Some (mk_radix (rx_type rec) (rx_nr_ptes rec) (rx_walks rec)
                             (rx_host_ptes rec) (rx_host_real rec)
                             (set_nth (rx_guest_real rec) i g'), ev_host v, ev_guest v))
            end
        else XOk (Some (rec, ev_host v, 0))
    end.
