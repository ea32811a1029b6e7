(** Model of htm/erat.c, htm/pwc.c and the address helpers of htm/xlate.h. *)
Require Import NArith ZArith List Bool.
Require Import Verif.Word Verif.Codec_Types.
Import ListNotations.
Local Open Scope N_scope.

(** ** Address helpers *)
(* htm/xlate.h:66-115 *)
Definition RA_MASK : N := 2 ^ 52 - 1.
Definition page_mask (shift : N) : N := N.lxor (2 ^ shift - 1) (w64 - 1).
Definition page_ra_mask (shift : N) : N := N.land (page_mask shift) RA_MASK.
Definition index_mask (bits : N) : N := N.land (2 ^ bits - 1) RA_MASK.
Definition PMD_SHIFT : N := 12 + 9.
Definition PUD_SHIFT : N := PMD_SHIFT + 9.
Definition PGD_SHIFT : N := PUD_SHIFT + 9.
(* htm/xlate.h:117-135 *)
Definition pte_address_4k (a : N) : N := N.land a (page_ra_mask 12).
Definition pte_address_64k (a : N) : N := N.land a (page_ra_mask 16).
Definition pte_address_2m (a : N) : N := N.land a (page_ra_mask PMD_SHIFT).
Definition pte_address_1g (a : N) : N := N.land a (page_ra_mask PUD_SHIFT).
(* htm/xlate.h:137-180 *)
Definition index (a shift bits : N) : N :=
  N.shiftl (N.land (N.shiftr a shift) (index_mask bits)) 3 mod w64.
Definition page_table_index_4k (a : N) : N := index a 12 9.
Definition page_table_index_64k (a : N) : N := index a 16 5.
Definition pmdp_address (a : N) : N := N.land a (page_ra_mask PMD_SHIFT).
Definition pmd_index (a : N) : N := index a PMD_SHIFT 9.
Definition pudp_address (a : N) : N := N.land a (page_ra_mask PUD_SHIFT).
Definition pud_index (a : N) : N := index a PUD_SHIFT 9.
Definition pgdp_address (a : N) : N := N.land a (page_ra_mask PGD_SHIFT).
Definition pgd_index (a : N) : N := index a PGD_SHIFT 13.
Definition pgd_address (_ : N) : N := 0.
(* htm/xlate.h:182-200 *)
Definition address_aligned_4k (a : N) : N := N.land a (page_mask 12).
Definition address_aligned_64k (a : N) : N := N.land a (page_mask 16).
Definition address_aligned_2m (a : N) : N := N.land a (page_mask PMD_SHIFT).
Definition address_aligned_1g (a : N) : N := N.land a (page_mask PUD_SHIFT).
(* htm/xlate.h:202-220 *)
Definition offset_mask (shift : N) : N := N.lxor (page_mask shift) (w64 - 1).
Definition page_offset_4k (a : N) : N := N.land a (offset_mask 12).
Definition page_offset_64k (a : N) : N := N.land a (offset_mask 16).
Definition page_offset_2m (a : N) : N := N.land a (offset_mask PMD_SHIFT).
Definition page_offset_1g (a : N) : N := N.land a (offset_mask PUD_SHIFT).

(** Failed assert, or the value. *)
Definition pres (A : Type) := option A.

(** ** Hash tables
    The ccan tables of this file are used as finite maps: at most one entry per
    key, found again by a lookup with an equal key.  They are association
    lists, newest first.  (The hash function reads the first 8 bytes of a key,
    which hold the level or page shift and four padding bytes; equal keys have
    equal hashes if the padding of the stack copy is zero, as it is in the
    calloc-ed copy.) *)
Fixpoint find_key {K V} (eqb : K -> K -> bool) (m : list (K * V)) (k : K) : option V :=
  match m with
  | [] => None
  | (k', v) :: m' => if eqb k' k then Some v else find_key eqb m' k
  end.
(** Change the value of the entry found by [find_key], in place. *)
Fixpoint update_key {K V} (eqb : K -> K -> bool) (m : list (K * V)) (k : K) (f : V -> V)
  : list (K * V) :=
  match m with
  | [] => []
  | (k', v) :: m' =>
      if eqb k' k then (k', f v) :: m' else (k', v) :: update_key eqb m' k f
  end.

(** ** htm/erat.c *)
(* htm/erat.c:47-60 *)
Record eara_key := mk_ek { ek_shift : N; ek_address : N; ek_real : N }.
Record eara_val := mk_ev { ev_rec : radix; ev_host : N; ev_guest : N }.
(* htm/erat.c:101-107 *)
Definition eara_cmp (a b : eara_key) : bool :=
  (ek_address a =? ek_address b) && (ek_real a =? ek_real b) && (ek_shift a =? ek_shift b).
Definition erat := list (eara_key * eara_val).

(* htm/erat.c:146-165, 192-213 *)
Definition erat_align (shift address real : N) : pres (N * N) :=
  if shift =? 12 then Some (address_aligned_4k address, address_aligned_4k real)
  else if shift =? 16 then Some (address_aligned_64k address, address_aligned_64k real)
  else if shift =? 21 then Some (address_aligned_2m address, address_aligned_2m real)
  else if shift =? 30 then Some (address_aligned_1g address, address_aligned_1g real)
  else None.
(* htm/erat.c:138-178: outer None is assert(0) *)
Definition erat_get (e : erat) (shift address real : N) : pres (option eara_val) :=
  match erat_align shift address real with
  | None => None
  | Some (a, r) => Some (find_key eara_cmp e (mk_ek shift a r))
  end.
(* htm/erat.c:185-226 *)
Definition erat_insert (e : erat) (host address real : N) (rec : radix) (guest : N)
  : pres erat :=
  let shift := if host <? guest then host else guest in
  match erat_align shift address real with
  | None => None
  | Some (a, r) =>
      let key := mk_ek shift a r in
      match find_key eara_cmp e key with
      | Some _ => Some (update_key eara_cmp e key
                          (fun old => mk_ev rec (ev_host old) guest))
      | None => Some ((key, mk_ev rec host guest) :: e)
      end
  end.
(* htm/erat.c:230-233 *)
Definition erat_init : erat := [].

(** ** htm/pwc.c *)
(* htm/xlate.h:19-24 *)
Record xaddr := mk_xaddr { xa_msr : Z; xa_lpid : N; xa_pid : N; xa_address : N }.
(* htm/xlate.h:32-39 *)
Definition XLATE_PGD : N := 0.
Definition XLATE_PUD : N := 1.
Definition XLATE_PMD : N := 2.
Definition XLATE_PTE : N := 3.
Definition XLATE_4K_PTE : N := 4.
Definition XLATE_64K_PTE : N := 5.
(* htm/pwc.h:20-23 *)
Definition MSR_HV : Z := 2.
Definition PWC_LEAF : N := 1.
Definition PWC_NOT_LEAF : N := 2.

(* htm/pwc.c:91-94; addresses of the key are page aligned *)
Record pkey := mk_pk { pk_level : N; pk_addr : xaddr }.
(* htm/pwc.c:99-102, 43-46: the leaf map sends an entry offset to its kind *)
Record pval := mk_pv { pv_real : N; pv_leaf : list (N * bool) }.
(* htm/pwc.c:143-151 *)
Definition pkey_cmp (a b : pkey) : bool :=
  (xa_address (pk_addr a) =? xa_address (pk_addr b))
  && (pk_level a =? pk_level b)
  && (xa_lpid (pk_addr a) =? xa_lpid (pk_addr b))
  && (xa_pid (pk_addr a) =? xa_pid (pk_addr b))
  && Z.eqb (xa_msr (pk_addr a)) (xa_msr (pk_addr b)).
Definition pcache := list (pkey * pval).
Definition key_of (level : N) (addr : xaddr) (page : N) : pkey :=
  mk_pk level (mk_xaddr (xa_msr addr) (xa_lpid addr) (xa_pid addr) page).

(* htm/pwc.c:188-207, 408-427: page part of an address *)
Definition rpn_of (level a : N) : pres N :=
  if level =? 12 then Some (pte_address_4k a)
  else if level =? 16 then Some (pte_address_64k a)
  else if level =? 21 then Some (pte_address_2m a)
  else if level =? 30 then Some (pte_address_1g a)
  else None.
(* htm/pwc.c:233-252, 455-478: offset part *)
Definition off_of (level a : N) : pres N :=
  if level =? 12 then Some (page_offset_4k a)
  else if level =? 16 then Some (page_offset_64k a)
  else if level =? 21 then Some (page_offset_2m a)
  else if level =? 30 then Some (page_offset_1g a)
  else None.

(* htm/pwc.c:182-219 and 402-439 (the two functions differ in the table only) *)
Definition rpn_insert (c : pcache) (level : N) (addr : xaddr) (real : N) : pres pcache :=
  match rpn_of level (xa_address addr), rpn_of level real with
  | Some page, Some rpn =>
      let key := key_of level addr page in
      match find_key pkey_cmp c key with
      | Some _ => Some (update_key pkey_cmp c key (fun old => mk_pv rpn (pv_leaf old)))
      | None => Some ((key, mk_pv rpn []) :: c)
      end
  | _, _ => None
  end.
(* htm/pwc.c:226-267 and 446-494 *)
Definition rpn_get (c : pcache) (level : N) (addr : xaddr) : pres (option N) :=
  match rpn_of level (xa_address addr), off_of level (xa_address addr) with
  | Some page, Some off =>
      match find_key pkey_cmp c (key_of level addr page) with
      | Some v => Some (Some (add64 (pv_real v) off))
      | None => Some None
      end
  | _, _ => None
  end.

(* htm/pwc.c:280-303, 347-370: directory and entry of an address *)
Definition dir_of (level a : N) : pres (N * N) :=
  if level =? XLATE_PGD then Some (pgd_address a, pgd_index a)
  else if level =? XLATE_PUD then Some (pgdp_address a, pud_index a)
  else if level =? XLATE_PMD then Some (pudp_address a, pmd_index a)
  else if level =? XLATE_64K_PTE then Some (pmdp_address a, page_table_index_64k a)
  else if level =? XLATE_4K_PTE then Some (pmdp_address a, page_table_index_4k a)
  else None.
(* htm/pwc.c:274-328 *)
Definition dir_insert (c : pcache) (level : N) (addr : xaddr) (real : N) (leaf : bool)
  : pres pcache :=
  match dir_of level (xa_address addr) with
  | None => None
  | Some (page, off) =>
      let key := key_of level addr page in
      match find_key pkey_cmp c key with
      | Some _ => Some (update_key pkey_cmp c key (fun old =>
          mk_pv (sub64 real off)
                (match find_key N.eqb (pv_leaf old) off with
                 | Some _ => update_key N.eqb (pv_leaf old) off (fun _ => leaf)
                 | None => (off, leaf) :: pv_leaf old
                 end)))
      | None => Some ((key, mk_pv (sub64 real off) [(off, leaf)]) :: c)
      end
  end.
(* htm/pwc.c:339-392: None is -1, otherwise real address and flags *)
Definition dir_get (c : pcache) (level : N) (addr : xaddr) : pres (option (N * N)) :=
  match dir_of level (xa_address addr) with
  | None => None
  | Some (page, off) =>
      match find_key pkey_cmp c (key_of level addr page) with
      | None => Some None
      | Some v =>
          Some (Some (add64 (pv_real v) off,
                      match find_key N.eqb (pv_leaf v) off with
                      | Some true => PWC_LEAF
                      | Some false => PWC_NOT_LEAF
                      | None => 0
                      end))
      end
  end.

(** The three tables of htm/pwc.c:168-171, 400. *)
Record pwc := mk_pwc { page_walk_cache : pcache; tlb_cache : pcache; reverse_cache : pcache }.
(* htm/pwc.c:710-719, the tables *)
Definition pwc_init : pwc := mk_pwc [] [] [].
Definition pwc_insert (p : pwc) (level : N) (addr : xaddr) (real : N) (leaf : bool) : pres pwc :=
  option_map (fun c => mk_pwc c (tlb_cache p) (reverse_cache p))
             (dir_insert (page_walk_cache p) level addr real leaf).
Definition pwc_get (p : pwc) (level : N) (addr : xaddr) : pres (option (N * N)) :=
  dir_get (page_walk_cache p) level addr.
Definition pwc_tlb_insert (p : pwc) (level : N) (addr : xaddr) (real : N) : pres pwc :=
  option_map (fun c => mk_pwc (page_walk_cache p) c (reverse_cache p))
             (rpn_insert (tlb_cache p) level addr real).
Definition pwc_tlb_get (p : pwc) (level : N) (addr : xaddr) : pres (option N) :=
  rpn_get (tlb_cache p) level addr.
Definition pwc_reverse_insert (p : pwc) (level : N) (addr : xaddr) (real : N) : pres pwc :=
  option_map (fun c => mk_pwc (page_walk_cache p) (tlb_cache p) c)
             (rpn_insert (reverse_cache p) level addr real).
Definition pwc_reverse_get (p : pwc) (level : N) (addr : xaddr) : pres (option N) :=
  rpn_get (reverse_cache p) level addr.
