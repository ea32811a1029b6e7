(** Walks resumed from the page walk caches: what the hardware sends when it
    already holds the upper part of a walk. *)
Require Import NArith ZArith List Bool.
Require Import Verif.Word Verif.Codec_Types Verif.Pwc_Model Verif.Pwc_Spec Verif.Xlate_Model Verif.Xlate_Spec.
Import ListNotations.
Local Open Scope N_scope.

(** ** A machine
    Page tables that do not change.  An address is tagged by the table it is
    looked up in: those of a process (msr 0, lpid, pid) or of a partition (HV,
    lpid, 0).  [tb_base] is where the directory of a level lies, [tb_leaf]
    whether an entry of the two middle levels is a leaf, [tb_kind] the kind of
    the pages below a directory of the third level, [tb_page] the number of
    the page an address is in. *)
Record tables := mk_tables {
  tb_base : N -> xaddr -> N;
  tb_leaf : N -> xaddr -> bool;
  tb_kind : xaddr -> N;
  tb_page : N -> xaddr -> N }.
Definition tables_ok (T : tables) : Prop :=
  (forall l x y, level_ok l -> same_dir l x l y = true -> tb_base T l x = tb_base T l y)
  /\ (forall l x, level_ok l -> tb_base T l x + 8 * 2 ^ width l <= 2 ^ 64)
  /\ (forall l x y, level_ok l -> same_entry l x l y = true -> tb_leaf T l x = tb_leaf T l y)
  /\ (forall x, tb_kind T x = XLATE_4K_PTE \/ tb_kind T x = XLATE_64K_PTE)
  /\ (forall l x y, l = XLATE_4K_PTE \/ l = XLATE_64K_PTE -> same_dir l x l y = true -> tb_kind T x = tb_kind T y)
  /\ (forall s x y, shift_ok s -> same_page s x s y = true -> tb_page T s x = tb_page T s y)
  /\ (forall s x, shift_ok s -> (tb_page T s x + 1) * 2 ^ s <= 2 ^ 52).

Section MACHINE.
  Variable T : tables.
  Definition entry_at (l : N) (x : xaddr) : N := tb_base T l x + 8 * entry l (xa_address x).
  (** The levels a complete walk of the address goes through. *)
  Definition depth (x : xaddr) : nat :=
    if tb_leaf T XLATE_PUD x then 2%nat else if tb_leaf T XLATE_PMD x then 3%nat else 4%nat.
  Definition steps (x : xaddr) : list N :=
    firstn (depth x) [XLATE_PGD; XLATE_PUD; XLATE_PMD; tb_kind T x].
  Definition shift_at (x : xaddr) : N :=
    match depth x with 2%nat => 30 | 3%nat => 21 | _ => covers (tb_kind T x) end.
  Definition real_at (x : xaddr) : N :=
    tb_page T (shift_at x) x * 2 ^ shift_at x + xa_address x mod 2 ^ shift_at x.
  Definition host_at (x : xaddr) : host_walk :=
    mk_hw (map (fun l => entry_at l x) (steps x)) (real_at x).
  (** An address of the guest, as looked up by the partition. *)
  Definition in_host (lpid a : N) : xaddr := mk_xaddr MSR_HV lpid 0 a.
  Definition in_guest (lpid pid a : N) : xaddr := mk_xaddr 0 lpid pid a.

  (** A translation: of an address of a process; where the partition and
      process table entries are, if they are read; and what only the records
      tell: the guest real and the real address reported (any in the right
      page) and the level fields of the two final records. *)
  Record request := mk_rq {
    rq_lpid : N; rq_pid : N; rq_address : N;
    rq_table : option (N * N);
    rq_greal : N; rq_real : N; rq_glevel : N; rq_hlevel : N }.
  Definition rq_guest (q : request) : xaddr := in_guest (rq_lpid q) (rq_pid q) (rq_address q).
  Definition rq_final (q : request) : xaddr := in_host (rq_lpid q) (rq_greal q).
  Definition rq_nest (q : request) (l : N) : xaddr := in_host (rq_lpid q) (entry_at l (rq_guest q)).
  (** The complete walk. *)
  Definition whole_walk (q : request) : full_walk :=
    mk_fw
      (match rq_table q with
       | Some (pa, pr) => Some (pa, pr, host_at (in_host (rq_lpid q) pr))
       | None => None
       end)
      (map (fun l => (entry_at l (rq_guest q), host_at (rq_nest q l))) (steps (rq_guest q)))
      (rq_greal q, mk_hw (hw_ptes (host_at (rq_final q))) (rq_real q))
      (rq_glevel q) (rq_hlevel q).
  (** All addresses the partition's tables translate on the way. *)
  Definition hosts (q : request) : list xaddr :=
    match rq_table q with Some (_, pr) => [in_host (rq_lpid q) pr] | None => [] end
    ++ map (rq_nest q) (steps (rq_guest q)) ++ [rq_final q].
  Definition kind_of_level (l : N) : N := if l =? 0 then XLATE_4K_PTE else XLATE_64K_PTE.
  Definition request_ok (q : request) : Prop :=
    (* no guest pages of 1G; the level fields tell the kind of page *)
    (3 <= depth (rq_guest q))%nat
    /\ (depth (rq_guest q) = 4%nat -> rq_glevel q <= 1 /\ tb_kind T (rq_guest q) = kind_of_level (rq_glevel q))
    /\ rq_glevel q <> 7
    /\ (forall y, In y (hosts q) -> depth y = 4%nat ->
          rq_hlevel q <= 1 /\ tb_kind T y = kind_of_level (rq_hlevel q))
    (* the addresses reported are in the pages *)
    /\ rq_greal q / 2 ^ shift_at (rq_guest q) = tb_page T (shift_at (rq_guest q)) (rq_guest q)
    /\ rq_real q / 2 ^ shift_at (rq_final q) = tb_page T (shift_at (rq_final q)) (rq_final q)
    /\ rq_address q < 2 ^ 64.

  (** ** What was shown by earlier walks *)
  Definition reads (q : request) : list (N * xaddr) :=
    map (fun l => (l, rq_guest q)) (steps (rq_guest q))
    ++ flat_map (fun y => map (fun l => (l, y)) (steps y)) (hosts q).
  Definition entry_shown (H : list request) (l : N) (y : xaddr) : Prop :=
    exists q z, In q H /\ In (l, z) (reads q) /\ same_entry l z l y = true.
  Definition page_shown (H : list request) (y : xaddr) : Prop :=
    exists q z, In q H /\ In z (hosts q) /\ shift_at z = shift_at y
                /\ same_page (shift_at y) z (shift_at y) y = true.

  (** ** What is left out
      Of a walk by the partition, the first [fst c] entries; the resulting real
      address too, if not [snd c]. *)
  Definition cut_host (c : nat * bool) (level : N) (h : host_walk) : list walk :=
    skipn (fst c) (host_pte_records (hw_ptes h))
    ++ (if snd c then [mk_walk false false true true level (hw_ra h)] else []).
  (** Of a guest level, everything ([None]) or part of the walk. *)
  Definition cut_guest (lc : N * (N * host_walk) * option (nat * bool)) : list walk :=
    let '(level, (g, h), o) := lc in
    match o with
    | None => []
    | Some c => mk_walk false false true false level g :: cut_host c level h
    end.
  Record cut := mk_cut {
    ct_table : nat * bool;
    ct_guest : list (option (nat * bool));
    ct_final : nat }.
  Definition cut_records (t : full_walk) (c : cut) : list walk :=
    match fw_table t with
    | Some (pa, pr, h) =>
        mk_walk false false false true 7 pa :: cut_guest (7, (pr, h), Some (ct_table c))
    | None => []
    end
    ++ flat_map cut_guest (combine (combine [6; 4; 2; 0] (fw_guest t)) (ct_guest c))
    ++ mk_walk true false true false (fw_glevel t) (fst (fw_final t))
    :: skipn (ct_final c) (host_pte_records (hw_ptes (snd (fw_final t))))
    ++ [mk_walk true false true true (fw_hlevel t) (hw_ra (snd (fw_final t)))].

  (** Only what was shown may be left out. *)
  Definition cut_host_ok (H : list request) (y : xaddr) (c : nat * bool) : Prop :=
    (fst c <= depth y)%nat
    /\ (forall l, In l (firstn (fst c) (steps y)) -> entry_shown H l y)
    /\ (snd c = false -> fst c = depth y /\ page_shown H y).
  Definition cut_level_ok (H : list request) (q : request) (l : N) (o : option (nat * bool)) : Prop :=
    match o with
    | None => entry_shown H l (rq_guest q) /\ cut_host_ok H (rq_nest q l) (depth (rq_nest q l), false)
    | Some c => cut_host_ok H (rq_nest q l) c
    end.
  (** A walk is resumed at one guest level and complete from there. *)
  Fixpoint resumed (l : list (option (nat * bool))) : Prop :=
    match l with
    | [] => True
    | None :: l' => resumed l'
    | Some _ :: l' => Forall (fun o => o <> None) l'
    end.
  Definition cut_ok (H : list request) (q : request) (c : cut) : Prop :=
    (forall pa pr, rq_table q = Some (pa, pr) -> cut_host_ok H (in_host (rq_lpid q) pr) (ct_table c))
    /\ Forall2 (cut_level_ok H q) (steps (rq_guest q)) (ct_guest c)
    /\ resumed (ct_guest c)
    /\ cut_host_ok H (rq_final q) (ct_final c, true).

  (** ** A trace of such walks, and what the decoder makes of it *)
  Record event := mk_event { ev_rq : request; ev_cut : cut; ev_xlate : xlate; ev_msr : msr }.
  Definition event_ok (H : list request) (e : event) : Prop :=
    request_ok (ev_rq e) /\ cut_ok H (ev_rq e) (ev_cut e)
    /\ xlate_wf (ev_xlate e) /\ records_of (ev_xlate e) = cut_records (whole_walk (ev_rq e)) (ev_cut e)
    /\ x_lpid (ev_xlate e) = rq_lpid (ev_rq e) /\ x_pid (ev_xlate e) = rq_pid (ev_rq e)
    /\ m_hv (ev_msr e) = false.
  Fixpoint events_ok (H : list request) (es : list event) : Prop :=
    match es with
    | [] => True
    | e :: es' => event_ok H e /\ events_ok (ev_rq e :: H) es'
    end.
  (** The real address is known to the caller as a page of 4K. *)
  Definition page_4k (a : N) : N := a / 2 ^ 12 * 2 ^ 12.
  Fixpoint decode_all (st : xst) (es : list event) : xres (list (option (radix * N * N))) :=
    match es with
    | [] => XOk []
    | e :: es' =>
        match xlate_decode st (ev_xlate e) (ev_msr e) true (rq_address (ev_rq e)) (page_4k (rq_real (ev_rq e))) with
        | XErr k => XErr k
        | XOk (st', o) =>
            match decode_all st' es' with
            | XErr k => XErr k
            | XOk os => XOk (o :: os)
            end
        end
    end.
  Definition answer (e : event) : option (radix * N * N) :=
    Some (fw_radix (whole_walk (ev_rq e)), shift_at (rq_final (ev_rq e)), shift_at (rq_guest (ev_rq e))).
End MACHINE.
