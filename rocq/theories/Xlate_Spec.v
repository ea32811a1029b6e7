(** What htm/xlate.c and the partial walk list of htm/pwc.c should compute. *)
Require Import NArith ZArith List Bool.
Require Import Verif.Word Verif.Codec_Types Verif.Pwc_Model Verif.Pwc_Spec Verif.Xlate_Model.
Import ListNotations.
Local Open Scope N_scope.

Definition records_of (x : xlate) : list walk := firstn (x_nwalks x) (x_walks x).
Definition xlate_wf (x : xlate) : Prop :=
  length (x_walks x) = 38%nat /\ (x_nwalks x <= 38)%nat.

(** ** A two dimensional walk
    One partition scoped walk: addresses of the host table entries read, from
    the top level down, and the host real address found. *)
Record host_walk := mk_hw { hw_ptes : list N; hw_ra : N }.
(** The walk of an address of a guest process: optionally the partition and
    process table entries, then the guest table entries with the walk that
    translates each of them, then the guest real address with its walk. *)
Record full_walk := mk_fw {
  fw_table : option (N * N * host_walk);
  fw_guest : list (N * host_walk);
  fw_final : N * host_walk;
  fw_glevel : N;      (** level field of the final guest record *)
  fw_hlevel : N }.    (** level field of the final host record *)

(** The hardware's records. *)
Definition host_pte_records (ptes : list N) : list walk :=
  map (fun lp => mk_walk false false false true (fst lp) (snd lp)) (combine [6; 4; 2; 0] ptes).
Definition guest_records (lp : N * (N * host_walk)) : list walk :=
  let '(level, (g, h)) := lp in
  mk_walk false false true false level g
  :: host_pte_records (hw_ptes h) ++ [mk_walk false false true true level (hw_ra h)].
Definition full_records (t : full_walk) : list walk :=
  match fw_table t with
  | Some (pa, pr, h) =>
      mk_walk false false false true 7 pa :: guest_records (7, (pr, h))
  | None => []
  end
  ++ flat_map guest_records (combine [6; 4; 2; 0] (fw_guest t))
  ++ mk_walk true false true false (fw_glevel t) (fst (fw_final t))
  :: host_pte_records (hw_ptes (snd (fw_final t)))
  ++ [mk_walk true false true true (fw_hlevel t) (hw_ra (snd (fw_final t)))].

Definition all_hosts (t : full_walk) : list host_walk :=
  match fw_table t with Some (_, _, h) => [h] | None => [] end
  ++ map snd (fw_guest t) ++ [snd (fw_final t)].
Definition host_ok (h : host_walk) : Prop :=
  (2 <= length (hw_ptes h) <= 4)%nat /\ Forall (fun a => a < 2 ^ 64) (hw_ptes h).
Definition fw_ok (t : full_walk) : Prop :=
  Forall host_ok (all_hosts t)
  /\ Forall (fun g => fst g < 2 ^ 64) (fw_guest t)
  (* guest pages of 2M, or of 64K or 4K as told by the final guest record *)
  /\ (length (fw_guest t) = 3%nat \/ length (fw_guest t) = 4%nat /\ fw_glevel t <= 1)
  (* a host page of 64K or 4K anywhere needs a final host page of that kind *)
  /\ (fw_hlevel t <= 1 \/ Forall (fun h => (length (hw_ptes h) < 4)%nat) (all_hosts t)).

Definition host_shift (t : full_walk) : N :=
  match length (hw_ptes (snd (fw_final t))) with
  | 2%nat => 30 | 3%nat => 21 | _ => if fw_hlevel t =? 0 then 12 else 16
  end.
Definition guest_shift (t : full_walk) : N :=
  if (length (fw_guest t) =? 3)%nat then 21 else if fw_glevel t =? 0 then 12 else 16.
Definition fill (n : nat) (l : list N) : list N := firstn n (l ++ repeat 0 n).
Definition fw_radix (t : full_walk) : radix :=
  let hosts := map snd (fw_guest t) ++ [snd (fw_final t)] in
  mk_radix 0
    (fold_right N.max 0 (map (fun h => N.of_nat (length (hw_ptes h))) hosts))
    (N.of_nat (length hosts))
    (firstn 5 (map (fun h => fill 4 (hw_ptes h)) hosts ++ repeat [0; 0; 0; 0] 5))
    (fill 4 (map (fun g => hw_ra (snd g)) (fw_guest t)))
    (fill 5 (map fst (fw_guest t) ++ [fst (fw_final t)])).

(** ** Shapes *)
Definition nested_shape (rec : radix) (h g : N) : Prop :=
  rx_type rec = 0 /\ (2 <= rx_nr_ptes rec <= 4)
  /\ (rx_walks rec = 4 /\ g = 21 \/ rx_walks rec = 5 /\ (g = 12 \/ g = 16))
  /\ shift_ok h
  /\ length (rx_host_ptes rec) = 5%nat /\ Forall (fun r => length r = 4%nat) (rx_host_ptes rec)
  /\ length (rx_host_real rec) = 4%nat /\ length (rx_guest_real rec) = 5%nat.
Definition real_shape (rec : radix) (h : N) : Prop :=
  rx_type rec = GUEST_REAL /\ (2 <= rx_nr_ptes rec <= 4) /\ rx_walks rec = 1
  /\ shift_ok h
  /\ length (rx_host_ptes rec) = 5%nat /\ Forall (fun r => length r = 4%nat) (rx_host_ptes rec)
  /\ rx_host_real rec = [0; 0; 0; 0] /\ rx_guest_real rec = [0; 0; 0; 0; 0].

(** ** Histories *)
Inductive xop :=
| XDecode (x : xlate) (m : msr) (reloc : bool) (address real : N)
| XPartial (x : xlate)
| XAddress (address real : N)
| XLookup (m : msr) (reloc : bool) (address real : N).
Definition xop_ok (o : xop) : Prop :=
  match o with
  | XDecode x _ _ a r => xlate_wf x /\ a < 2 ^ 64 /\ r < 2 ^ 64
  | XPartial x => xlate_wf x
  | XAddress _ _ => True
  | XLookup _ _ a r => a < 2 ^ 64 /\ r < 2 ^ 64
  end.
Definition x_step (st : xst) (o : xop) : xres xst :=
  match o with
  | XDecode x m reloc a r =>
      match xlate_decode st x m reloc a r with XErr e => XErr e | XOk (st', _) => XOk st' end
  | XPartial x =>
      match partial_insert (xs_partial st) x with
      | XErr e => XErr e
      | XOk l => XOk (mk_xst (xs_pwc st) (xs_erat st) l)
      end
  | XAddress a r =>
      XOk (mk_xst (xs_pwc st) (xs_erat st) (snd (address_lookup (xs_partial st) a r)))
  | XLookup m reloc a r =>
      match xlate_lookup (xs_erat st) m reloc a r with XErr e => XErr e | XOk _ => XOk st end
  end.
Fixpoint x_run (st : xst) (h : list xop) : xres xst :=
  match h with
  | [] => XOk st
  | o :: h' => match x_step st o with XErr e => XErr e | XOk st' => x_run st' h' end
  end.

(** ** Merging *)
(** Two fragments overlap if the second starts at a record of the first. *)
Definition overlap (old new : xlate) : Prop :=
  x_lpid old = x_lpid new /\ x_pid old = x_pid new
  /\ exists w, In w (records_of old) /\ wk_ra w = wk_ra (hd zero_walk (x_walks new)).
(** [pre] is what is kept: nothing in it interrupted or at the address, and the
    next record is one of these. *)
Definition kept_prefix (old new : xlate) (pre : list walk) : Prop :=
  let stop w := wk_ra w = wk_ra (hd zero_walk (x_walks new)) \/ wk_exception w = true in
  exists w post, records_of old = pre ++ w :: post /\ Forall (fun v => ~ stop v) pre /\ stop w.

(** The walk of another address of the same guest page. *)
Definition fw_at (t : full_walk) (a : N) : full_walk :=
  let s := guest_shift t in
  mk_fw (fw_table t) (fw_guest t)
    (fst (fw_final t) / 2 ^ s * 2 ^ s + a mod 2 ^ s, snd (fw_final t)) (fw_glevel t) (fw_hlevel t).
