(** Properties C27, C28 and C50: decoding of translation records. *)
Require Import NArith ZArith List Bool.
Require Import Verif.Word Verif.Codec_Types Verif.Pwc_Model Verif.Pwc_Spec.
Require Import Verif.Xlate_Model Verif.Xlate_Spec Verif.Xlate_Proofs Verif.Xlate_Full Verif.Xlate_Complete.
Import ListNotations.
Local Open Scope N_scope.

(** After any history of calls with well-formed records and 64 bit addresses
    that did not abort, the next call only fails with the assertion of
    xlate_decode or by overflowing the record array when merging or completing
    a walk; the cache assertions are never reached. *)
Theorem C27_errors : forall h st o, Forall xop_ok h -> x_run xlate_init h = XOk st -> xop_ok o ->
  match x_step st o with
  | XErr e => step_error st o e
  | XOk st' => x_inv st'
  end.
Proof. exact reachable_step. Qed.
Print Assumptions C27_errors.

(** The parser moves forward only and never past the last record. *)
Theorem C27_bounds : forall x addr s, xlate_wf x -> (ps_i s <= x_nwalks x)%nat ->
  (exists s' r, decode_nested_radix x addr s = XOk (s', r) /\ (ps_i s <= ps_i s' <= x_nwalks x)%nat)
  /\ (exists s' r, decode_guest_real x addr s = XOk (s', r) /\ (ps_i s <= ps_i s' <= x_nwalks x)%nat).
Proof. exact parse_bounds. Qed.
Print Assumptions C27_bounds.

(** What decoding answers, in any mode. *)
Theorem C27_shape : forall st x m reloc a r, xlate_wf x -> Forall xlate_wf (xs_partial st) ->
  a < 2 ^ 64 -> r < 2 ^ 64 ->
  match xlate_decode st x m reloc a r with
  | XErr XCache => False
  | XErr XAssert => reloc = true
  | XErr XOob =>
      (exists n pre, In n (xs_partial st) /\ overlap n x /\ kept_prefix n x pre
                     /\ (38 < length pre + length (records_of x))%nat)
      \/ m_hv m = false /\ reloc = true /\
         exists y, decoded st x y /\ length (records_of y) = 38%nat /\ xlate_complete y = false
  | XOk (st', res) =>
      Forall xlate_wf (xs_partial st')
      /\ (erat_good (xs_erat st) -> erat_good (xs_erat st'))
      /\ match res with
         | None => True
         | Some (rec, h, g) =>
             if m_hv m then reloc = false /\ rec = zero_radix /\ h = 0 /\ g = 0
             else if reloc then nested_shape rec h g
             else real_shape rec h /\ g = 0
         end
  end.
Proof. exact decode_spec. Qed.
Print Assumptions C27_shape.

(** A complete walk, whatever the caches hold: the record has exactly its
    addresses, or the assertion fails because the real address differs. *)
Theorem C28_full_walk : forall st x t m a r, xlate_wf x -> Forall xlate_wf (xs_partial st) ->
  Forall (fun n => ~ overlap n x) (xs_partial st) ->
  fw_ok t -> records_of x = full_records t -> m_hv m = false ->
  a < 2 ^ 64 -> r < 2 ^ 64 -> hw_ra (snd (fw_final t)) < 2 ^ 64 ->
  if hw_ra (snd (fw_final t)) / 2 ^ 12 * 2 ^ 12 =? r then
    exists p e, xlate_decode st x m true a r
      = XOk (mk_xst p e (xs_partial st), Some (fw_radix t, host_shift t, guest_shift t))
      /\ erat_insert (xs_erat st) (host_shift t) a r (fw_radix t) (guest_shift t) = Some e
  else xlate_decode st x m true a r = XErr XAssert.
Proof. exact decode_full. Qed.
Print Assumptions C28_full_walk.

(** Other addresses of the page are then looked up: same walk, the guest real
    address has the offset of the address asked for. *)
Theorem C28_lookup_after : forall st x t m a r a' r', xlate_wf x -> x_inv st ->
  Forall (fun n => ~ overlap n x) (xs_partial st) ->
  fw_ok t -> records_of x = full_records t -> m_hv m = false ->
  a < 2 ^ 64 -> r < 2 ^ 64 -> a' < 2 ^ 64 -> r' < 2 ^ 64 ->
  fst (fw_final t) < 2 ^ 64 -> hw_ra (snd (fw_final t)) < 2 ^ 64 ->
  hw_ra (snd (fw_final t)) / 2 ^ 12 * 2 ^ 12 = r ->
  let s := N.min (host_shift t) (guest_shift t) in
  a' / 2 ^ s = a / 2 ^ s -> r' / 2 ^ s = r / 2 ^ s ->
  (forall s', shift_ok s' -> s <= s' -> erat_get (xs_erat st) s' a' r' = Some None) ->
  exists st', xlate_decode st x m true a r
      = XOk (st', Some (fw_radix t, host_shift t, guest_shift t))
    /\ xlate_lookup (xs_erat st') m true a' r'
      = XOk (Some (fw_radix (fw_at t a'), host_shift t, guest_shift t)).
Proof. exact decode_then_lookup. Qed.
Print Assumptions C28_lookup_after.

(** Lookup in general: the entry with the largest page. *)
Theorem C28_lookup : forall e m reloc a r, erat_good e -> a < 2 ^ 64 -> r < 2 ^ 64 ->
  m_hv m = false ->
  exists o, first_hit e a r o /\
  xlate_lookup e m reloc a r = XOk (
    match o with
    | None => None
    | Some v =>
        let rec := ev_rec v in
        if reloc then
          Some (mk_radix (rx_type rec) (rx_nr_ptes rec) (rx_walks rec) (rx_host_ptes rec)
                  (rx_host_real rec)
                  (with_offset (rx_guest_real rec) (N.to_nat (rx_walks rec) - 1) (ev_guest v) a),
                ev_host v, ev_guest v)
        else Some (rec, ev_host v, 0)
    end).
Proof. exact lookup_ok. Qed.
Print Assumptions C28_lookup.

(** Interrupted walks: the list of fragments. *)
Theorem C50_partial_lookup : forall l x, Forall xlate_wf l -> xlate_wf x ->
  (partial_lookup l x = XOk (None, l) /\ Forall (fun n => ~ overlap n x) l)
  \/ exists l1 n l2 pre, l = l1 ++ n :: l2 /\ Forall (fun n => ~ overlap n x) l1 /\ overlap n x
     /\ kept_prefix n x pre /\
     if (38 <? length pre + x_nwalks x)%nat then partial_lookup l x = XErr XOob
     else exists y, partial_lookup l x = XOk (Some y, l1 ++ l2) /\ xlate_wf y
          /\ records_of y = pre ++ records_of x /\ x_lpid y = x_lpid x /\ x_pid y = x_pid x
          /\ x_dside y = x_dside n.
Proof. exact lookup_spec. Qed.
Print Assumptions C50_partial_lookup.
Theorem C50_partial_insert : forall l x, Forall xlate_wf l -> xlate_wf x ->
  (partial_insert l x = XOk (l ++ [x]) /\ Forall (fun n => ~ overlap n x) l)
  \/ exists l1 n l2 pre, l = l1 ++ n :: l2 /\ Forall (fun n => ~ overlap n x) l1 /\ overlap n x
     /\ kept_prefix n x pre /\
     if (38 <? length pre + x_nwalks x)%nat then partial_insert l x = XErr XOob
     else exists y, partial_insert l x = XOk (l1 ++ y :: l2) /\ xlate_wf y
          /\ records_of y = pre ++ records_of x /\ x_lpid y = x_lpid x /\ x_pid y = x_pid x
          /\ x_dside y = x_dside n.
Proof. exact insert_spec. Qed.
Print Assumptions C50_partial_insert.
Theorem C50_address_lookup : forall l a r,
  (address_lookup l a r = (None, l) /\ Forall (fun n => ~ is_for n a r) l)
  \/ exists l1 n l2, l = l1 ++ n :: l2 /\ Forall (fun n => ~ is_for n a r) l1 /\ is_for n a r
     /\ address_lookup l a r = (Some n, l1 ++ l2).
Proof. exact address_lookup_spec. Qed.
Print Assumptions C50_address_lookup.

(** ** Examples *)
Definition mk_x (ws : list walk) : xlate :=
  mk_xlate true 1 42 (length ws) (ws ++ repeat zero_walk (38 - length ws)).
Definition usr : msr := mk_msr false true.
(** Host tables at 0x1000000..; host pages of 64K, page n at 0x90000000 + 64K n. *)
Definition host_of (a : N) : host_walk :=
  mk_hw [0x1000000; 0x1001000; 0x1002000; 0x1003000 + 8 * (a / 0x10000)] (0x90000000 + a).
Definition ex_t : full_walk :=
  mk_fw (Some (0x100, 0x20010, host_of 0x20010))
    [(0x30000, host_of 0x30000); (0x40008, host_of 0x40008); (0x50010, host_of 0x50010);
     (0x60018, host_of 0x60018)]
    (0xf4321, host_of 0xf4321) 0 1.
Definition ex_st : xst :=
  match xlate_decode xlate_init (mk_x (full_records ex_t)) usr true 0x10000321 0x900f4000 with
  | XOk (st, _) => st | _ => xlate_init end.
Example C28_ex :
  length (full_records ex_t) = 37%nat
  /\ xlate_decode xlate_init (mk_x (full_records ex_t)) usr true 0x10000321 0x900f4000
     = XOk (ex_st, Some (fw_radix ex_t, 16, 12))
  /\ xlate_lookup (xs_erat ex_st) usr true 0x10000abc 0x900f4abc
     = XOk (Some (fw_radix (fw_at ex_t 0xabc), 16, 12))
  /\ nth 4 (rx_guest_real (fw_radix (fw_at ex_t 0xabc))) 0 = 0xf4abc
  /\ xlate_lookup (xs_erat ex_st) usr true 0x10001abc 0x900f4abc = XOk None
  /\ xlate_decode xlate_init (mk_x (full_records ex_t)) usr true 0x10000321 0x900f5000 = XErr XAssert.
Proof. repeat split; vm_compute; reflexivity. Qed.

(** The caches replace records not sent: the same page table entries again, for
    another address, with only the last level in the trace. *)
Definition ex_short : list walk :=
  [mk_walk false false true false 0 0x60020; mk_walk false false true true 0 0x90060020;
   mk_walk true false true false 0 0xf5000; mk_walk true false true true 1 0x900f5000].
Example C27_resumed_ex :
  match xlate_decode ex_st (mk_x ex_short) usr true 0x10001000 0x900f5000 with
  | XOk (_, Some (rec, h, g)) =>
      rec = fw_radix (mk_fw None
        [(0x30000, host_of 0x30000); (0x40008, host_of 0x40008); (0x50010, host_of 0x50010);
         (0x60020, host_of 0x60020)] (0xf5000, host_of 0xf5000) 0 1)
      /\ h = 16 /\ g = 12
  | _ => False
  end.
Proof. vm_compute. repeat split. Qed.

(** Array overflows. *)
Definition plain (n : nat) : walk := mk_walk false false false true 6 (N.of_nat n * 8).
Theorem C27_merge_overflow_refuted : exists old new,
  xlate_wf old /\ xlate_wf new /\
  x_run xlate_init [XPartial old; XPartial new] = XErr XOob.
Proof.
  exists (mk_x [plain 100; plain 0]), (mk_x (map plain (seq 0 38))).
  repeat split; try (vm_compute; reflexivity); vm_compute; repeat constructor.
Qed.
Print Assumptions C27_merge_overflow_refuted.
Theorem C27_fixup_overflow_refuted : exists x a r,
  xlate_wf x /\ x_run xlate_init [XDecode x usr true a r] = XErr XOob.
Proof.
  exists (mk_x (map plain (seq 0 38))), 0, 0.
  repeat split; try (vm_compute; reflexivity); vm_compute; repeat constructor.
Qed.
Print Assumptions C27_fixup_overflow_refuted.

(** A walk that is rejected because records are left over has already been
    entered in the ERAT: later lookups succeed with it. *)
Definition final_rec : walk := mk_walk true false true true 1 0x900f4321.
Theorem C27_rejected_walk_cached_refuted : exists x a r st,
  xlate_wf x /\ xlate_decode xlate_init x usr true a r = XOk (st, None)
  /\ xlate_lookup (xs_erat xlate_init) usr true a r = XOk None
  /\ exists v, xlate_lookup (xs_erat st) usr true a r = XOk (Some v).
Proof.
  exists (mk_x (full_records ex_t ++ [final_rec])), 0x10000321, 0x900f4000.
  eexists. split; [split; vm_compute; repeat constructor|].
  split; [vm_compute; reflexivity|]. split; [reflexivity|].
  eexists. vm_compute. reflexivity.
Qed.
Print Assumptions C27_rejected_walk_cached_refuted.

(** The ERAT does not record the translation mode: a walk entered in real mode
    is returned for a relocated access to the same page pair, with a guest real
    address made from the offset only. *)
Definition real_recs : list walk :=
  [mk_walk false false false true 6 0x1000; mk_walk false false false true 4 0x2000;
   mk_walk false false false true 2 0x3000; mk_walk true false false true 0 0x400000].
Theorem C28_mode_aliasing_refuted : exists x a r st res rec h g,
  xlate_wf x /\ xlate_decode xlate_init x usr false a r = XOk (st, Some res)
  /\ xlate_lookup (xs_erat st) usr true a r = XOk (Some (rec, h, g))
  /\ rx_type rec = GUEST_REAL /\ rx_walks rec = 1 /\ rx_guest_real rec = [a mod 2 ^ 21; 0; 0; 0; 0].
Proof.
  exists (mk_x real_recs), 0x201234, 0x400000. do 5 eexists.
  split; [split; vm_compute; repeat constructor|].
  split; [vm_compute; reflexivity|]. split; [vm_compute; reflexivity|]. repeat split.
Qed.
Print Assumptions C28_mode_aliasing_refuted.

(** A walk without its last record is decoded as with the record of a 4K page
    at the real address. *)
Theorem C27_completion : forall st x m a r, xlate_wf x -> Forall xlate_wf (xs_partial st) ->
  incomplete x -> m_hv m = false ->
  xlate_decode st x m true a r = xlate_decode st (completed x r) m true a r.
Proof. exact decode_completed. Qed.
Print Assumptions C27_completion.
Definition ex_cut : xlate := mk_x (firstn 36 (full_records ex_t)).
Example C27_completion_ex : incomplete ex_cut
  /\ match xlate_decode xlate_init ex_cut usr true 0x10000321 0x900f4000 with
     | XOk (_, Some (rec, h, g)) =>
         rec = fw_radix (mk_fw (fw_table ex_t) (fw_guest ex_t) (0xf4321, mk_hw (hw_ptes (host_of 0xf4321)) 0x900f4000) 0 0) /\ h = 12 /\ g = 12
     | _ => False
     end.
Proof. split; [vm_compute; intuition (try discriminate; auto with arith)|vm_compute; repeat split]. Qed.

(** A walk interrupted after its second guest level and sent again from there. *)
Definition ex_part1 : xlate := mk_x (firstn 20 (full_records ex_t)).
Definition ex_part2 : xlate := mk_x (skipn 13 (full_records ex_t)).
Example C50_ex :
  partial_insert [] ex_part1 = XOk [ex_part1]
  /\ match partial_lookup [mk_x [plain 7]; ex_part1] ex_part2 with
     | XOk (Some y, [z]) => records_of y = full_records ex_t /\ z = mk_x [plain 7]
     | _ => False
     end
  /\ address_lookup [ex_part1; ex_part2] 0xc000000012345678 0x900f4321 = (Some ex_part2, [ex_part1]).
Proof. repeat split; vm_compute; repeat split. Qed.
