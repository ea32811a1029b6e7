(** Properties C01-C03, C07, C08, C11, C49: writing a trace and reading it back. *)
Require Import NArith List Bool.
Require Import Verif.Codec_Types Verif.Writer_Model Verif.Writer_Spec Verif.Writer_Proofs
  Verif.Branch_Model Verif.Reader_Model Verif.Codec_Spec Verif.Codec_Proofs4 Verif.Codec_Proofs5.
Import ListNotations.
Local Open Scope N_scope.

(** Records used in the examples. *)
Definition plain (insn addr : N) : qrec :=
  mk_qrec insn addr false 0 false 0 false 0 false 0 false 0 false false
          false 0 false 0 zero_radix zero_radix.
Definition guest_walk (base : N) : radix :=
  mk_radix GUEST_REAL 4 1
    ([base; base + 1; base + 2; base + 3] :: repeat (repeat 0 4) 4) (repeat 0 4) (repeat 0 5).
Definition nested_walk : radix :=
  mk_radix UNSPECIFIED 3 2
    ([11; 12; 13; 0] :: [21; 22; 23; 0] :: repeat (repeat 0 4) 3) [31; 0; 0; 0] [41; 42; 0; 0; 0].

(** A load with translations and walks, a taken conditional branch to another
    page, and the instruction there. *)
Definition ex1 : qrec :=
  mk_qrec 0xE8610008 0x10001000 true 0x7F001000 true 16 true 0x20002340 true 0x5550002340 true 16
          false false true 21 true 21 (guest_walk 0x100) (guest_walk 0x200).
Definition ex2 : qrec :=
  mk_qrec 0x41820FFC 0x10001004 true 0x7F001004 true 16 false 0 false 0 false 0
          true true true 21 false 0 (guest_walk 0x100) zero_radix.
Definition ex3 : qrec :=
  mk_qrec 0x60000000 0x10052000 true 0x6E2000 true 12 false 0 false 0 false 0
          false false true 24 false 0 (guest_walk 0x300) zero_radix.
Definition ex_trace := [ex1; ex2; ex3].
Definition pad : list N := [0; 0; 0; 0].

Ltac crush :=
  cbv -[N.lt N.le];
  repeat first [ split | intro | discriminate | reflexivity | constructor | congruence
               | solve [exfalso; intuition discriminate] | solve [intuition (discriminate || auto)] ].

(** C01: everything written is read back. *)
Theorem C01_exact_round_trip : forall magic rs slack,
  magic < 2 ^ 32 -> frames rs -> closes rs -> recoverable rs -> (4 <= length slack)%nat ->
  exists bytes,
    write_trace magic rs = inr bytes /\
    map view_of (fst (read_trace false false slack bytes)) = as_written rs /\
    snd (read_trace false false slack bytes) = EndFalse.
Proof. exact exact_round_trip. Qed.
Print Assumptions C01_exact_round_trip.
Example C01_ex_hyps : frames ex_trace /\ closes ex_trace /\ recoverable ex_trace.
Proof. unfold frames, closes, recoverable, ex_trace. crush. Qed.
Example C01_ex :
  match write_trace 0xA1B2 ex_trace with
  | inr b =>
      length b = 189%nat /\
      map (fun v => (v_addr v, v_ra v, v_dra v, v_branch v, v_cond v, v_next v))
          (map view_of (fst (read_trace false false pad b))) =
      [(0x10001000, Some 0x7F001000, Some 0x5550002340, false, false, 0x10001004);
       (0x10001004, Some 0x7F001004, None, true, true, 0x10052000);
       (0x10052000, Some 0x6E2000, None, false, false, 0x10052004)] /\
      map (fun v => (v_walk v, v_dwalk v)) (map view_of (fst (read_trace false false pad b))) =
      [(Some (mk_wk (Some 1) [[0x100; 0x101; 0x102; 0x103]] [] []),
        Some (mk_wk (Some 1) [[0x200; 0x201; 0x202; 0x203]] [] []));
       (Some (mk_wk (Some 1) [[0x100; 0x101; 0x102; 0x103]] [] []), None);
       (Some (mk_wk (Some 1) [[0x300; 0x301; 0x302; 0x303]] [] []), None)]
  | inl _ => False
  end.
Proof. vm_compute. repeat split; reflexivity. Qed.

(** C02: framing and the view the reader gets in general. *)
Theorem C02_framing : forall magic rs slack,
  magic < 2 ^ 32 -> frames rs -> closes rs -> (4 <= length slack)%nat ->
  exists bytes,
    write_trace magic rs = inr bytes /\
    map view_of (fst (read_trace false false slack bytes)) = expected rs /\
    snd (read_trace false false slack bytes) = EndFalse /\
    exists s b, qtreader_initialize bytes = ROk (s, b) /\ r_magic s = magic /\
                r_version s = QTWRITER_VERSION.
Proof. exact round_trip. Qed.
Print Assumptions C02_framing.
(** The fields that survive unconditionally, spelled out. *)
Lemma expected_addrs : forall rs t p,
  map (fun v => (v_insn v, v_addr v, v_daddr v, v_gdps v)) (expected_from t p rs)
  = map (fun q => (q_insn q, q_insn_addr q, optb (q_data_addr_valid q) (q_data_addr q),
                   optb (q_gdata_ps_valid q) (q_gdata_ps q))) (p :: rs).
Proof.
  induction rs as [|c rs IH]; intros t p; [reflexivity|].
  cbn [expected_from map]. now rewrite IH.
Qed.
Theorem C02_count_and_addresses : forall magic rs slack,
  magic < 2 ^ 32 -> frames rs -> closes rs -> (4 <= length slack)%nat ->
  exists bytes,
    write_trace magic rs = inr bytes /\
    length (fst (read_trace false false slack bytes)) = length rs /\
    map (fun r => (q_insn (o_q r), q_insn_addr (o_q r)))
        (fst (read_trace false false slack bytes))
    = map (fun q => (q_insn q, q_insn_addr q)) rs /\
    map (fun r => optb (q_data_addr_valid (o_q r)) (q_data_addr (o_q r)))
        (fst (read_trace false false slack bytes))
    = map (fun q => optb (q_data_addr_valid q) (q_data_addr q)) rs.
Proof.
  intros magic rs slack H1 H2 H3 H4.
  destruct (round_trip magic rs slack H1 H2 H3 H4) as (b & E & V & _).
  exists b. split; [exact E|].
  assert (V4 := f_equal (map (fun v => (v_insn v, v_addr v, v_daddr v, v_gdps v))) V).
  rewrite map_map in V4.
  assert (W : map (fun v => (v_insn v, v_addr v, v_daddr v, v_gdps v)) (expected rs)
    = map (fun q => (q_insn q, q_insn_addr q, optb (q_data_addr_valid q) (q_data_addr q),
                   optb (q_gdata_ps_valid q) (q_gdata_ps q))) rs).
  { destruct rs; [reflexivity|]. apply expected_addrs. }
  rewrite W in V4. split; [|split].
  - apply (f_equal (@length _)) in V4. now rewrite !map_length in V4.
  - apply (f_equal (map (fun x => fst (fst x)))) in V4. rewrite !map_map in V4. exact V4.
  - apply (f_equal (map (fun x => snd (fst x)))) in V4. rewrite !map_map in V4. exact V4.
Qed.
Print Assumptions C02_count_and_addresses.
(** A nested data walk, with addresses the format cannot represent. *)
Definition ex_odd : list qrec :=
  [ mk_qrec 0x60000000 0x1000 true 0xFFFFFFFFFFFFF123 false 0 true 0x77 true 0x123456789ABCDEF0
            true 4 false true false 0 true 7 zero_radix nested_walk;
    plain 0x60000000 0x1004; plain 0x4E800020 0x9000 ].
Example C02_ex_hyps : frames ex_odd /\ closes ex_odd.
Proof. unfold frames, closes, ex_odd. crush. Qed.
Example C02_ex :
  match write_trace 0 ex_odd with
  | inr b => map (fun v => (v_insn v, v_ra v, v_dra v, v_dwalk v)) (map view_of (fst (read_trace false false pad b))) =
      [(0x60000000, Some 0x0000FFFFFFFF1000, Some 0x89ABCDEF7,
        Some (mk_wk None [[11; 12; 13]; [21; 22; 23]] [31] [41; 42]));
       (0x60000000, Some 0x0000FFFFFFFF1004, None, None);
       (0x4E800020, Some 0x0000FFFFFFFF9000, None, None)]
  | inl _ => False
  end.
Proof. vm_compute. reflexivity. Qed.

(** C03: a crash between two calls; [k] bytes of zeros follow the data. *)
Theorem C03_crash : forall magic rs slack k,
  magic < 2 ^ 32 -> frames rs -> (4 <= length slack)%nat ->
  is_prefix_word (q_insn (last_flushed rs)) = false ->
  exists st,
    write_all (qtwriter_open magic) (map (fun r => (r, true)) rs) = inr st /\
    map view_of (fst (read_trace false false slack (w_out st ++ repeat 0 k)))
    = removelast (expected rs) /\
    snd (read_trace false false slack (w_out st ++ repeat 0 k)) = EndFalse.
Proof. exact crash. Qed.
Print Assumptions C03_crash.
Theorem C03_crash_after_prefix : forall magic rs slack k,
  magic < 2 ^ 32 -> frames rs -> (4 <= length slack)%nat ->
  is_prefix_word (q_insn (last_flushed rs)) = true ->
  exists st ph l,
    write_all (qtwriter_open magic) (map (fun r => (r, true)) rs) = inr st /\
    read_trace false false slack (w_out st ++ repeat 0 (6 + k)) = (l ++ [ph], EndFalse) /\
    map view_of l = removelast (expected rs) /\
    q_insn (o_q ph) = 0 /\ q_insn_addr (o_q ph) = q_insn_addr (last rs zero_qrec).
Proof. exact crash_prefix. Qed.
Print Assumptions C03_crash_after_prefix.
Example C03_ex :
  match write_all (qtwriter_open 0) (map (fun r => (r, true)) ex_trace) with
  | inr st => map (fun r => q_insn_addr (o_q r)) (fst (read_trace false false pad (w_out st ++ repeat 0 100)))
              = [0x10001000; 0x10001004]
  | inl _ => False
  end.
Proof. vm_compute. reflexivity. Qed.
Example C03_ex_prefix :
  let rs := [plain 0x60000000 0; plain 0x06000000 4; plain 0x38600001 8] in
  match write_all (qtwriter_open 0) (map (fun r => (r, true)) rs) with
  | inr st => map (fun r => (q_insn (o_q r), q_insn_addr (o_q r)))
                  (fst (read_trace false false pad (w_out st ++ repeat 0 100)))
              = [(0x60000000, 0); (0x06000000, 4); (0, 8)]
  | inl _ => False
  end.
Proof. vm_compute. reflexivity. Qed.

(** C07: for any run, with extensions failing at will. *)
Theorem C07_never_past_mapping : forall magic l,
  write_all (qtwriter_open magic) l <> inl WOverrun /\
  (forall st, write_all (qtwriter_open magic) l = inr st ->
     N.of_nat (length (w_out st)) <= w_size st <= N.of_nat (length (w_out st)) + 2 * 131072 /\
     forall g, qtwriter_close st g <> inl WOverrun).
Proof. exact never_overruns. Qed.
Print Assumptions C07_never_past_mapping.
Example C07_ex :
  match write_all (qtwriter_open 0) (map (fun r => (r, true)) ex_trace) with
  | inr st => w_size st = 262144 /\ length (w_out st) = 177%nat
  | inl _ => False
  end.
Proof. vm_compute. split; reflexivity. Qed.

(** C08: the first call, and every later call, given that the mapping is large
    enough or can be extended. *)
Theorem C08_first_call : forall st g r,
  w_header st = false -> can_extend st g ->
  (qtwriter_write_record st g r = WErr WAssert <-> first_unstorable r) /\
  (qtwriter_write_record st g r = WErr WShift <-> ~ first_unstorable r /\ first_bad_shift r).
Proof. exact abort_first. Qed.
Print Assumptions C08_first_call.
Theorem C08_later_call : forall st g r,
  w_header st = true -> can_extend st g ->
  (qtwriter_write_record st g r = WErr WAssert <-> next_unstorable (w_prev st) r) /\
  (qtwriter_write_record st g r = WErr WShift
   <-> ~ next_unstorable (w_prev st) r /\ next_bad_shift (w_prev st) r).
Proof. exact abort_next. Qed.
Print Assumptions C08_later_call.
Theorem C08_pending_is_last_accepted : forall st g r st',
  qtwriter_write_record st g r = WOk st' ->
  w_prev st' = r /\ w_header st' = true /\ w_magic st' = w_magic st.
Proof. exact write_ok_prev. Qed.
Print Assumptions C08_pending_is_last_accepted.
Definition unspecified_walk : radix :=
  mk_radix UNSPECIFIED 4 1 (repeat (repeat 0 4) 5) (repeat 0 4) (repeat 0 5).
Definition with_data (q : qrec) (r : radix) : qrec :=
  mk_qrec (q_insn q) (q_insn_addr q) false 0 false 0 true 0x100 true 0x100 false 0
          false false false 0 false 0 zero_radix r.
Example C08_ex :
  write_trace 0 [with_data (plain 1 0) unspecified_walk] = inl WAssert /\
  write_trace 0 [plain 1 0; with_data (plain 1 4) unspecified_walk; plain 1 8] = inl WAssert /\
  (exists b, write_trace 0 [with_data (plain 1 0) (guest_walk 0)] = inr b).
Proof. split; [|split]; [vm_compute; reflexivity..|]. eexists. vm_compute. reflexivity. Qed.

(** C49: records whose call failed are simply missing. *)
Theorem C49_failed_extension : forall magic l st slack,
  magic < 2 ^ 32 -> (4 <= length slack)%nat ->
  write_all (qtwriter_open magic) l = inr st ->
  let rs := accepted (qtwriter_open magic) l in
  frames rs -> closes rs ->
  (exists bytes, qtwriter_close st true = inr bytes /\
     map view_of (fst (read_trace false false slack bytes)) = expected rs /\
     snd (read_trace false false slack bytes) = EndFalse) /\
  write_trace magic rs = qtwriter_close st true.
Proof. exact failed_extension. Qed.
Print Assumptions C49_failed_extension.
Theorem C49_failed_call_changes_nothing : forall st g r st',
  qtwriter_write_record st g r = WFail st' -> st' = st.
Proof. exact write_fail_same. Qed.
Print Assumptions C49_failed_call_changes_nothing.
(** The mapping is exactly one buffer after open, so the second call extends. *)
Example C49_ex :
  accepted (qtwriter_open 0) [(plain 1 0, true); (plain 2 4, false); (plain 3 8, true)]
  = [plain 1 0; plain 3 8].
Proof. vm_compute. reflexivity. Qed.

(** C11: the unconditional claim is false.  First two general laws... *)
Theorem C11_shifts_swapped : forall magic p c slack,
  magic < 2 ^ 32 -> frames [p; c] -> closes [p; c] -> (4 <= length slack)%nat ->
  discontinuity p c = true -> q_ginsn_ps_valid c = true -> q_data_ps_valid p = true ->
  exists bytes r1 r2,
    write_trace magic [p; c] = inr bytes /\
    fst (read_trace false false slack bytes) = [r1; r2] /\
    v_dps (view_of r1) = Some (q_ginsn_ps c) /\ v_gps (view_of r2) = Some (q_data_ps p).
Proof.
  intros magic p c slack H1 H2 H3 H4 D G P.
  destruct (round_trip magic [p; c] slack H1 H2 H3 H4) as (b & E & V & _).
  destruct (fst (read_trace false false slack b)) as [|r1 [|r2 [|? ?]]] eqn:R; try discriminate.
  exists b, r1, r2. split; [exact E|]. split; [exact R|].
  cbn [map expected expected_from] in V.
  assert (V1 := f_equal (hd (view_of r1)) V).
  assert (V2 := f_equal (fun l => hd (view_of r1) (tl l)) V).
  cbn [hd tl] in V1, V2. rewrite V1, V2.
  unfold expected_one, next_trans, swapped. rewrite D, G, P. split; reflexivity.
Qed.
Print Assumptions C11_shifts_swapped.
Theorem C11_sequential_translation_ignored : forall magic p c slack,
  magic < 2 ^ 32 -> frames [p; c] -> closes [p; c] -> (4 <= length slack)%nat ->
  discontinuity p c = false ->
  exists bytes r1 r2,
    write_trace magic [p; c] = inr bytes /\
    fst (read_trace false false slack bytes) = [r1; r2] /\
    v_ps (view_of r2) = v_ps (view_of r1) /\ v_gps (view_of r2) = v_gps (view_of r1) /\
    v_walk (view_of r2) = v_walk (view_of r1).
Proof.
  intros magic p c slack H1 H2 H3 H4 D.
  destruct (round_trip magic [p; c] slack H1 H2 H3 H4) as (b & E & V & _).
  destruct (fst (read_trace false false slack b)) as [|r1 [|r2 [|? ?]]] eqn:R; try discriminate.
  exists b, r1, r2. split; [exact E|]. split; [exact R|].
  cbn [map expected expected_from] in V.
  assert (V1 := f_equal (hd (view_of r1)) V).
  assert (V2 := f_equal (fun l => hd (view_of r1) (tl l)) V).
  cbn [hd tl] in V1, V2. rewrite V1, V2.
  unfold expected_one, next_trans. rewrite D. repeat split; reflexivity.
Qed.
Print Assumptions C11_sequential_translation_ignored.

(** ...then witnesses: the writer accepts the trace and the reader returns
    something else.  [reads rs] are the words and addresses read back. *)
Definition reads (rs : list qrec) : option (list (N * N)) :=
  match write_trace 0 rs with
  | inl _ => None
  | inr b => Some (map (fun r => (q_insn (o_q r), q_insn_addr (o_q r)))
                       (fst (read_trace false false pad b)))
  end.
Definition with_insn (q : qrec) (valid : bool) (r : radix) : qrec :=
  mk_qrec (q_insn q) (q_insn_addr q) valid 0x100 false 0 false 0 false 0 false 0
          true false false 0 false 0 r zero_radix.

(** (b) data walk, then a jump to an instruction with real address but no walk *)
Definition neg_b := [with_data (plain 0x60000000 0) (guest_walk 1);
                     with_insn (plain 0x60000000 0x100) true zero_radix; plain 0x60000000 0x104].
(** (c) first record with walk entries but no real address *)
Definition neg_c := [with_insn (plain 0x60000000 0) false (guest_walk 1); plain 0x60000000 4].
(** (d) first record with entries but zero walks *)
Definition neg_d := [with_insn (plain 0x60000000 0) true
                       (mk_radix 1 4 0 (repeat (repeat 0 4) 5) (repeat 0 4) (repeat 0 5));
                     plain 0x60000000 4].
(** (g) a null instruction word *)
Definition neg_g := [plain 0x60000000 0; plain 0 4; plain 0x60000000 8].
(** (h) multiple data walk with a single instruction walk *)
Definition neg_h := [with_data (plain 0x60000000 0) nested_walk;
                     with_insn (plain 0x60000000 0x100) true (guest_walk 1); plain 0x60000000 0x104].

Theorem C11_desynchronised_refuted :
  ~ (forall rs b, write_trace 0 rs = inr b ->
       reads rs = Some (map (fun q => (q_insn q, q_insn_addr q)) rs)).
Proof.
  intros H. specialize (H neg_g).
  assert (A : exists b, write_trace 0 neg_g = inr b) by (vm_compute; eexists; reflexivity).
  destruct A as [b A]. specialize (H b A). revert H. vm_compute. discriminate.
Qed.
Print Assumptions C11_desynchronised_refuted.
Theorem C11_witnesses :
  reads neg_b <> Some (map (fun q => (q_insn q, q_insn_addr q)) neg_b) /\
  reads neg_c <> Some (map (fun q => (q_insn q, q_insn_addr q)) neg_c) /\
  reads neg_d <> Some (map (fun q => (q_insn q, q_insn_addr q)) neg_d) /\
  reads neg_h <> Some (map (fun q => (q_insn q, q_insn_addr q)) neg_h) /\
  reads neg_g = Some [(0x60000000, 0)] /\
  reads neg_b <> None /\ reads neg_c <> None /\ reads neg_d <> None /\ reads neg_h <> None.
Proof.
  vm_compute. repeat split; discriminate.
Qed.
Print Assumptions C11_witnesses.
(** (e) the kind of a walk stored after the first record is that of the first *)
Definition neg_e := [plain 0x60000000 0; with_insn (plain 0x60000000 0x100) true (guest_walk 1)].
Theorem C11_kind_lost :
  match write_trace 0 neg_e with
  | inr b => map (fun r => rx_type (q_radix_insn (o_q r))) (fst (read_trace false false pad b)) = [0; 0]
  | inl _ => False
  end.
Proof. vm_compute. reflexivity. Qed.
Print Assumptions C11_kind_lost.
Example C11_ex_swap :
  let p := mk_qrec 0x60000000 0 false 0 false 0 true 0x40 true 0x40 true 12 true false
                   false 0 false 0 zero_radix zero_radix in
  let c := mk_qrec 0x60000000 0x100 false 0 false 0 false 0 false 0 false 0 false false
                   true 21 false 0 zero_radix zero_radix in
  match write_trace 0 [p; c] with
  | inr b => map (fun v => (v_dps v, v_gps v)) (map view_of (fst (read_trace false false pad b)))
             = [(Some 21, None); (None, Some 12)]
  | inl _ => False
  end.
Proof. vm_compute. reflexivity. Qed.
