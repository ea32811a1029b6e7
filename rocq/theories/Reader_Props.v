(** Properties C04-C06, C09, C10, C12, C13: the reader on arbitrary bytes. *)
Require Import NArith ZArith List Bool.
Require Import Verif.Codec_Types Verif.Branch_Spec Verif.Reader_Model Verif.Reader_Spec
  Verif.Reader_Class Verif.Reader_Proofs Verif.Reader_Proofs2 Verif.Reader_Proofs3.
Import ListNotations.
Local Open Scope nat_scope.

(** A two-record trace used in the examples: header (version, IAR = 0x1000),
    [nop] at 0x1000, conditional branch [beq] at 0x1004 jumping to 0x2000,
    then a [blr] at 0x2000 going back to 0x1008. *)
Definition sample : list N :=
  ([0;0;0;0; 0;1; 0;2; 0x60;0;  7;1;0;0;  0;0;0;0;0;0;0x10;0;
   0x60;0;0;0; 0;1; 0;0;
   0x41;0x82;0x0f;0xfc; 0xe0;0x41; 0;0; 0;0;0x80; 0;0;0;0;0;0;0x20;0;
   0x4e;0x80;0;0x20; 0xe0;0x41; 0;0; 0;0;0x08; 0;0;0;0;0;0;0x10;8])%N.
Definition pad : list N := [0;0;0;0]%N.

(** C04: what is read from a cut file is a prefix of what is read from the
    whole file, whatever lies behind either buffer. *)
Theorem C04_truncation_is_prefix : forall br tl slack1 slack2 b n,
  exists l, fst (read_trace br tl slack2 b)
            = fst (read_trace br tl slack1 (firstn n b)) ++ l.
Proof.
  intros. pose proof (read_trace_prefix br tl slack1 slack2 (firstn n b) (skipn n b)) as H.
  rewrite firstn_skipn in H. exact H.
Qed.
Print Assumptions C04_truncation_is_prefix.
Example C04_ex : map (fun r => q_insn (o_q r)) (fst (read_trace false false pad sample))
                 = [0x60000000; 0x41820ffc; 0x4e800020]%N /\
  length (fst (read_trace false false [1;1;1;1]%N (firstn 45 sample))) = 1 /\
  length (fst (read_trace false false [1;1;1;1]%N (firstn 50 sample))) = 2.
Proof. vm_compute. repeat split; reflexivity. Qed.

(** C05 *)
Theorem C05_progress : forall slack s b r s' b',
  qtreader_next_record slack s b = ROk ((r, s'), b') ->
  exists consumed, b = consumed ++ b' /\ 6 <= length consumed.
Proof. exact next_record_progress. Qed.
Print Assumptions C05_progress.

(** The iteration budgets of the model are never the reason to stop. *)
Theorem C05_terminates : forall br tl slack b,
  snd (read_trace br tl slack b) <> EndFault FFuel.
Proof.
  intros br tl slack b E. destruct (read_trace br tl slack b) as [l e] eqn:H.
  cbn [snd] in E. subst e. apply read_trace_end in H.
  destruct H as [[H|[H|H]]|[H _]]; discriminate.
Qed.
Print Assumptions C05_terminates.
Theorem C05_call_terminates : forall slack s b,
  qtreader_next_record slack s b <> RFault FFuel.
Proof.
  intros slack s b E. apply next_record_fault in E.
  destruct E as [[H|[H|H]]|[H _]]; discriminate.
Qed.
Print Assumptions C05_call_terminates.

Theorem C05_record_bound : forall br tl slack b,
  fst (read_trace br tl slack b) = [] \/
  6 * length (fst (read_trace br tl slack b)) + 10 <= length b.
Proof. exact read_trace_len. Qed.
Print Assumptions C05_record_bound.
(** The bound is attained: 6-byte records without extended flags. *)
Example C05_ex_tight :
  let b := ([0;0;0;0; 0;1; 0;2; 0;0;  0x60;0;0;0;0;0;  0x60;0;0;0;0;0])%N in
  length (fst (read_trace false false pad b)) = 2 /\ length b = 22.
Proof. vm_compute. split; reflexivity. Qed.

(** C06: reads.  The only access that can leave the buffer is the look-ahead
    at a record boundary, when fewer than four bytes remain. *)
Theorem C06_only_lookahead : forall slack s b,
  qtreader_next_record slack s b = RFault FPeek ->
  exists before rest, b = before ++ rest /\ length rest + length slack < 4.
Proof. exact next_record_peek. Qed.
Print Assumptions C06_only_lookahead.
Theorem C06_safe_with_padding : forall br tl slack b, 4 <= length slack ->
  snd (read_trace br tl slack b) <> EndFault FPeek.
Proof.
  intros br tl slack b L E. destruct (read_trace br tl slack b) as [l e] eqn:H.
  cbn [snd] in E. subst e. apply read_trace_end in H.
  destruct H as [[H|[H|H]]|[_ H]]; try discriminate.
  apply Nat.lt_nge in H. auto.
Qed.
Print Assumptions C06_safe_with_padding.
(** Without padding a perfectly good trace makes the reader look outside. *)
Theorem C06_overread_refuted :
  ~ (forall b, is_bytes b -> snd (read_trace false false [] b) <> EndFault FPeek).
Proof.
  intro H. apply (H sample); [|vm_compute; reflexivity].
  unfold is_bytes, sample. repeat (constructor; [reflexivity|]). constructor.
Qed.
Print Assumptions C06_overread_refuted.

(** C06: writes.  Array stores stay in bounds if the counts at their layout
    positions do. *)
Theorem C06_header_stores : forall s b, header_counts_ok b ->
  parse_header s b <> RFault FArray.
Proof. exact parse_header_no_array. Qed.
Print Assumptions C06_header_stores.
Theorem C06_record_stores : forall s b, record_counts_ok b (r_version s) ->
  parse_record s b <> RFault FArray.
Proof. exact parse_record_no_array. Qed.
Print Assumptions C06_record_stores.
(** A record with a radix-on-radix data walk of 2 x 4 entries and one with a
    register block, both within bounds. *)
Example C06_ex_ok :
  let walk := (repeat 0 64 ++ repeat 0 8 ++ repeat 0 16)%N in
  let b := ([0x7c;0;0;0x2a; 2;1; 0;1; 0;0; 4;2] ++ walk ++ [0;0;0;7])%N in
  record_counts_ok b 0x7010000 /\
  (exists x, parse_record init_state b = ROk (x, [])).
Proof.
  split.
  - unfold record_counts_ok, walk_counts_ok, reg_counts_ok. vm_compute.
    repeat split; intros; try discriminate.
  - eexists. vm_compute. reflexivity.
Qed.
Example C06_ex_regs_ok :
  let b := ([0x7c;0;0;0x2a; 0;8; 1;0;0;0;0; 0;0;0;0;0;  3; 0;0;0;0;0;0;0;9])%N in
  let s := mk_rs 0x7010000 0 0 false false false 0 zero_xl zero_xl false 0 false 0 in
  record_counts_ok b 0x7010000 /\
  (exists x, parse_record s b = ROk (x, [])).
Proof.
  split.
  - unfold record_counts_ok, walk_counts_ok, reg_counts_ok. vm_compute.
    repeat split; intros; try discriminate.
  - eexists. vm_compute. reflexivity.
Qed.
(** The counts come straight from the file, so hostile bytes break it: in the
    header, in a data walk, in the register block. *)
Theorem C06_header_store_refuted :
  exists b, is_bytes b /\ read_trace false false pad b = ([], EndFault FArray).
Proof.
  exists ([0;0;0;0; 0;1; 0;3; 0;0; 8;0; 5;1] ++ repeat 0 40)%N.
  split; [|vm_compute; reflexivity].
  unfold is_bytes. cbn [app repeat]. repeat (constructor; [reflexivity|]). constructor.
Qed.
Print Assumptions C06_header_store_refuted.
Theorem C06_record_store_refuted :
  exists b, is_bytes b /\ snd (read_trace false false pad b) = EndFault FArray.
Proof.
  exists ([0;0;0;0; 0;1; 0;2; 0;0;  0x60;0;0;0;0;1;0;0;  0x7c;0;0;0x2a; 2;1; 0;1; 0;0; 1;6]
          ++ repeat 0 48)%N.
  split; [|vm_compute; reflexivity].
  unfold is_bytes. cbn [app repeat]. repeat (constructor; [reflexivity|]). constructor.
Qed.
Print Assumptions C06_record_store_refuted.
Theorem C06_register_store_refuted :
  exists b, is_bytes b /\ snd (read_trace false false pad b) = EndFault FArray.
Proof.
  exists ([0;0;0;0; 0;1; 0;2; 0;0;  0x7c;0;0;0x2a; 0;8; 0;4;0;0; 0;0;0;0] ++ repeat 0 36)%N.
  split; [|vm_compute; reflexivity].
  unfold is_bytes. cbn [app repeat]. repeat (constructor; [reflexivity|]). constructor.
Qed.
Print Assumptions C06_register_store_refuted.

(** C09 *)
Theorem C09_address_chain : forall slack s b r1 s1 b1 r2 s2 b2,
  qtreader_next_record slack s b = ROk ((r1, s1), b1) ->
  qtreader_next_record slack s1 b1 = ROk ((r2, s2), b2) ->
  (* no header in between: next word not null, or the suffix of a prefix *)
  u32_at b1 0 <> 0%N \/ (q_insn (o_q r1) / 2 ^ 26)%N = 1%N ->
  q_insn_addr (o_q r2) = o_next_addr r1 /\
  q_insn (o_q r2) = u32_at b1 0 /\
  (has (u16_at b1 4) F_IAR = false ->
     o_next_addr r2 = ((q_insn_addr (o_q r2) + 4) mod 2 ^ 64)%N).
Proof.
  intros. eapply chain; eauto. rewrite <- N.shiftr_div_pow2 in H1. exact H1.
Qed.
Print Assumptions C09_address_chain.
Example C09_ex :
  map (fun r => (q_insn_addr (o_q r), o_next_addr r)) (fst (read_trace false false pad sample))
  = [(0x1000, 0x1004); (0x1004, 0x2000); (0x2000, 0x1008)]%N.
Proof. vm_compute. reflexivity. Qed.

(** C10 *)
Theorem C10_branch_flags : forall slack s b r s' b',
  is_bytes b -> qtreader_next_record slack s b = ROk ((r, s'), b') ->
  let q := o_q r in
  (q_cond q = true -> q_branch q = true) /\
  (o_taken r = true -> q_branch q = true) /\
  (o_taken r = true <->
     o_term_code r <> 0%N /\ o_next_addr r <> ((q_insn_addr q + 4) mod 2 ^ 64)%N) /\
  ((isa_bo_branch (q_insn q) /\ isa_BO_always (q_insn q)) \/ isa_always_branch (q_insn q) ->
     q_cond q = false) /\
  (isa_bo_branch (q_insn q) -> ~ isa_BO_always (q_insn q) -> o_term_code r = 0%N ->
     q_branch q = true /\ q_cond q = true /\ o_taken r = false) /\
  (q_branch q = true ->
     o_term_code r <> 0%N \/ (isa_bo_branch (q_insn q) /\ ~ isa_BO_always (q_insn q))).
Proof. exact branch_flags_coherent. Qed.
Print Assumptions C10_branch_flags.
Example C10_ex :
  map (fun r => (q_branch (o_q r), q_cond (o_q r), o_taken r))
      (fst (read_trace false false pad sample))
  = [(false, false, false); (true, true, true); (true, false, true)].
Proof. vm_compute. reflexivity. Qed.

(** C12: turning branch annotation on changes nothing but the two annotation
    fields, which follow the classification table; the program aborts exactly
    on [annotation_aborts]. *)
Theorem C12_branch_annotation : forall slack s b r s' b',
  is_bytes b ->
  qtreader_next_record slack (set_info false false s) b = ROk ((r, s'), b') ->
  let w := q_insn (o_q r) in
  let on := qtreader_next_record slack (set_info true false s) b in
  (q_branch (o_q r) = false -> on = ROk ((r, set_info true false s'), b')) /\
  (q_branch (o_q r) = true -> annotation_aborts w (q_cond (o_q r)) -> on = RFault FAssert) /\
  (q_branch (o_q r) = true -> ~ annotation_aborts w (q_cond (o_q r)) ->
     on = ROk ((with_class (branch_class w) r, set_info true false s'), b')).
Proof. exact branch_annotation. Qed.
Print Assumptions C12_branch_annotation.
Example C12_ex :
  map (fun r => (o_direct r, o_btype r)) (fst (read_trace true false pad sample))
  = [(false, BRANCH); (true, BRANCH); (true, RETURN)].
Proof. vm_compute. reflexivity. Qed.
(** [bc 20,0,$+8] with an "unconditional branch" termination: legal input,
    the annotating reader aborts, the plain reader does not. *)
Example C12_ex_abort :
  let b := ([0;0;0;0; 0;1; 0;2; 0;0;  0x42;0x80;0;8; 0x60;1; 0;0; 0;0;8])%N in
  read_trace true false pad b = ([], EndFault FAssert) /\
  length (fst (read_trace false false pad b)) = 1.
Proof. vm_compute. split; reflexivity. Qed.

(** C13: tlbie annotation; [51] is the number of page-number bits kept. *)
Theorem C13_tlbie_annotation : forall slack s b r s' b',
  is_bytes b ->
  qtreader_next_record slack (set_info false false s) b = ROk ((r, s'), b') ->
  let w := q_insn (o_q r) in
  let on := qtreader_next_record slack (set_info false true s) b in
  (~ is_tlbie w -> on = ROk ((r, set_info false true s'), b')) /\
  (forall i j rb rs, is_tlbie w -> g_gprs_out (o_regs r) = [(i, rb); (j, rs)] ->
     isa_R w = 1%N -> rb_IS rb <> 0%N \/ ap_shift (rb_AP rb) <> None ->
     on = ROk ((with_tlbie (isa_tlbie w rb rs (r_lpid s') 51) r, set_info false true s'), b')) /\
  (is_tlbie w ->
   (forall i j rb rs, g_gprs_out (o_regs r) = [(i, rb); (j, rs)] -> isa_R w = 1%N ->
      rb_IS rb <> 0%N \/ ap_shift (rb_AP rb) <> None -> False) ->
   on = RErr).
Proof. exact tlbie_annotation. Qed.
Print Assumptions C13_tlbie_annotation.

(** The page number of the ISA has 52 bits.  Below 2^63 the operand agrees;
    above (every kernel address) the top bit is lost. *)
Theorem C13_epn_low_half : forall w rb rs lpid, (rb < 2 ^ 63)%N ->
  isa_tlbie w rb rs lpid 51 = isa_tlbie w rb rs lpid 52.
Proof. exact epn_low_half. Qed.
Print Assumptions C13_epn_low_half.
Theorem C13_epn_high_half_refuted : forall w rb rs lpid,
  (2 ^ 63 <= rb < 2 ^ 64)%N -> rb_IS rb = 0%N ->
  t_addr (isa_tlbie w rb rs lpid 52) = (t_addr (isa_tlbie w rb rs lpid 51) + 2 ^ 63)%N.
Proof. exact epn_high_half. Qed.
Print Assumptions C13_epn_high_half_refuted.

(** tlbie with RB = 0xC000000000012000 (4K page, IS = 0), RS = PID 7, LPID 1. *)
Definition tlbie_trace : list N :=
  ([0;0;0;0; 0;1; 0;2; 0;0;   0x7c;0x01;0x02;0x64; 0;8;  0;0;0;0; 2;0;0;0;
    1; 0xc0;0;0;0;0;1;0x20;0;  2; 0;0;0;7;0;0;0;1])%N.
Example C13_ex :
  map o_tlbie (fst (read_trace false true pad tlbie_trace))
  = [mk_tlbie true false 0 0 1 0 0 12 0x4000000000012000 1 7]%N.
Proof. vm_compute. reflexivity. Qed.
