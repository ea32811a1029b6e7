(** C51: stored layout of headers and records. *)
Require Import NArith List Bool.
Require Import Verif.Word Verif.Codec_Types Verif.Reader_Model Verif.Reader_Spec
  Verif.Layout_Spec Verif.Layout_Fields Verif.Layout_Proofs Verif.Layout_Proofs2 Verif.Layout_Proofs3.
Import ListNotations.
Local Open Scope nat_scope.

(** An accepted header has legal flags, occupies exactly [h_end] bytes, and
    every state field is taken from its position or left alone. *)
Theorem C51_header : forall s b s' rest,
  is_bytes b -> parse_header s b = ROk (s', rest) ->
  header_flags_ok b /\ h_end b <= length b /\ rest = skipn (h_end b) b /\ hdr_fields s b s'.
Proof. exact header_layout. Qed.
Print Assumptions C51_header.
(** Conversely a complete header with legal flags and walk counts is accepted. *)
Theorem C51_header_accepted : forall s b,
  header_flags_ok b -> header_counts_ok b -> h_end b <= length b ->
  exists x, parse_header s b = ROk x.
Proof. exact header_accepts. Qed.
Print Assumptions C51_header_accepted.

(** Same for a record (no header in front, or the suffix of a prefixed
    instruction, whose word may be null). *)
Theorem C51_record : forall slack s b r s' rest,
  is_bytes b -> 4 <= length b -> u32_at b 0 <> 0%N \/ r_prefixed s = true ->
  qtreader_next_record slack s b = ROk ((r, s'), rest) ->
  record_flags_ok b /\ off_end b (r_version s) <= length b /\
  rest = skipn (off_end b (r_version s)) b /\ rec_fields s b r s' /\ insn_fields s r s'.
Proof. exact record_layout. Qed.
Print Assumptions C51_record.
Theorem C51_record_accepted : forall slack s b,
  4 <= length b -> u32_at b 0 <> 0%N \/ r_prefixed s = true ->
  r_branch_info s = false -> r_tlbie_info s = false ->
  record_flags_ok b -> record_counts_ok b (r_version s) -> page_shifts_ok s b ->
  off_end b (r_version s) <= length b ->
  exists x, qtreader_next_record slack s b = ROk (x, skipn (off_end b (r_version s)) b).
Proof. exact record_accepts. Qed.
Print Assumptions C51_record_accepted.

(** A header with magic, version, address, page number, both page sizes, all
    three identifiers and a comment, followed by two bytes. *)
Definition full_header : list N :=
  [0;0;0;0; 0;1; 0;3; 0xC4;0xE0; 0xE8;0x52;
   1;2;3;4; 7;1;0;0; 0;0;0;0;0;0;0x10;0;
   0;0;0;9; 16; 21; 1;1;1;1;1;1;1;1; 2;2;2;2;0;0;0;5; 0;0;0;6; 0;3;0x61;0x62;0x63; 0xAA; 0xBB]%N.
Example C51_header_ex :
  h_end full_header = 59 /\
  match qtreader_initialize full_header with
  | ROk (s, rest) =>
      (r_magic s, r_version s, r_next_addr s, r_lpid s, r_pid s)
        = (0x01020304, 0x07010000, 0x1000, 5, 6)%N /\
      (x_rpn (r_nxt s), x_ps (r_nxt s), x_gps (r_nxt s)) = (9, 16, 21)%N /\ rest = [0xAA; 0xBB]%N
  | _ => False
  end.
Proof. vm_compute. repeat split; reflexivity. Qed.

(** mfspr with one GPR in, one FPR out and one SPR out, then an error code and
    a data page size, version 7. *)
Definition reg_record : list N :=
  [0x7c;0;2;0xa6; 0;9; 0x11;0; 1;0;0;0;0; 0;1;0;0;1;
   3; 0;0;0;0;0;0;0;7;  4; 0;0;0;0;0;0;0;8;  1;0; 0;0;0;0;0;0;0;9;  0x55; 12]%N.
Example C51_record_ex :
  let s := mk_rs 0x7010000 0 0x2000 false false false 0 zero_xl zero_xl false 0 false 0 in
  off_end reg_record 0x7010000 = 48 /\
  match qtreader_next_record [] s reg_record with
  | ROk ((r, _), rest) =>
      g_gprs_in (o_regs r) = [(3, 7)]%N /\ g_fprs_out (o_regs r) = [(4, 8)]%N /\
      g_sprs_out (o_regs r) = [(0x100, 9)]%N /\ q_data_ps (o_q r) = 12%N /\ rest = []
  | _ => False
  end.
Proof. vm_compute. repeat split; reflexivity. Qed.

(** A stored page size of the sequentially following instruction does not
    reach the following record: the reader drops it unless the record also
    stores a page size for the instruction address. *)
Theorem C51_sequential_page_size_refuted :
  ~ (forall slack s b r s' rest,
       is_bytes b -> 4 <= length b -> u32_at b 0 <> 0%N ->
       qtreader_next_record slack s b = ROk ((r, s'), rest) ->
       has (f_flags2 b) F2_SEQ_PAGE_SIZE = true -> x_ps_v (r_nxt s') = true).
Proof.
  intro H.
  specialize (H [] init_state [0x60;0;0;0; 0;1; 0;0x20; 12]%N).
  destruct (qtreader_next_record [] init_state [0x60;0;0;0; 0;1; 0;0x20; 12]%N) as [[[r s'] rest]| |] eqn:E;
    [|vm_compute in E; discriminate..].
  specialize (H r s' rest).
  assert (is_bytes [0x60;0;0;0; 0;1; 0;0x20; 12]%N) as B
    by (unfold is_bytes; repeat (constructor; [reflexivity|]); constructor).
  specialize (H B ltac:(cbn; repeat constructor) ltac:(vm_compute; discriminate) eq_refl eq_refl).
  vm_compute in E. apply (f_equal (fun x => match x with ROk ((_, s1), _) => x_ps_v (r_nxt s1) | _ => true end)) in E.
  cbv beta iota in E. rewrite H in E. vm_compute in E. discriminate.
Qed.
Print Assumptions C51_sequential_page_size_refuted.

(** Records that announce a length or data field are accepted but no bytes are
    taken for them, so the reader loses its place in the file: the four bytes
    of a length field become the next instruction. *)
Example C51_length_not_consumed :
  map (fun r => q_insn (o_q r))
      (fst (read_trace false false [1;1;1;1]%N
        [0;0;0;0; 0;1; 0;2; 0;0;  0x60;0;0;0; 1;0;  1;0;0;8;  0;0;  0x60;0;0;1; 0;0]%N))
  = [0x60000000; 0x01000008; 0x60000001]%N.
Proof. vm_compute. reflexivity. Qed.
