(** C61: what qtdis shows. *)
Require Import NArith List Bool.
Require Import Verif.Codec_Types Verif.Writer_Model Verif.Reader_Model Verif.Codec_Spec.
Require Import Verif.Qtdis_Model Verif.Qtdis_Spec Verif.Qtdis_Proofs Verif.Qtdis_Proofs2 Verif.Qtdis_Proofs3.
Import ListNotations.
Local Open Scope N_scope.

(** Every file that reads to its end: one line per instruction, with the address
    said by the one before; see [shown_words] for the words. *)
Theorem C61_listing : forall slack bytes l s b,
  qtreader_initialize bytes = ROk (s, b) -> read_trace false false slack bytes = (l, EndFalse) -> whole l = true ->
  exists x, read_qt (mk_options 0 false false) slack bytes = (x, QDone)
    /\ lines x = combine (at_addresses (r_next_addr s) (insns l)) (shown_words [] (insns l)).
Proof. exact listing_lines. Qed.
Print Assumptions C61_listing.

(** -s, -i and -c *)
Theorem C61_logs : forall st bl slack bytes l s b,
  qtreader_initialize bytes = ROk (s, b) -> read_trace false false slack bytes = (l, EndFalse) -> whole l = true ->
  exists x, read_qt (mk_options 0 st bl) slack bytes = (x, QDone)
    /\ (st || bl = true -> lines x = [])
    /\ logged x = (if st then combine (at_addresses (r_next_addr s) (insns l)) (map (fun i => word (fst i)) (insns l)) else [])
    /\ counted x = (if bl then at_addresses (r_next_addr s) (insns l) else []).
Proof. exact listing_logs. Qed.
Print Assumptions C61_logs.

(** Written traces *)
Theorem C61_written : forall magic rs slack,
  magic < 2 ^ 32 -> frames rs -> closes rs -> complete rs = true -> (4 <= length slack)%nat ->
  exists bytes x, write_trace magic rs = inr bytes /\ read_qt (mk_options 0 false false) slack bytes = (x, QDone)
    /\ map (fun l => (fst l, hd 0 (snd l))) (lines x) = map (fun r => (q_insn_addr r, q_insn r)) (firsts rs)
    /\ (Forall (fun r => is_prefix_word (q_insn r) = false) rs ->
        lines x = map (fun r => (q_insn_addr r, [q_insn r])) rs).
Proof. exact written_listing. Qed.
Print Assumptions C61_written.
Theorem C61_written_logs : forall o magic rs slack, dump_nr o = 0 ->
  magic < 2 ^ 32 -> frames rs -> closes rs -> complete rs = true -> (4 <= length slack)%nat ->
  exists bytes x, write_trace magic rs = inr bytes /\ read_qt o slack bytes = (x, QDone)
    /\ (stats o = true -> logged x = map (fun r => (q_insn_addr r, q_insn r)) (firsts rs))
    /\ (blocks o = true -> counted x = map q_insn_addr (firsts rs)).
Proof. exact written_logs. Qed.
Print Assumptions C61_written_logs.

(** -d 1, unless a page size is out of range: the addresses of instructions and
    of the data of their first records. *)
Theorem C61_dump : forall st bl slack bytes l s b,
  qtreader_initialize bytes = ROk (s, b) -> read_trace false false slack bytes = (l, EndFalse) -> whole l = true ->
  snd (read_qt (mk_options 1 st bl) slack bytes) = QShift
  \/ exists x, read_qt (mk_options 1 st bl) slack bytes = (x, QDone)
    /\ map (fun f => fst (fst f)) (fetches x) = at_addresses (r_next_addr s) (insns l)
    /\ accesses x = flat_map (fun i => let q := o_q (fst i) in
         if q_data_addr_valid q then [(q_data_addr q, optb (q_data_ps_valid q) (2 ^ q_data_ps q))] else []) (insns l).
Proof. exact dump_ok. Qed.
Print Assumptions C61_dump.

Example C61_ex : lines (fst (read_qt plain_options [0; 0; 0; 0] (ex_bytes ex_trace)))
  = [(0x10000, [0x60000000]); (0x10004, [0x04100000; 0]); (0x1000c, [0x48001ff4]);
     (0x12000, [0x04100000; 0xe4610008]); (0x12008, [0xe8610008])].
Proof. vm_compute. reflexivity. Qed.
Example C61_ex_written : map (fun r => (q_insn_addr r, q_insn r)) (firsts ex_trace)
  = [(0x10000, 0x60000000); (0x10004, 0x04100000); (0x1000c, 0x48001ff4); (0x12000, 0x04100000); (0x12008, 0xe8610008)]
  /\ complete ex_trace = true.
Proof. split; vm_compute; reflexivity. Qed.
Example C61_ex_dump : read_qt (mk_options 1 false false) [0; 0; 0; 0] (ex_bytes ex_no_prefix)
  = ([Fetch 0x10000 None None; Fetch 0x10004 (Some 0x777000) (Some 0x10000); Fetch 0x30000 None None; LdSt 0x500018 None], QDone).
Proof. vm_compute. reflexivity. Qed.
Example C61_ex_logs : read_qt (mk_options 0 true true) [0; 0; 0; 0] (ex_bytes ex_no_prefix)
  = ([Stat 0x10000 0x60000000; Block 0x10000; Stat 0x10004 0x48000ff8; Block 0x10004;
      Stat 0x30000 0xe8610008; Block 0x30000], QDone).
Proof. vm_compute. reflexivity. Qed.

(** A prefixed instruction is shown with the suffix of the one before. *)
Theorem C61_suffix_refuted : ~ forall bytes slack l, (4 <= length slack)%nat ->
  read_trace false false slack bytes = (l, EndFalse) -> whole l = true ->
  map snd (lines (fst (read_qt plain_options slack bytes))) = map both (insns l).
Proof. exact suffix_wrong. Qed.
Print Assumptions C61_suffix_refuted.
(** The first instruction behind a further header is shown at the address behind
    the instruction before. *)
Theorem C61_header_refuted : ~ forall bytes slack l, (4 <= length slack)%nat ->
  read_trace false false slack bytes = (l, EndFalse) -> whole l = true ->
  map fst (lines (fst (read_qt plain_options slack bytes))) = map (fun i => q_insn_addr (o_q (fst i))) (insns l).
Proof. exact second_header. Qed.
Print Assumptions C61_header_refuted.
(** -d 1 shows an instruction with the real page of the next one, shifted by 12. *)
Theorem C61_fetch_refuted : ~ forall bytes slack l x, (4 <= length slack)%nat ->
  read_trace false false slack bytes = (l, EndFalse) -> whole l = true ->
  read_qt (mk_options 1 false false) slack bytes = (x, QDone) ->
  Forall2 (fun f i => match snd (fst f) with
                      | Some ra => q_insn_ra_valid (o_q (fst i)) = true /\ ra / 2 ^ 16 = q_insn_ra (o_q (fst i)) / 2 ^ 16
                      | None => True
                      end) (fetches x) (insns l).
Proof. exact fetch_wrong. Qed.
Print Assumptions C61_fetch_refuted.
