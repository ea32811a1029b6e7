(** The values the reader's results must have, by layout position (C51).  The
    result types come from the reader model, the positions from Layout_Spec. *)
Require Import NArith List Bool.
Require Import Verif.Word Verif.Codec_Types Verif.Reader_Model Verif.Reader_Spec Verif.Layout_Spec.
Import ListNotations.

(** State after a header. *)
Definition hdr_fields (s : rstate) (b : list N) (s' : rstate) : Prop :=
  let hf := h_hf b in
  let f3 := h_flags3 b in
  r_magic s' = pick (has hf HDR_MAGIC) (u32_at b (h_off_magic b)) (r_magic s) /\
  r_version s' = pick (has hf HDR_VERSION) (u32_at b (h_off_version b)) (r_version s) /\
  r_next_addr s' = pick (has hf HDR_IAR) (u64_at b (h_off_iar b)) (r_next_addr s) /\
  x_rpn_v (r_nxt s') = x_rpn_v (r_nxt s) || has hf HDR_IAR_RPN /\
  x_rpn (r_nxt s') = pick (has hf HDR_IAR_RPN) (u32_at b (h_off_rpn b)) (x_rpn (r_nxt s)) /\
  x_ps_v (r_nxt s') = x_ps_v (r_nxt s) || has hf HDR_IAR_PAGE_SIZE /\
  x_ps (r_nxt s') = pick (has hf HDR_IAR_PAGE_SIZE) (byte_at b (h_off_ps b)) (x_ps (r_nxt s)) /\
  x_gps_v (r_nxt s') = x_gps_v (r_nxt s) || has hf HDR_IAR_GPAGE_SIZE /\
  x_gps (r_nxt s') = pick (has hf HDR_IAR_GPAGE_SIZE) (byte_at b (h_off_gps b)) (x_gps (r_nxt s)) /\
  (h_has_walk b = false -> x_radix (r_nxt s') = x_radix (r_nxt s)) /\
  r_lpid_present s' = r_lpid_present s || has f3 F3_LPID /\
  (has f3 F3_LPID = true -> r_lpid s' = u64_at b (h_off_lpid b) mod 2 ^ 32)%N /\
  r_pid_present s' = r_pid_present s || has f3 F3_PID /\
  r_pid s' = pick (has f3 F3_PID) (u32_at b (h_off_pid b)) (r_pid s) /\
  (r_branch_info s', r_tlbie_info s', r_prefixed s', r_suffix s')
  = (r_branch_info s, r_tlbie_info s, r_prefixed s, r_suffix s) /\
  (** what is current stays, but becomes valid *)
  x_rpn (r_cur s') = x_rpn (r_cur s) /\ x_ps (r_cur s') = x_ps (r_cur s) /\
  x_gps (r_cur s') = x_gps (r_cur s) /\ x_radix (r_cur s') = x_radix (r_cur s) /\
  x_rpn_v (r_cur s') = x_rpn_v (r_cur s) || has hf HDR_IAR_RPN /\
  x_ps_v (r_cur s') = x_ps_v (r_cur s) || has hf HDR_IAR_PAGE_SIZE /\
  x_gps_v (r_cur s') = x_gps_v (r_cur s) || has hf HDR_IAR_GPAGE_SIZE.

(** Register block at offset [o]. *)
Definition regs_spec (b : list N) (o : nat) (v7 : bool) : regs :=
  mk_regs (regs_at b 1 (o_gi o v7) (n_gi b o)) (regs_at b 1 (o_fi b o v7) (n_fi b o))
          (regs_at b 2 (o_si b o v7) (n_si b o v7))
          (regs_at b 1 (o_go b o v7) (n_go b o v7)) (regs_at b 1 (o_fo b o v7) (n_fo b o v7))
          (regs_at b 2 (o_so b o v7) (n_so b o v7))
          (N.of_nat (n_vmi b o)) (N.of_nat (n_vsi b o v7))
          (N.of_nat (n_vmo b o v7)) (N.of_nat (n_vso b o v7)).

(** Fields of one record; [c], [n] are the current and pending translation. *)
Definition rec_fields (s : rstate) (b : list N) (r : rrec) (s' : rstate) : Prop :=
  let f := f_flags b in
  let f2 := f_flags2 b in
  let v := r_version s in
  let q := o_q r in
  let nx := r_nxt s' in
  q_insn q = u32_at b 0 /\
  q_insn_addr q = r_next_addr s /\
  o_node_valid r = has f F_NODE /\
  (has f F_NODE = true -> o_node r = byte_at b (off_node b)) /\
  (has f F_TERMINATION = true ->
     o_term_node r = byte_at b (off_term b) /\ o_term_code r = byte_at b (off_term b + 1)) /\
  q_data_addr_valid q = has f F_DATA_ADDRESS /\
  q_data_addr q = pick (has f F_DATA_ADDRESS) (u64_at b (off_daddr b)) 0%N /\
  q_data_ra_valid q = has f F_DATA_RPN /\
  (has f F_DATA_RPN = true ->
     q_data_ra q = real_of (u32_at b (off_drpn b)) (has f2 F2_DATA_PAGE_SIZE) (q_data_ps q) (q_data_addr q)) /\
  q_data_ps_valid q = has f2 F2_DATA_PAGE_SIZE /\
  q_data_ps q = pick (has f2 F2_DATA_PAGE_SIZE) (byte_at b (off_dps b v)) 0%N /\
  q_gdata_ps_valid q = has f2 F2_DATA_GPAGE_SIZE /\
  q_gdata_ps q = pick (has f2 F2_DATA_GPAGE_SIZE) (byte_at b (off_dgps b v)) 0%N /\
  o_next_addr r = pick (has f F_IAR) (u64_at b (off_iar b)) ((r_next_addr s + 4) mod 2 ^ 64)%N /\
  r_next_addr s' = o_next_addr r /\
  o_regs r = pick (has f F_REGISTER_TRACE) (regs_spec b (off_regs b) (0x7000000 <=? v)%N) zero_regs /\
  (** pending translation *)
  x_rpn_v nx = has f F_IAR_RPN || has f2 F2_SEQ_RPN /\
  (x_rpn_v nx = true ->
     x_rpn nx = pick (has f F_IAR_RPN) (u32_at b (off_irpn b)) (u32_at b (off_srpn b v))) /\
  x_ps_v nx = has f2 F2_IAR_PAGE_SIZE /\
  (x_ps_v nx = true -> x_ps nx = byte_at b (off_ps b v)) /\
  x_gps_v nx = has f2 F2_INSN_GPAGE_SIZE /\
  (x_gps_v nx = true -> x_gps nx = byte_at b (off_gps b v)) /\
  (f_iwalk b = false -> x_radix nx = x_radix (r_nxt s)) /\
  (f_dwalk b = false -> q_radix_data q = zero_radix).

(** What the record says about its own instruction comes from the state. *)
Definition insn_fields (s : rstate) (r : rrec) (s' : rstate) : Prop :=
  let q := o_q r in
  let c := r_cur s in
  let n := r_nxt s in
  q_insn_ra_valid q = x_rpn_v c || x_rpn_v n /\
  q_insn_ps_valid q = x_ps_v c || x_ps_v n /\
  q_ginsn_ps_valid q = x_gps_v c || x_gps_v n /\
  (q_insn_ps_valid q = true -> q_insn_ps q = pick (x_ps_v n) (x_ps n) (x_ps c)) /\
  (q_ginsn_ps_valid q = true -> q_ginsn_ps q = pick (x_gps_v n) (x_gps n) (x_gps c)) /\
  (q_insn_ra_valid q = true -> (q_insn_ps q < 256)%N ->
     q_insn_ra q = real_of (pick (x_rpn_v n) (x_rpn n) (x_rpn c)) (q_insn_ps_valid q)
                           (q_insn_ps q) (q_insn_addr q)) /\
  (** and stays current until a pending value replaces it *)
  (x_rpn_v (r_cur s'), x_ps_v (r_cur s'), x_gps_v (r_cur s'))
  = (q_insn_ra_valid q, q_insn_ps_valid q, q_ginsn_ps_valid q) /\
  x_rpn (r_cur s') = pick (x_rpn_v n) (x_rpn n) (x_rpn c) /\
  x_ps (r_cur s') = pick (x_ps_v n) (x_ps n) (x_ps c) /\
  x_gps (r_cur s') = pick (x_gps_v n) (x_gps n) (x_gps c).

(** Page sizes in use are below 64. *)
Definition page_shifts_ok (s : rstate) (b : list N) : Prop :=
  (x_rpn_v (r_cur s) || x_rpn_v (r_nxt s) = true -> x_ps_v (r_cur s) || x_ps_v (r_nxt s) = true ->
     pick (x_ps_v (r_nxt s)) (x_ps (r_nxt s)) (x_ps (r_cur s)) mod 256 < 64)%N /\
  (has (f_flags b) F_DATA_RPN = true -> has (f_flags2 b) F2_DATA_PAGE_SIZE = true ->
     byte_at b (off_dps b (r_version s)) < 64)%N.

