(** Byte positions of every stored header and record field (C51).  Extends the
    positions of Reader_Spec; only flag constants of qtrace.h are shared with
    the reader model. *)
Require Import NArith List Bool.
Require Import Verif.Codec_Types Verif.Reader_Spec.
Import ListNotations.
Local Open Scope N_scope.

Definition u64_at (b : list N) (o : nat) : N := be_val (firstn 8 (skipn o b)).
Definition uint_at (b : list N) (w o : nat) : N := be_val (firstn w (skipn o b)).

(** The bits allowed in the flag words. *)
Definition bits_within (v : N) (l : list N) : Prop := forall i, N.testbit v i = true -> In i l.

(** ** Headers *)
Section Header.
  Variable b : list N.
  Let hf := h_hf b.
  Let f3 := h_flags3 b.
  Definition h_off_magic : nat := (10 + len (h_ext2 b) 2)%nat.
  Definition h_off_version : nat := (h_off_magic + len (has hf HDR_MAGIC) 4)%nat.
  Definition h_off_iar : nat := (h_off_version + len (has hf HDR_VERSION) 4)%nat.
  Definition h_has_walk : bool := has hf HDR_IAR_RPN && h_ext2 b.
  Definition h_walk_bytes : nat :=
    len h_has_walk (walk_len (mode_at f3 SH_HOST_INSN) (mode_at f3 SH_GUEST_INSN) b (h_walk_off b)).
  Definition h_off_rpn : nat := (h_walk_off b + h_walk_bytes)%nat.
  Definition h_off_ps : nat := (h_off_rpn + len (has hf HDR_IAR_RPN) 4)%nat.
  Definition h_off_gps : nat := (h_off_ps + len (has hf HDR_IAR_PAGE_SIZE) 1)%nat.
  Definition h_off_lpid : nat :=
    (h_off_gps + len (has hf HDR_IAR_GPAGE_SIZE) 1 + len (has f3 F3_PTCR) 8)%nat.
  Definition h_off_pid : nat := (h_off_lpid + len (has f3 F3_LPID) 8)%nat.
  Definition h_off_comment : nat := (h_off_pid + len (has f3 F3_PID) 4)%nat.
  Definition h_end : nat :=
    (h_off_comment + (if has hf HDR_COMMENT then 2 + N.to_nat (u16_at b h_off_comment) else 0))%nat.
  (** A header the reader accepts: null instruction, exactly the "extended
      flags" flag, "file header" and at most "extended flags 2", and no file
      header flag other than the eight known ones. *)
  Definition header_flags_ok : Prop :=
    u32_at b 0 = 0 /\ u16_at b 4 = 1 /\ (u16_at b 6 = 2 \/ u16_at b 6 = 3) /\
    bits_within hf [15; 14; 13; 12; 11; 6; 4; 1].
End Header.

(** [if c then new else old] *)
Definition pick {A} (c : bool) (new old : A) : A := if c then new else old.

(** ** Register block *)
(** [n] consecutive (index, value) pairs from offset [o]; an index has [w]
    bytes, a value 8. *)
Definition regs_at (b : list N) (w o n : nat) : list (N * N) :=
  map (fun i => (uint_at b w (o + i * (w + 8)), u64_at b (o + i * (w + 8) + w))) (seq 0 n).

Section Regs.
  Variables (b : list N) (o : nat) (v7 : bool).
  Let h := (4 + len v7 1)%nat.
  (** Counts: gpr fpr vmx [vsx] spr, inputs then outputs. *)
  Definition n_gi := N.to_nat (byte_at b o).
  Definition n_fi := N.to_nat (byte_at b (o + 1)).
  Definition n_vmi := N.to_nat (byte_at b (o + 2)).
  Definition n_vsi := if v7 then N.to_nat (byte_at b (o + 3)) else 0%nat.
  Definition n_si := N.to_nat (byte_at b (o + h - 1)).
  Definition n_go := N.to_nat (byte_at b (o + h)).
  Definition n_fo := N.to_nat (byte_at b (o + h + 1)).
  Definition n_vmo := N.to_nat (byte_at b (o + h + 2)).
  Definition n_vso := if v7 then N.to_nat (byte_at b (o + h + 3)) else 0%nat.
  Definition n_so := N.to_nat (byte_at b (o + h + h - 1)).
  (** 9 bytes per GPR and FPR, 18 per vector register, 10 per SPR. *)
  Definition o_gi : nat := (o + h + h)%nat.
  Definition o_fi : nat := (o_gi + 9 * n_gi)%nat.
  Definition o_si : nat := (o_fi + 9 * n_fi + 18 * n_vmi + 18 * n_vsi)%nat.
  Definition o_go : nat := (o_si + 10 * n_si)%nat.
  Definition o_fo : nat := (o_go + 9 * n_go)%nat.
  Definition o_so : nat := (o_fo + 9 * n_fo + 18 * n_vmo + 18 * n_vso)%nat.
  Definition regs_end : nat := (o_so + 10 * n_so)%nat.
End Regs.

(** ** Records *)
Section Rec.
  Variables (b : list N) (version : N).
  Let v7 := 0x7000000 <=? version.
  Let f := f_flags b.
  Let f2 := f_flags2 b.
  Definition off_node : nat := (6 + len (f_ext b) 2 + len (f_ext2 b) 2)%nat.
  Definition off_term : nat := (off_node + len (has f F_NODE) 1)%nat.
  Definition off_drpn : nat :=
    (off_dwalk b + len (f_dwalk b) (walk_len (fst (d_modes b)) (snd (d_modes b)) b (off_dwalk b)))%nat.
  Definition off_irpn : nat :=
    (off_iwalk b + len (f_iwalk b) (walk_len (fst (i_modes b)) (snd (i_modes b)) b (off_iwalk b)))%nat.
  Definition off_srpn : nat :=
    if has f F_REGISTER_TRACE then regs_end b (off_regs b) v7 else off_regs b.
  Definition off_sps : nat :=
    (off_srpn + len (has f2 F2_SEQ_RPN) 4 + len (has f2 F2_ERROR_CODE) 1)%nat.
  Definition off_ps : nat := (off_sps + len (has f2 F2_SEQ_PAGE_SIZE) 1)%nat.
  Definition off_dps : nat := (off_ps + len (has f2 F2_IAR_PAGE_SIZE) 1)%nat.
  Definition off_gps : nat := (off_dps + len (has f2 F2_DATA_PAGE_SIZE) 1)%nat.
  Definition off_dgps : nat := (off_gps + len (has f2 F2_INSN_GPAGE_SIZE) 1)%nat.
  Definition off_end : nat := (off_dgps + len (has f2 F2_DATA_GPAGE_SIZE) 1)%nat.
  Definition record_flags_ok : Prop :=
    bits_within f [15; 14; 13; 12; 11; 10; 9; 8; 7; 6; 5; 4; 3; 0] /\
    bits_within f2 [14; 12; 9; 8; 5; 3; 2; 1; 0] /\
    (has f F_TERMINATION = true ->
       In (byte_at b (off_term + 1)) [0x40; 0x80; 0x08; 0x10]).
End Rec.

(** Real address of [ea]: page number and offset, 64 KiB pages by default. *)
Definition real_of (rpn : N) (ps_valid : bool) (ps ea : N) : N :=
  let s := if ps_valid then ps else 16 in
  (rpn * 2 ^ s) mod 2 ^ 64 + ea mod 2 ^ s.
