(** Vocabulary of the reader properties: byte positions of the stored record
    layout, branch classes, tlbie operand fields.  Independent of the reader's
    control flow; only constants of qtrace.h are shared. *)
Require Import NArith List Bool.
Require Import Verif.Codec_Types Verif.Branch_Spec.
Import ListNotations.
Local Open Scope N_scope.

Definition is_bytes (b : list N) : Prop := Forall (fun x => x < 256) b.

(** ** Layout *)
Definition byte_at (b : list N) (o : nat) : N := nth o b 0.
Definition u16_at (b : list N) (o : nat) : N := be_val (firstn 2 (skipn o b)).
Definition u32_at (b : list N) (o : nat) : N := be_val (firstn 4 (skipn o b)).
Definition len (c : bool) (n : nat) : nat := if c then n else 0%nat.

(** Modes of a walk: two 2-bit fields of the third flag word. *)
Definition mode_at (flags3 sh : N) : N := (flags3 / 2 ^ sh) mod 4.

(** A radix-on-radix walk is introduced by two count bytes. *)
Definition counted (hm gm : N) : bool := (hm =? 0) && (gm =? 0).
Definition walk_len (hm gm : N) (b : list N) (o : nat) : nat :=
  if counted hm gm then
    let nr := N.to_nat (byte_at b o) in
    let w := N.to_nat (byte_at b (o + 1)) in
    (2 + (if Nat.eqb w 1 then 8 * nr
          else if Nat.ltb 1 w then 8 * (w * nr) + 8 * (w - 1) + 8 * w
          else 0))%nat
  else if hm =? 0 then 32%nat else 0%nat.
(** nr_ptes <= 4 and nr_pte_walks <= 5 *)
Definition walk_counts_ok (hm gm : N) (b : list N) (o : nat) : Prop :=
  counted hm gm = true -> byte_at b o <= 4 /\ byte_at b (o + 1) <= 5.

(** Header: position of the walk. *)
Section Header.
  Variable b : list N.
  Definition h_flags2 := u16_at b 6.
  Definition h_ext2 := has h_flags2 F2_EXT2.
  Definition h_flags3 := if h_ext2 then u16_at b 8 else 0.
  Definition h_hf := u16_at b (8 + len h_ext2 2).
  Definition h_walk_off : nat :=
    (10 + len h_ext2 2 + len (has h_hf HDR_MAGIC) 4 + len (has h_hf HDR_VERSION) 4
     + len (has h_hf HDR_IAR) 8 + len (has h_hf HDR_IAR_VSID) 7)%nat.
  Definition header_counts_ok : Prop :=
    has h_hf HDR_IAR_RPN = true -> h_ext2 = true ->
    walk_counts_ok (mode_at h_flags3 SH_HOST_INSN) (mode_at h_flags3 SH_GUEST_INSN) b h_walk_off.
End Header.

(** Record: positions of the walks and of the register counts. *)
Section Rec.
  Variable b : list N.
  Definition f_flags := u16_at b 4.
  Definition f_ext := has f_flags F_EXT.
  Definition f_flags2 := if f_ext then u16_at b 6 else 0.
  Definition f_ext2 := f_ext && has f_flags2 F2_EXT2.
  Definition f_flags3 := if f_ext2 then u16_at b 8 else 0.
  Definition f_dwalk := has f_flags F_DATA_RPN && has f_flags2 F2_EXT2.
  Definition f_iwalk := has f_flags F_IAR_RPN && has f_flags2 F2_EXT2.
  Definition off_daddr : nat :=
    (6 + len f_ext 2 + len f_ext2 2 + len (has f_flags F_NODE) 1
     + len (has f_flags F_TERMINATION) 2 + len (has f_flags F_PROCESSOR) 1)%nat.
  Definition off_dwalk : nat :=
    (off_daddr + len (has f_flags F_DATA_ADDRESS) 8 + len (has f_flags F_DATA_VSID) 7)%nat.
  Definition d_modes := (mode_at f_flags3 SH_HOST_DATA, mode_at f_flags3 SH_GUEST_DATA).
  Definition i_modes := (mode_at f_flags3 SH_HOST_INSN, mode_at f_flags3 SH_GUEST_INSN).
  Definition off_iar : nat :=
    (off_dwalk + len f_dwalk (walk_len (fst d_modes) (snd d_modes) b off_dwalk)
     + len (has f_flags F_DATA_RPN) 4)%nat.
  Definition off_iwalk : nat :=
    (off_iar + len (has f_flags F_IAR) 8 + len (has f_flags F_IAR_VSID) 7)%nat.
  Definition off_regs : nat :=
    (off_iwalk + len f_iwalk (walk_len (fst i_modes) (snd i_modes) b off_iwalk)
     + len (has f_flags F_IAR_RPN) 4)%nat.
  (** Register counts: gpr fpr vmx [vsx] spr, first inputs then outputs. *)
  Definition reg_counts_ok (v7 : bool) : Prop :=
    let o := off_regs in
    let h := (4 + len v7 1)%nat in
    byte_at b o <= 32 /\ byte_at b (o + 1) <= 3 /\ byte_at b (o + h - 1) <= 4 /\
    byte_at b (o + h) <= 32 /\ byte_at b (o + h + 1) <= 3 /\ byte_at b (o + h + h - 1) <= 4.
  Definition record_counts_ok (version : N) : Prop :=
    (f_dwalk = true -> walk_counts_ok (fst d_modes) (snd d_modes) b off_dwalk) /\
    (f_iwalk = true -> walk_counts_ok (fst i_modes) (snd i_modes) b off_iwalk) /\
    (has f_flags F_REGISTER_TRACE = true -> reg_counts_ok (0x7000000 <=? version)).
End Rec.

(** ** Operand fields of tlbie/tlbiel (Power ISA v3.0B, RB in IBM numbering) *)
Definition fld64 (v i j : N) : N := (v / 2 ^ (63 - j)) mod 2 ^ (j - i + 1).
Definition isa_RIC (w : N) : N := fld w 12 13.
Definition isa_PRS (w : N) : N := fld w 14 14.
Definition isa_R (w : N) : N := fld w 15 15.
Definition rb_IS (rb : N) : N := fld64 rb 52 53.
Definition rb_AP (rb : N) : N := fld64 rb 56 58.
Definition rb_EPN (rb : N) : N := fld64 rb 0 51.
Definition rb_SET (rb : N) : N := fld64 rb 40 51.
(** Page shift of the actual page size encoding (radix). *)
Definition ap_shift (ap : N) : option N :=
  if ap =? 0 then Some 12 else if ap =? 5 then Some 16
  else if ap =? 1 then Some 21 else if ap =? 2 then Some 30 else None.
Definition isa_BH (w : N) : N := fld w 19 20.

(** bcl 20,31,$+4 *)
Definition ADDRESSING_IDIOM : N := 0x429F0005.

(** ** Branch annotation *)
(** Words for which annotating a branch record aborts the program, given
    whether the record is conditional: a bc other than the addressing idiom
    that is not conditional, or a not-always bclr/bcctr/bctar that is not. *)
Definition annotation_aborts (w : N) (cond : bool) : Prop :=
  isa_bo_branch w /\ w <> ADDRESSING_IDIOM /\ cond = false /\
  (isa_opcd w = 16 \/ ~ isa_BO_always w).
