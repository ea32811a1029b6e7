(** Data types shared by the qtrace writer and reader models:
    qtlib/qtrace.h, qtlib/qtrace_record.h, qtlib/endian-helpers.h. *)
Require Import NArith List Bool.
Require Import Verif.Word.
Import ListNotations.
Local Open Scope N_scope.

(** ** Constants *)
(* qtlib/qtrace.h:5-14 *)
Definition HDR_MAGIC : N := 0x8000.
Definition HDR_VERSION : N := 0x4000.
Definition HDR_IAR : N := 0x2000.
Definition HDR_IAR_VSID : N := 0x1000.
Definition HDR_IAR_RPN : N := 0x0800.
Definition HDR_IAR_PAGE_SIZE : N := 0x0040.
Definition HDR_IAR_GPAGE_SIZE : N := 0x0010.
Definition HDR_COMMENT : N := 0x0002.
(** ~(mask) & 0xffff: the operand is a uint16_t. *)
Definition UNHANDLED_HDR_FLAGS : N := 0x07AD.
(* qtlib/qtrace.h:17-32 *)
Definition F_IAR_CHANGE : N := 0x8000.
Definition F_NODE : N := 0x4000.
Definition F_TERMINATION : N := 0x2000.
Definition F_PROCESSOR : N := 0x1000.
Definition F_DATA_ADDRESS : N := 0x0800.
Definition F_DATA_VSID : N := 0x0400.
Definition F_DATA_RPN : N := 0x0200.
Definition F_LENGTH : N := 0x0100.
Definition F_DATA : N := 0x0080.
Definition F_IAR : N := 0x0040.
Definition F_IAR_VSID : N := 0x0020.
Definition F_IAR_RPN : N := 0x0010.
Definition F_REGISTER_TRACE : N := 0x0008.
Definition F_EXT : N := 0x0001.
Definition UNHANDLED_FLAGS : N := 0x0006.
(* qtlib/qtrace.h:35-45 *)
Definition F2_SEQ_RPN : N := 0x4000.
Definition F2_ERROR_CODE : N := 0x1000.
Definition F2_IAR_PAGE_SIZE : N := 0x0200.
Definition F2_DATA_PAGE_SIZE : N := 0x0100.
Definition F2_SEQ_PAGE_SIZE : N := 0x0020.
Definition F2_INSN_GPAGE_SIZE : N := 0x0008.
Definition F2_DATA_GPAGE_SIZE : N := 0x0004.
Definition F2_FILE_HEADER : N := 0x0002.
Definition F2_EXT2 : N := 0x0001.
Definition UNHANDLED_FLAGS2 : N := 0xACD0.
(* qtlib/qtrace.h:50-68 *)
Definition SH_HOST_DATA : N := 14.
Definition SH_GUEST_DATA : N := 12.
Definition SH_HOST_INSN : N := 10.
Definition SH_GUEST_INSN : N := 8.
Definition F3_PTCR : N := 0x0080.
Definition F3_LPID : N := 0x0040.
Definition F3_PID : N := 0x0020.
Definition MODE_MASK : N := 3.
Definition MODE_RADIX : N := 0.
Definition MODE_REAL : N := 1.
Definition MODE_NOT_DEFINED : N := 3.
(* qtlib/qtrace.h:71-78 *)
Definition T_MAX_INST_DEPTH : N := 0x40.
Definition T_MAX_BRANCH_DEPTH : N := 0x80.
Definition T_EXCEPTION : N := 0x10.
Definition T_UNCONDITIONAL : N := 0x08.
Definition NR_RADIX_PTES : nat := 4.
Definition MAX_RADIX_WALKS : nat := 5.

(** flags & BIT as a C condition. *)
Definition has (flags bit : N) : bool := negb (N.land flags bit =? 0).

(** ** Records *)
(* qtlib/qtrace_record.h:48-52 *)
Definition UNSPECIFIED : N := 0.
Definition GUEST_REAL : N := 1.
Definition HOST_RADIX : N := 2.

(* qtlib/qtrace_record.h:54-61; host_ptes is 5 rows of 4, host_real_addrs has
   4 entries, guest_real_addrs 5. *)
Record radix := mk_radix {
  rx_type : N;
  rx_nr_ptes : N;
  rx_walks : N;
  rx_host_ptes : list (list N);
  rx_host_real : list N;
  rx_guest_real : list N
}.

Definition zero_radix : radix :=
  mk_radix 0 0 0 (repeat (repeat 0 4) 5) (repeat 0 4) (repeat 0 5).

(* qtlib/qtrace_record.h:63-88: the part used by the writer. *)
Record qrec := mk_qrec {
  q_insn : N;
  q_insn_addr : N;
  q_insn_ra_valid : bool;
  q_insn_ra : N;
  q_insn_ps_valid : bool;
  q_insn_ps : N;
  q_data_addr_valid : bool;
  q_data_addr : N;
  q_data_ra_valid : bool;
  q_data_ra : N;
  q_data_ps_valid : bool;
  q_data_ps : N;
  q_branch : bool;
  q_cond : bool;
  q_ginsn_ps_valid : bool;
  q_ginsn_ps : N;
  q_gdata_ps_valid : bool;
  q_gdata_ps : N;
  q_radix_insn : radix;
  q_radix_data : radix
}.

Definition zero_qrec : qrec :=
  mk_qrec 0 0 false 0 false 0 false 0 false 0 false 0 false false
          false 0 false 0 zero_radix zero_radix.

(** ** Big-endian byte strings (qtlib/endian-helpers.h) *)
Fixpoint put_be (n : nat) (v : N) : list N :=
  match n with
  | O => []
  | S n' => (v / 256 ^ N.of_nat n') mod 256 :: put_be n' v
  end.

Definition put8 (v : N) : list N := put_be 1 v.
Definition put16 (v : N) : list N := put_be 2 v.
Definition put32 (v : N) : list N := put_be 4 v.
Definition put64 (v : N) : list N := put_be 8 v.

(** Value of a big-endian byte string. *)
Definition be_val (l : list N) : N := fold_left (fun a b => a * 256 + b) l 0.
